(** Concrete files, for the examples. *)
From Verif Require Import Base Flt Util Methods Analysis History Spec SpecReport Stdio Pgm Pfm Y4m Image ImageHistory SpecImage Demo.
Open Scope list_scope.
Open Scope Z_scope.

Definition every_reader : readers := mkReaders true true true true true true true.
Definition native_readers : readers := mkReaders true true true false false false false.
(** a %f that knows -1.0 and 1.0 *)
Definition demo_float (l : list Z) : nat * option f32 :=
  match l with
  | 45 :: 49 :: 46 :: 48 :: _ => (4%nat, Some (f32_of_Z (-1)))
  | 49 :: 46 :: 48 :: _ => (3%nat, Some (f32_of_Z 1))
  | _ => (0%nat, None)
  end.
Definition demo_host : host := mkHost false true true demo_float.
Definition strict_host : host := mkHost true true true demo_float.
Definition no_ext : ext_system := mkExt (fun _ _ => inr (-2)) (fun c => (false, RDEOK, [], c)) (fun c _ => (false, RDEOK, [], c)) (fun _ => false) (fun _ => 0%nat).
Lemma no_ext_ok : ext_ok no_ext.
Proof.
  exists (fun _ => 0). split; [cbn; intros; inversion H; discriminate|]. split; [cbn; discriminate|].
  split; cbn; intros; inversion H; subst; (split || reflexivity).
  - reflexivity.
  - split; [cbn; lia|discriminate].
Qed.
(** a system with one file content under every name *)
Definition file_of (l : list Z) : stream := mkStream l 0 false false true.
Definition pipe_of (l : list Z) : stream := mkStream l 0 false false false.
Definition system_of (H : host) (l : list Z) : system :=
  mkSystem H (fun _ => pipe_of l) (fun _ _ => inl (file_of l)) (fun _ => no_ext).
Lemma system_of_ok H l : forallb (fun c => (0 <=? c) && (c <? 256)) l = true -> zlen l <= LONG_MAX -> system_ok (system_of H l).
Proof.
  intros B L. assert (F : Forall byte_ok l).
  { apply Forall_forall. intros c I. rewrite forallb_forall in B. specialize (B c I). unfold byte_ok. lia. }
  assert (SO : forall sk, stream_ok (mkStream l 0 false false sk)).
  { intros sk. split; [exact F|]. cbn [s_pos s_rest s_seekable]. split; [lia|]. intros _. lia. }
  split; [intros n; apply SO|]. split; [intros n f s Q; inversion Q; subst; apply SO|]. split; [intros n f e Q; inversion Q|]. intros x. exact no_ext_ok.
Qed.
Definition w0 : world := mkWorld 0 [] 0 [].

(** a 3x2 PGM *)
Definition demo_pgm : list Z := chars "P5 3 2 255 " ++ [0; 51; 102; 153; 204; 255].
Definition demo_pgm_system : system := system_of demo_host demo_pgm.
Lemma demo_pgm_system_ok : system_ok demo_pgm_system.
Proof. apply system_of_ok; [reflexivity|vm_compute; discriminate]. Qed.
