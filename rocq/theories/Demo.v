(** A concrete environment, used to show that the theorems' hypotheses can be met. *)
From Coq Require Import Permutation Sorted.
From Verif Require Import Base Flt Util Methods Analysis Resdetect History Spec SpecAnalysis SpecUtil SpecReport
  BaseProofs.
Open Scope list_scope.
Open Scope Z_scope.

Fixpoint insert {A} (cmp : A -> A -> Z) (a : A) (l : list A) : list A :=
  match l with
  | [] => [a]
  | b :: t => if cmp a b <=? 0 then a :: b :: t else b :: insert cmp a t
  end.
Definition isort {A} (cmp : A -> A -> Z) (l : list A) : list A := fold_right (insert cmp) [] l.

Lemma insert_perm {A} (cmp : A -> A -> Z) a l : Permutation (a :: l) (insert cmp a l).
Proof.
  induction l as [|b l IH]; cbn [insert]; [apply Permutation_refl|].
  destruct (cmp a b <=? 0); [apply Permutation_refl|].
  eapply perm_trans; [apply perm_swap|]. apply perm_skip. exact IH.
Qed.
Lemma isort_perm {A} (cmp : A -> A -> Z) l : Permutation l (isort cmp l).
Proof.
  induction l as [|a l IH]; [apply Permutation_refl|]. cbn.
  eapply perm_trans; [apply perm_skip; exact IH|]. apply insert_perm.
Qed.
Lemma isort_sorted {A} (cmp : A -> A -> Z) l : consistent cmp l ->
  StronglySorted (fun a b => cmp a b <= 0) (isort cmp l).
Proof.
  intros (T & _ & Tr).
  assert (G : forall l', (forall x, In x l' -> In x l) -> StronglySorted (fun a b => cmp a b <= 0) (isort cmp l')).
  { induction l' as [|a l' IH]; intros Hin; [constructor|]. cbn [isort fold_right].
    assert (IH' := IH (fun x Hx => Hin x (or_intror Hx))). clear IH. fold (isort cmp l').
    assert (Hs : forall x, In x (isort cmp l') -> In x l).
    { intros x Hx. apply Hin. right. eapply Permutation_in; [apply Permutation_sym, isort_perm|exact Hx]. }
    assert (Ha : In a l) by (apply Hin; left; reflexivity).
    clear Hin. induction IH' as [|b t S IH H]; cbn [insert].
    - constructor; constructor.
    - assert (Hb : In b l) by (apply Hs; left; reflexivity).
      destruct (Z.leb_spec (cmp a b) 0) as [L|L].
      + constructor; [constructor; assumption|]. constructor; [exact L|].
        rewrite Forall_forall in *. intros c Hc. apply (Tr a b c); auto. apply Hs. right. exact Hc.
      + constructor.
        * apply IH. intros x Hx. apply Hs. right. exact Hx.
        * apply Forall_forall. intros c Hc. eapply Permutation_in in Hc; [|apply Permutation_sym, insert_perm].
          destruct Hc as [<-|Hc]; [destruct (T a b); auto; lia|]. rewrite Forall_forall in H. apply H. exact Hc. }
  apply G. auto.
Qed.

(** always enough memory, samples taken as coefficients *)
Definition demo_env : env :=
  mkEnv default_config (fun _ => true) (fun _ _ v => v) (fun cmp l => isort cmp l).

Lemma demo_env_ok : env_ok demo_env.
Proof.
  constructor; cbn.
  - reflexivity.
  - auto.
  - intros cmp l H. split; [apply isort_perm|apply isort_sorted; exact H].
Qed.

(** parameters with range 2 and threshold 1/2, set through the API *)
Definition demo_params : option params :=
  snd (set_all (Some (default_params default_config)) [Range 2; Threshold (fdiv (f32_of_Z 1) (f32_of_Z 2))]).

Lemma demo_params_ok : client_params default_config demo_params.
Proof.
  right. exists [Range 2; Threshold (fdiv (f32_of_Z 1) (f32_of_Z 2))], [RDEOK; RDEOK]. split.
  - repeat constructor; simpl; lia.
  - reflexivity.
Qed.

(** a 7x5 plane antisymmetric around column 3 *)
Definition demo_image : list f32 :=
  map f32_of_Z
   [ 9; 5; -4; 3;  4; -5; 1;
     8; 2;  7; 1; -7; -2; 1;
     3; -6; 1; 5; -1;  6; 1;
     2; 4; -3; 2;  3; -4; 1;
     1; 3;  2; 2; -2; -3; 1 ].

Lemma demo_client : client_ok demo_env 7 5 demo_params.
Proof. split; [apply demo_env_ok|]. split; [lia|]. split; [lia|]. apply demo_params_ok. Qed.
