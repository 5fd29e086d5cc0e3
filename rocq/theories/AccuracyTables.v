(** Tables with the floats nearest to sines and cosines. *)
From Coq Require Import Reals Lra Lia Psatz.
From Flocq Require Import Core IEEE754.BinarySingleNaN IEEE754.Binary.
From Verif Require Import Base Spec SpecTransform SpecAccuracy BaseProofs Flt FltProofs Kiss.
Open Scope R_scope.

Definition nearest32 (r : R) : f32 :=
  binary_normalize 24 128 eq_refl eq_refl mode_NE (ZnearestE (r * 16777216)) (-24) false.

Lemma nearest32_close r : Rabs r <= 1 -> close32 (nearest32 r) r.
Proof.
  intros H. unfold nearest32. set (m := ZnearestE (r * 16777216)).
  assert (D : Rabs (IZR m - r * 16777216) <= /2).
  { unfold m. rewrite Rabs_minus_sym. apply Znearest_half. }
  assert (MB : (Z.abs m <= 2^24)%Z).
  { unfold Rabs in D, H. destruct (Rcase_abs (IZR m - r * 16777216)), (Rcase_abs r);
    apply Z.abs_le; split; apply Z.lt_succ_r; apply lt_IZR; rewrite ?succ_IZR, ?opp_IZR; change (IZR (2 ^ 24)) with 16777216; lra. }
  assert (V : F2R (Float radix2 m (-24)) = IZR m / 16777216) by (unfold F2R; cbn; lra).
  assert (G : generic_format radix2 fexp32 (F2R (Float radix2 m (-24)))).
  { destruct (Z.eq_dec (Z.abs m) (2^24)) as [E|N].
    - assert (C : m = (2^24)%Z \/ m = (- 2^24)%Z) by lia. rewrite V. destruct C as [->| ->].
      + replace (IZR (2^24) / 16777216) with (IZR 1) by (cbn; field). apply fmt32_Z. lia.
      + replace (IZR (- 2^24) / 16777216) with (IZR (-1)) by (cbn; field). apply fmt32_Z. lia.
    - change fexp32 with (FLT_exp (-149) 24). apply generic_format_FLT. exists (Float radix2 m (-24)); cbn; try lia. reflexivity. }
  pose proof (binary_normalize_correct 24 128 eq_refl eq_refl mode_NE m (-24) false) as C.
  change (round_mode mode_NE) with ZnearestE in C. fold (rnd32 (F2R (Float radix2 m (-24)))) in C.
  rewrite rnd32_id in C by exact G.
  assert (S : Rabs (IZR m / 16777216 - r) <= / 16777216).
  { replace (IZR m / 16777216 - r) with ((IZR m - r * 16777216) / 16777216) by field.
    unfold Rdiv. rewrite Rabs_mult, (Rabs_pos_eq (/ 16777216)) by lra. lra. }
  rewrite Rlt_bool_true in C.
  - destruct C as (C1 & C2 & _). split; [exact C2|]. rewrite C1, V. exact S.
  - rewrite V. apply Rle_lt_trans with 2; [|rewrite bpow_IZR by lia; apply IZR_lt; lia].
    replace (IZR m / 16777216) with ((IZR m / 16777216 - r) + r) by ring. eapply Rle_trans; [apply Rabs_triang|]. lra.
Qed.

Definition nearest_pair (z : cx) : f32 * f32 := (nearest32 (fst z), nearest32 (snd z)).
Definition nearest_table (e : Z -> Z -> cx) : table := fun n i => nearest_pair (e n i).
Lemma nearest_pair_close t : close_pair (nearest_pair (cis t)) (cis t).
Proof.
  split; cbn [nearest_pair fst snd cis]; apply nearest32_close; apply Rabs_le.
  - pose proof (COS_bound t). lra.
  - pose proof (SIN_bound t). lra.
Qed.
Lemma nearest_tables n : tables_close (nearest_table (o_twiddle exact_ops)) (nearest_table (o_super exact_ops)) (nearest_table (o_shift exact_ops)) n.
Proof. intros i Hi. split; [|split]; apply nearest_pair_close. Qed.
Lemma tables_exist : exists twiddle super shift, forall n, (1 <= n)%Z -> tables_close twiddle super shift n.
Proof. do 3 eexists. intros n _. apply nearest_tables. Qed.
