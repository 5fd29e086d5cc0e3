(** Rounding errors of single-precision sums, differences and products. *)
From Coq Require Import ZArith Reals Lia Lra Psatz Bool.
From Flocq Require Import Core IEEE754.BinarySingleNaN IEEE754.Binary IEEE754.Bits.
From Flocq Require Import Relative.
From Verif Require Import Flt FltProofs.
Open Scope R_scope.

Definition ulp1 : R := / 16777216.
Lemma ulp1_pos : 0 < ulp1. Proof. unfold ulp1. lra. Qed.
Lemma ulp1_bpow : ulp1 = bpow radix2 (-24). Proof. unfold ulp1. cbn. lra. Qed.

Lemma rnd32_err r Y : Rabs r <= Y -> 1 <= Y -> Rabs (rnd32 r - r) <= ulp1 * Y.
Proof.
  intros Hr HY. unfold rnd32. change fexp32 with (FLT_exp (-149) 24).
  destruct (error_N_FLT radix2 (-149) 24 ltac:(lia) (fun x => negb (Z.even x)) r) as (eps & eta & He & Ht & Hp & ->).
  replace (/ 2 * bpow radix2 (- (24) + 1)) with ulp1 in He by (unfold ulp1; cbn; lra).
  replace (r * (1 + eps) + eta - r) with (r * eps + eta) by ring.
  pose proof ulp1_pos as Up.
  destruct (Rmult_integral _ _ Hp) as [->| ->].
  - rewrite Rmult_0_r, Rplus_0_l. eapply Rle_trans; [exact Ht|].
    apply Rle_trans with (ulp1 * 1); [|apply Rmult_le_compat_l; lra].
    rewrite Rmult_1_r, ulp1_bpow.
    apply Rle_trans with (bpow radix2 (-149)); [|apply bpow_le; lia].
    pose proof (bpow_gt_0 radix2 (-149)). lra.
  - rewrite Rplus_0_r, Rabs_mult, (Rmult_comm ulp1). apply Rmult_le_compat; try apply Rabs_pos; [exact Hr|]. exact He.
Qed.

Definition big : R := IZR (2 ^ 100).
Lemma big_bpow r : Rabs r <= 2000 * big -> Rabs r <= bpow radix2 127.
Proof.
  intros H. eapply Rle_trans; [exact H|]. unfold big. rewrite bpow_IZR by lia. rewrite <- mult_IZR. apply IZR_le. vm_compute. discriminate.
Qed.

Lemma fadd_rnd a b : ffinite a = true -> ffinite b = true -> Rabs (rf a + rf b) <= 2000 * big ->
  ffinite (fadd a b) = true /\ rf (fadd a b) = rnd32 (rf a + rf b).
Proof.
  intros Fa Fb H. apply big_bpow in H. unfold fadd, b32_plus.
  match goal with |- context [Bplus _ _ ?p1 ?p2 ?n _ _ _] =>
    pose proof (Bplus_correct 24 128 p1 p2 n mode_NE a b Fa Fb) as C end.
  change (round_mode mode_NE) with ZnearestE in C. fold (rnd32 (rf a + rf b)) in C.
  rewrite small_lt_emax32 in C by exact H. destruct C as (C1 & C2 & _). split; assumption.
Qed.
Lemma fsub_rnd a b : ffinite a = true -> ffinite b = true -> Rabs (rf a - rf b) <= 2000 * big ->
  ffinite (fsub a b) = true /\ rf (fsub a b) = rnd32 (rf a - rf b).
Proof.
  intros Fa Fb H. apply big_bpow in H. unfold fsub, b32_minus.
  match goal with |- context [Bminus _ _ ?p1 ?p2 ?n _ _ _] =>
    pose proof (Bminus_correct 24 128 p1 p2 n mode_NE a b Fa Fb) as C end.
  change (round_mode mode_NE) with ZnearestE in C. fold (rnd32 (rf a - rf b)) in C.
  rewrite small_lt_emax32 in C by exact H. destruct C as (C1 & C2 & _). split; assumption.
Qed.
Lemma fmul_rnd a b : ffinite a = true -> ffinite b = true -> Rabs (rf a * rf b) <= 2000 * big ->
  ffinite (fmul a b) = true /\ rf (fmul a b) = rnd32 (rf a * rf b).
Proof.
  intros Fa Fb H. apply big_bpow in H. unfold fmul, b32_mult.
  match goal with |- context [Bmult _ _ ?p1 ?p2 ?n _ _ _] =>
    pose proof (Bmult_correct 24 128 p1 p2 n mode_NE a b) as C end.
  change (round_mode mode_NE) with ZnearestE in C. fold (rnd32 (rf a * rf b)) in C.
  rewrite small_lt_emax32 in C by exact H. destruct C as (C1 & C2 & _). unfold ffinite in *.
  rewrite Fa, Fb in C2. split; assumption.
Qed.
Lemma fopp_rnd a : ffinite (fopp a) = ffinite a /\ rf (fopp a) = - rf a.
Proof.
  split.
  - unfold ffinite, fopp, b32_opp. apply is_finite_Bopp.
  - unfold fopp, b32_opp. apply B2R_Bopp.
Qed.
