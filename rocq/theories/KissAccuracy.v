(** Rounding errors of the KISS transform in every precision.  The errors are counted in units
    [eps], which are at least the rounding error of the format; lengths are at most [cap]. *)
From Coq Require Import Reals Lra Lia Psatz.
From Flocq Require Import Core Relative IEEE754.BinarySingleNaN IEEE754.Binary.
From Verif Require Import Base Spec SpecTransform BaseProofs Flt FltProofs RoundProofs Precision SpecPrecision PrecisionProofs Util Methods Analysis WorldProofs.
From Verif Require Import Kiss KissPrecision SpecKissPrecision KissProofs KissFactor KissTransform KissExact KissRound.
Open Scope R_scope.

Section Format.
Context (Fm : format) (RM : roomy Fm) (eps : R) (cap : Z).
Hypothesis EPL : bpow radix2 (- f_prec Fm) <= eps.
Hypothesis EPU : eps <= / 1048576.
Hypothesis CAPL : (cap <= 1048576)%Z.
Hypothesis CAPE : IZR cap * eps <= / 16.

Lemma eps_pos : 0 < eps.
Proof. eapply Rlt_le_trans; [apply bpow_gt_0|exact EPL]. Qed.

Lemma eps_mul k c : 0 <= k -> k <= 1048576 * c -> k * eps <= c.
Proof.
  intros H L. pose proof eps_pos. apply Rle_trans with (k * / 1048576); [apply Rmult_le_compat_l; assumption|]. lra.
Qed.

Lemma rn_err r Y : Rabs r <= Y -> 1 <= Y -> Rabs (rn Fm r - r) <= eps * Y.
Proof.
  intros Hr HY. unfold rn. change (SpecFloat.fexp (f_prec Fm) (f_emax Fm)) with (FLT_exp (3 - f_emax Fm - f_prec Fm) (f_prec Fm)).
  destruct RM as [PR EM].
  destruct (error_N_FLT radix2 (3 - f_emax Fm - f_prec Fm) (f_prec Fm) ltac:(lia) (fun x => negb (Z.even x)) r) as (e & eta & He & Ht & Hp & ->).
  assert (He' : Rabs e <= eps).
  { eapply Rle_trans; [exact He|]. eapply Rle_trans; [|exact EPL]. rewrite bpow_plus. change (bpow radix2 1) with 2. right. field. }
  replace (r * (1 + e) + eta - r) with (r * e + eta) by ring.
  pose proof eps_pos as Up.
  destruct (Rmult_integral _ _ Hp) as [->| ->].
  - rewrite Rmult_0_r, Rplus_0_l. eapply Rle_trans; [exact Ht|].
    apply Rle_trans with (eps * 1); [|apply Rmult_le_compat_l; lra].
    rewrite Rmult_1_r. eapply Rle_trans; [|exact EPL].
    apply Rle_trans with (bpow radix2 (3 - f_emax Fm - f_prec Fm)); [|apply bpow_le; lia].
    pose proof (bpow_gt_0 radix2 (3 - f_emax Fm - f_prec Fm)). lra.
  - rewrite Rplus_0_r, Rabs_mult, (Rmult_comm eps). apply Rmult_le_compat; try apply Rabs_pos; [exact Hr|]. exact He'.
Qed.

Lemma big_top r : Rabs r <= 2000 * big -> Rlt_bool (Rabs (rn Fm r)) (bpow radix2 (f_emax Fm)) = true.
Proof.
  intros H. apply (rn_top Fm RM). eapply Rle_trans; [exact H|]. destruct RM as [PR EM].
  apply Rle_trans with (bpow radix2 111); [|apply bpow_le; lia]. unfold big. rewrite bpow_IZR by lia. rewrite <- mult_IZR. apply IZR_le. vm_compute. discriminate.
Qed.

Lemma fadd_rnd a b : finite Fm a = true -> finite Fm b = true -> Rabs (real Fm a + real Fm b) <= 2000 * big ->
  finite Fm (nadd Fm a b) = true /\ real Fm (nadd Fm a b) = rn Fm (real Fm a + real Fm b).
Proof.
  intros Fa Fb H. pose proof (Bplus_correct (f_prec Fm) (f_emax Fm) (f_pos Fm) (f_room Fm) (f_nan2 Fm) mode_NE a b Fa Fb) as C.
  change (round_mode mode_NE) with ZnearestE in C. fold (real Fm a) (real Fm b) in C. fold (rn Fm (real Fm a + real Fm b)) in C.
  rewrite big_top in C by exact H. destruct C as (C1 & C2 & _). split; assumption.
Qed.
Lemma fsub_rnd a b : finite Fm a = true -> finite Fm b = true -> Rabs (real Fm a - real Fm b) <= 2000 * big ->
  finite Fm (nsub Fm a b) = true /\ real Fm (nsub Fm a b) = rn Fm (real Fm a - real Fm b).
Proof.
  intros Fa Fb H. pose proof (Bminus_correct (f_prec Fm) (f_emax Fm) (f_pos Fm) (f_room Fm) (f_nan2 Fm) mode_NE a b Fa Fb) as C.
  change (round_mode mode_NE) with ZnearestE in C. fold (real Fm a) (real Fm b) in C. fold (rn Fm (real Fm a - real Fm b)) in C.
  rewrite big_top in C by exact H. destruct C as (C1 & C2 & _). split; assumption.
Qed.
Lemma fmul_rnd a b : finite Fm a = true -> finite Fm b = true -> Rabs (real Fm a * real Fm b) <= 2000 * big ->
  finite Fm (nmul Fm a b) = true /\ real Fm (nmul Fm a b) = rn Fm (real Fm a * real Fm b).
Proof.
  intros Fa Fb H. pose proof (Bmult_correct (f_prec Fm) (f_emax Fm) (f_pos Fm) (f_room Fm) (f_nan2 Fm) mode_NE a b) as C.
  change (round_mode mode_NE) with ZnearestE in C. fold (real Fm a) (real Fm b) in C. fold (rn Fm (real Fm a * real Fm b)) in C.
  rewrite big_top in C by exact H. destruct C as (C1 & C2 & _). unfold finite in *.
  rewrite Fa, Fb in C2. split; assumption.
Qed.
Lemma fopp_rnd a : finite Fm (nopp Fm a) = finite Fm a /\ real Fm (nopp Fm a) = - real Fm a.
Proof. split; [apply is_finite_Bopp|apply B2R_Bopp]. Qed.

(** [v] is finite, within [k] units of [x], and |x| is at most [c] times [B]; a unit is 2^-24 [B] *)
Definition near (B : R) (v : num Fm) (x c k : R) : Prop :=
  finite Fm v = true /\ Rabs (real Fm v - x) <= k * eps * B /\ Rabs x <= c * B.
(** a trigonometric value *)
Definition trig (v : num Fm) (x : R) : Prop := finite Fm v = true /\ Rabs (real Fm v - x) <= eps /\ Rabs x <= 1.

Section Near.
Variable B : R.
Hypothesis B1 : 1 <= B.
Hypothesis Bb : B <= big.

Lemma near_0 v c : finite Fm v = true -> Rabs (real Fm v) <= c * B -> near B v (real Fm v) c 0.
Proof.
  intros F H. split; [exact F|]. split; [|exact H]. rewrite Rminus_diag_eq by reflexivity. rewrite Rabs_R0. lra.
Qed.
Lemma near_weaken v x c k c' k' : near B v x c k -> c <= c' -> k <= k' -> near B v x c' k'.
Proof.
  intros (F & E & H) Hc Hk. pose proof eps_pos. split; [exact F|]. split.
  - eapply Rle_trans; [exact E|]. apply Rmult_le_compat_r; [lra|]. apply Rmult_le_compat_r; lra.
  - eapply Rle_trans; [exact H|]. apply Rmult_le_compat_r; lra.
Qed.
Lemma near_bound v x c c' k : near B v x c k -> Rabs x <= c' * B -> near B v x c' k.
Proof. intros (F & E & _) H. repeat split; assumption. Qed.
Lemma near_mag v x c k : near B v x c k -> Rabs (real Fm v) <= c * B + k * eps * B.
Proof.
  intros (_ & E & H). replace (real Fm v) with (x + (real Fm v - x)) by ring. eapply Rle_trans; [apply Rabs_triang|]. lra.
Qed.

Lemma round_step r x c k : 1 <= c <= 1000 -> 0 <= k <= 1000000 ->
  Rabs (r - x) <= k * eps * B -> Rabs x <= c * B ->
  Rabs (rn Fm r - x) <= (k + c + 1) * eps * B /\ Rabs r <= 2000 * big.
Proof.
  intros Hc Hk E H. pose proof eps_pos as Up.
  assert (M : Rabs r <= c * B + k * eps * B).
  { replace r with (x + (r - x)) by ring. eapply Rle_trans; [apply Rabs_triang|]. lra. }
  assert (KU : 0 <= k * eps * B <= B).
  { split; [apply Rmult_le_pos; [apply Rmult_le_pos|]; lra|].
    replace B with (1 * B) at 2 by ring. apply Rmult_le_compat_r; [lra|]. apply eps_mul; lra. }
  assert (CB : B <= c * B <= 1000 * B) by nra.
  split; [|lra].
  pose proof (rn_err r (c * B + k * eps * B) M ltac:(lra)) as R1.
  replace (rn Fm r - x) with ((rn Fm r - r) + (r - x)) by ring.
  eapply Rle_trans; [apply Rabs_triang|].
  assert (eps * (c * B + k * eps * B) <= eps * (c * B + B)) by (apply Rmult_le_compat_l; lra). lra.
Qed.

Lemma near_add a b x y c d k l : near B a x c k -> near B b y d l ->
  1 <= c + d <= 1000 -> 0 <= k + l <= 1000000 ->
  near B (nadd Fm a b) (x + y) (c + d) (k + l + (c + d) + 1).
Proof.
  intros (Fa & Ea & Ha) (Fb & Eb & Hb) Hc Hk.
  destruct (round_step (real Fm a + real Fm b) (x + y) (c + d) (k + l)) as (S1 & S2); auto.
  - replace (real Fm a + real Fm b - (x + y)) with ((real Fm a - x) + (real Fm b - y)) by ring.
    eapply Rle_trans; [apply Rabs_triang|]. lra.
  - eapply Rle_trans; [apply Rabs_triang|]. lra.
  - destruct (fadd_rnd a b Fa Fb S2) as (F & V). split; [exact F|]. rewrite V. split; [exact S1|].
    eapply Rle_trans; [apply Rabs_triang|]. lra.
Qed.
Lemma near_sub a b x y c d k l : near B a x c k -> near B b y d l ->
  1 <= c + d <= 1000 -> 0 <= k + l <= 1000000 ->
  near B (nsub Fm a b) (x - y) (c + d) (k + l + (c + d) + 1).
Proof.
  intros (Fa & Ea & Ha) (Fb & Eb & Hb) Hc Hk.
  assert (T : Rabs (x - y) <= (c + d) * B).
  { unfold Rminus. eapply Rle_trans; [apply Rabs_triang|]. rewrite Rabs_Ropp. lra. }
  destruct (round_step (real Fm a - real Fm b) (x - y) (c + d) (k + l)) as (S1 & S2); auto.
  - replace (real Fm a - real Fm b - (x - y)) with ((real Fm a - x) + - (real Fm b - y)) by ring.
    eapply Rle_trans; [apply Rabs_triang|]. rewrite Rabs_Ropp. lra.
  - destruct (fsub_rnd a b Fa Fb S2) as (F & V). split; [exact F|]. rewrite V. split; [exact S1|exact T].
Qed.
Lemma near_neg a x c k : near B a x c k -> near B (nopp Fm a) (- x) c k.
Proof.
  intros (Fa & Ea & Ha). destruct (fopp_rnd a) as (F & V). split; [rewrite F; exact Fa|]. rewrite V. split.
  - replace (- real Fm a - - x) with (- (real Fm a - x)) by ring. rewrite Rabs_Ropp. exact Ea.
  - rewrite Rabs_Ropp. exact Ha.
Qed.
Lemma near_mul a w x t c k : near B a x c k -> trig w t -> 1 <= c <= 1000 -> 0 <= k <= 10000 ->
  near B (nmul Fm a w) (x * t) c (k + 2 * c + 2).
Proof.
  intros (Fa & Ea & Ha) (Fw & Ew & Hw) Hc Hk. pose proof eps_pos as Up.
  assert (P : 0 <= eps * B) by (apply Rmult_le_pos; lra).
  assert (T : Rabs (x * t) <= c * B).
  { rewrite Rabs_mult. replace (c * B) with (c * B * 1) by ring. apply Rmult_le_compat; try apply Rabs_pos; assumption. }
  assert (W : Rabs (real Fm w) <= 1 + eps).
  { replace (real Fm w) with (t + (real Fm w - t)) by ring. eapply Rle_trans; [apply Rabs_triang|]. lra. }
  destruct (round_step (real Fm a * real Fm w) (x * t) c (k + c + 1)) as (S1 & S2); auto.
  - lra.
  - replace (real Fm a * real Fm w - x * t) with ((real Fm a - x) * real Fm w + x * (real Fm w - t)) by ring.
    eapply Rle_trans; [apply Rabs_triang|]. rewrite !Rabs_mult.
    assert (Rabs (real Fm a - x) * Rabs (real Fm w) <= (k * eps * B) * (1 + eps)) by (apply Rmult_le_compat; try apply Rabs_pos; assumption).
    assert (Rabs x * Rabs (real Fm w - t) <= (c * B) * eps) by (apply Rmult_le_compat; try apply Rabs_pos; assumption).
    assert (k * eps * (eps * B) <= 1 * (eps * B)) by (apply Rmult_le_compat_r; [exact P|apply eps_mul; lra]).
    lra.
  - destruct (fmul_rnd a w Fa Fw S2) as (F & V). split; [exact F|]. rewrite V. split; [|exact T].
    eapply Rle_trans; [exact S1|]. right. ring.
Qed.
Lemma nhalf_ok : finite Fm (nhalf Fm) = true /\ real Fm (nhalf Fm) = 1/2.
Proof.
  destruct RM as [PR EM]. pose proof (p_big Fm RM) as PB.
  destruct (of_Z_exact Fm RM 1 ltac:(lia)) as (F1 & S1 & V1). destruct (of_Z_exact Fm RM 2 ltac:(lia)) as (F2 & S2 & V2).
  unfold nhalf, ndiv.
  pose proof (Bdiv_correct (f_prec Fm) (f_emax Fm) (f_pos Fm) (f_room Fm) (f_nan2 Fm) mode_NE (num_of_Z Fm 1) (num_of_Z Fm 2)) as C.
  unfold real, finite in *. rewrite V1, V2 in C. specialize (C ltac:(lra)).
  change (round_mode mode_NE) with ZnearestE in C. fold (rn Fm (1 / 2)) in C.
  assert (E : rn Fm (1 / 2) = 1 / 2).
  { apply rn_id. replace (1 / 2) with (bpow radix2 (-1)) by (cbn; lra). apply (fmt_bpow Fm RM). lia. }
  rewrite E in C. rewrite Rlt_bool_true in C.
  - destruct C as (C1 & C2 & _). rewrite C2, F1. split; [reflexivity|exact C1].
  - rewrite Rabs_pos_eq by lra. apply Rlt_le_trans with (bpow radix2 0); [cbn; lra|]. apply bpow_le. lia.
Qed.
Lemma near_half a x c k : near B a x c k -> 2 <= c <= 1000 -> 0 <= k <= 10000 ->
  near B (nmul Fm a (nhalf Fm)) (x * (1/2)) (c / 2) (k / 2 + c / 2 + 1).
Proof.
  intros (Fa & Ea & Ha) Hc Hk. destruct nhalf_ok as (Fh & Vh).
  assert (T : Rabs (x * (1/2)) <= c / 2 * B).
  { rewrite Rabs_mult, (Rabs_pos_eq (1/2)) by lra. lra. }
  destruct (round_step (real Fm a * real Fm (nhalf Fm)) (x * (1/2)) (c / 2) (k / 2)) as (S1 & S2); try lra.
  - rewrite Vh. replace (real Fm a * (1/2) - x * (1/2)) with ((real Fm a - x) * (1/2)) by ring.
    rewrite Rabs_mult, (Rabs_pos_eq (1/2)) by lra. lra.
  - destruct (fmul_rnd a (nhalf Fm) Fa Fh S2) as (F & V). split; [exact F|]. rewrite V. split; assumption.
Qed.
End Near.

(** ** Complex floats near complex numbers *)
Definition cR (v : num Fm * num Fm) : cx := (real Fm (fst v), real Fm (snd v)).
Definition cfin (v : num Fm * num Fm) : Prop := finite Fm (fst v) = true /\ finite Fm (snd v) = true.
Definition cnear (B : R) (v : num Fm * num Fm) (x : cx) (c k : R) : Prop :=
  near B (fst v) (fst x) c k /\ near B (snd v) (snd x) c k.
Definition ctrig (v : num Fm * num Fm) (x : cx) : Prop :=
  trig (fst v) (fst x) /\ trig (snd v) (snd x) /\ cle x 1.

Section Butterflies.
Variables (twiddle super shift : number_table Fm).
Notation F := (number_ops Fm twiddle super shift).
Variable B : R.
Hypothesis B1 : 1 <= B.
Hypothesis Bb : B <= big.

Lemma cnear_0 v : cfin v -> cle (cR v) B -> cnear B v (cR v) 1 0.
Proof.
  intros (F1 & F2) H. pose proof (cle_fst _ _ H) as H1. pose proof (cle_snd _ _ H) as H2. cbn [cR fst snd] in H1, H2.
  split; cbn [cR fst snd]; apply near_0; try assumption; lra.
Qed.
Lemma cnear_weaken v x c k c' k' : cnear B v x c k -> c <= c' -> k <= k' -> cnear B v x c' k'.
Proof. intros (H1 & H2) Hc Hk. split; eapply near_weaken; eauto. Qed.
Lemma cnear_add a b x y c d k l : cnear B a x c k -> cnear B b y d l ->
  1 <= c + d <= 1000 -> 0 <= k + l <= 1000000 ->
  cnear B (C_ADD F a b) (C_ADD exact_ops x y) (c + d) (k + l + (c + d) + 1).
Proof. intros (H1 & H2) (H3 & H4) Hc Hk. split; cbn; apply near_add; assumption. Qed.
Lemma cnear_sub a b x y c d k l : cnear B a x c k -> cnear B b y d l ->
  1 <= c + d <= 1000 -> 0 <= k + l <= 1000000 ->
  cnear B (C_SUB F a b) (C_SUB exact_ops x y) (c + d) (k + l + (c + d) + 1).
Proof. intros (H1 & H2) (H3 & H4) Hc Hk. split; cbn; apply near_sub; assumption. Qed.
Lemma cnear_scale a w x t c k : cnear B a x c k -> trig w t -> 1 <= c <= 1000 -> 0 <= k <= 10000 ->
  cnear B (C_MULBYSCALAR F a w) (C_MULBYSCALAR exact_ops x t) c (k + 2 * c + 2).
Proof. intros (H1 & H2) Hw Hc Hk. split; cbn; apply near_mul; assumption. Qed.
Lemma cnear_mul a w x t c k : cnear B a x c k -> ctrig w t -> 1 <= c <= 500 -> 0 <= k <= 10000 ->
  cnear B (C_MUL F a w) (C_MUL exact_ops x t) (2 * c) (2 * k + 6 * c + 5).
Proof.
  intros (H1 & H2) (W1 & W2 & _) Hc Hk. split; cbn.
  - eapply (near_weaken B B1); [apply (near_sub B B1 Bb); [apply (near_mul B B1 Bb); [exact H1|exact W1|lra|lra]|apply (near_mul B B1 Bb); [exact H2|exact W2|lra|lra]|lra|lra]|lra|lra].
  - eapply (near_weaken B B1); [apply (near_add B B1 Bb); [apply (near_mul B B1 Bb); [exact H1|exact W2|lra|lra]|apply (near_mul B B1 Bb); [exact H2|exact W1|lra|lra]|lra|lra]|lra|lra].
Qed.

(** the error of a computed complex number *)
Lemma cnear_error v x c k : cnear B v x c k -> 0 <= k -> cfin v /\ cle (csub (cR v) x) (3/2 * (k * eps * B)).
Proof.
  intros ((F1 & E1 & _) & (F2 & E2 & _)) Hk. split; [split; assumption|]. apply cle_parts; assumption.
Qed.

Variables (n s m : Z) (tw : Z -> num Fm * num Fm) (tx : Z -> cx).
Hypothesis Hs : (1 <= s)%Z.
Hypothesis Hm : (1 <= m)%Z.
Hypothesis Htw : forall i, (0 <= i < n)%Z -> ctrig (tw i) (tx i).

Variable x : Z -> num Fm * num Fm.
Variable p : Z.
Hypothesis Hp : (1 <= p)%Z.
Hypothesis HN : (s * (p * m) = n)%Z.
Hypothesis Xf : forall q, (0 <= q < p)%Z -> cfin (x q).
Hypothesis Xb : forall q, (0 <= q < p)%Z -> cle (cR (x q)) B.

Lemma tw_index u q : (0 <= u < m)%Z -> (0 <= q < p)%Z -> (0 <= u * (s * q) < n)%Z.
Proof. intros Hu Hq. split; [nia|]. assert (u * q <= (m - 1) * (p - 1))%Z by nia. assert (u * q + 1 <= p * m)%Z by nia. nia. Qed.
Lemma tw_index' q : (0 <= q < p)%Z -> (0 <= s * q * m < n)%Z.
Proof. intros Hq. split; [nia|]. nia. Qed.
Lemma x_near q : (0 <= q < p)%Z -> cnear B (x q) (cR (x q)) 1 0.
Proof. intros Hq. apply cnear_0; auto. Qed.
Lemma x_mul u q j : (0 <= u < m)%Z -> (0 <= q < p)%Z -> (j = u * (s * q))%Z ->
  cnear B (C_MUL F (x q) (tw j)) (C_MUL exact_ops (cR (x q)) (tx j)) 2 11.
Proof.
  intros Hu Hq ->. eapply cnear_weaken; [eapply cnear_mul; [apply x_near, Hq|apply Htw, tw_index; assumption|lra|lra]|lra|lra].
Qed.

Ltac cadds t := eapply cnear_add; [t|t|lra|lra].
Ltac csubs t := eapply cnear_sub; [t|t|lra|lra].
Ltac adds t t' := eapply (near_add B B1 Bb); [t|t'|lra|lra].
Ltac subs t t' := eapply (near_sub B B1 Bb); [t|t'|lra|lra].
Ltac ea := eassumption.

Lemma bval2_near u q1 : (p = 2)%Z -> (0 <= u < m)%Z ->
  cnear B (bval2 F tw s u x q1) (bval2 exact_ops tx s u (fun q => cR (x q)) q1) 3 15.
Proof.
  intros E Hu. unfold bval2. cbv zeta.
  pose proof (x_near 0 ltac:(lia)) as X0. pose proof (x_mul u 1 (u * s) Hu ltac:(lia) ltac:(lia)) as X1.
  destruct (q1 =? 0).
  - eapply cnear_weaken; [cadds ea|lra|lra].
  - eapply cnear_weaken; [csubs ea|lra|lra].
Qed.

Lemma bval4_near u q1 : (p = 4)%Z -> (0 <= u < m)%Z ->
  cnear B (bval4 F tw s u x q1) (bval4 exact_ops tx s u (fun q => cR (x q)) q1) 7 50.
Proof.
  intros E Hu. unfold bval4. cbv zeta.
  pose proof (x_near 0 ltac:(lia)) as X0. pose proof (x_mul u 1 (u * s) Hu ltac:(lia) ltac:(lia)) as X1.
  pose proof (x_mul u 2 (u * (s * 2)) Hu ltac:(lia) ltac:(lia)) as X2. pose proof (x_mul u 3 (u * (s * 3)) Hu ltac:(lia) ltac:(lia)) as X3.
  set (s0 := C_MUL F (x 1) _) in *. set (s1 := C_MUL F (x 2) _) in *. set (s2 := C_MUL F (x 3) _) in *.
  set (e0 := C_MUL exact_ops (cR (x 1)) _) in *. set (e1 := C_MUL exact_ops (cR (x 2)) _) in *. set (e2 := C_MUL exact_ops (cR (x 3)) _) in *.
  assert (A : cnear B (C_ADD F (x 0%Z) s1) (C_ADD exact_ops (cR (x 0%Z)) e1) 3 15) by (eapply cnear_weaken; [cadds ea|lra|lra]).
  assert (S5 : cnear B (C_SUB F (x 0%Z) s1) (C_SUB exact_ops (cR (x 0%Z)) e1) 3 15) by (eapply cnear_weaken; [csubs ea|lra|lra]).
  assert (S3 : cnear B (C_ADD F s0 s2) (C_ADD exact_ops e0 e2) 4 27) by (eapply cnear_weaken; [cadds ea|lra|lra]).
  assert (S4 : cnear B (C_SUB F s0 s2) (C_SUB exact_ops e0 e2) 4 27) by (eapply cnear_weaken; [csubs ea|lra|lra]).
  destruct (q1 =? 0); [eapply cnear_weaken; [cadds ea|lra|lra]|].
  destruct S5 as (S5a & S5b), S4 as (S4a & S4b).
  destruct (q1 =? 1); [eapply cnear_weaken; [split; [adds ea ea|subs ea ea]|lra|lra]|].
  destruct (q1 =? 2); [eapply cnear_weaken; [csubs ea|lra|lra]|].
  eapply cnear_weaken; [split; [subs ea ea|adds ea ea]|lra|lra].
Qed.

Lemma bval3_near u q1 : (p = 3)%Z -> (0 <= u < m)%Z ->
  cnear B (bval3 F tw m s u x q1) (bval3 exact_ops tx m s u (fun q => cR (x q)) q1) 9 100.
Proof.
  intros E Hu. unfold bval3. cbv zeta.
  pose proof (x_near 0 ltac:(lia)) as X0. pose proof (x_mul u 1 (u * s) Hu ltac:(lia) ltac:(lia)) as X1.
  pose proof (x_mul u 2 (u * (s * 2)) Hu ltac:(lia) ltac:(lia)) as X2.
  destruct (Htw (s * m)) as (_ & T & _); [pose proof (tw_index' 1); lia|].
  set (s1 := C_MUL F (x 1) _) in *. set (s2 := C_MUL F (x 2) _) in *.
  set (e1 := C_MUL exact_ops (cR (x 1)) _) in *. set (e2 := C_MUL exact_ops (cR (x 2)) _) in *.
  assert (S3 : cnear B (C_ADD F s1 s2) (C_ADD exact_ops e1 e2) 4 27) by (eapply cnear_weaken; [cadds ea|lra|lra]).
  assert (S0 : cnear B (C_SUB F s1 s2) (C_SUB exact_ops e1 e2) 4 27) by (eapply cnear_weaken; [csubs ea|lra|lra]).
  set (s3 := C_ADD F s1 s2) in *. set (e3 := C_ADD exact_ops e1 e2) in *.
  set (s0 := C_SUB F s1 s2) in *. set (e0 := C_SUB exact_ops e1 e2) in *.
  destruct (q1 =? 0); [eapply cnear_weaken; [cadds ea|lra|lra]|].
  assert (S0' : cnear B (C_MULBYSCALAR F s0 (snd (tw (s * m)%Z))) (C_MULBYSCALAR exact_ops e0 (snd (tx (s * m)%Z))) 4 37)
    by (eapply cnear_weaken; [eapply cnear_scale; [exact S0|exact T|lra|lra]|lra|lra]).
  destruct S3 as (S3a & S3b), X0 as (X0a & X0b).
  assert (H : forall a e v t, near B v t 1 0 -> near B a e 4 27 ->
     near B (o_sub F v (o_half F a)) (o_sub exact_ops t (o_half exact_ops e)) 3 21).
  { intros a e v t Hv Ha. eapply (near_weaken B B1); [subs ltac:(exact Hv) ltac:(apply (near_half B B1 Bb); [exact Ha|lra|lra])|lra|lra]. }
  pose proof (H _ _ _ _ X0a S3a) as Ma. pose proof (H _ _ _ _ X0b S3b) as Mb.
  destruct S0' as (S0a & S0b).
  destruct (q1 =? 1); (eapply cnear_weaken; [split; cbn [fst snd]; first [adds ea ea|subs ea ea]|lra|lra]).
Qed.

Lemma bval5_near u q1 : (p = 5)%Z -> (0 <= u < m)%Z ->
  cnear B (bval5 F tw m s u x q1) (bval5 exact_ops tx m s u (fun q => cR (x q)) q1) 17 200.
Proof.
  intros E Hu. unfold bval5. cbv zeta.
  pose proof (x_near 0 ltac:(lia)) as X0. pose proof (x_mul u 1 (u * s) Hu ltac:(lia) ltac:(lia)) as X1.
  pose proof (x_mul u 2 (2 * u * s) Hu ltac:(lia) ltac:(lia)) as X2. pose proof (x_mul u 3 (3 * u * s) Hu ltac:(lia) ltac:(lia)) as X3.
  pose proof (x_mul u 4 (4 * u * s) Hu ltac:(lia) ltac:(lia)) as X4.
  destruct (Htw (s * m)) as (A1 & A2 & _); [pose proof (tw_index' 1); lia|].
  destruct (Htw (s * 2 * m)) as (C1 & C2 & _); [pose proof (tw_index' 2); lia|].
  set (s1 := C_MUL F (x 1) _) in *. set (s2 := C_MUL F (x 2) _) in *. set (s3 := C_MUL F (x 3) _) in *. set (s4 := C_MUL F (x 4) _) in *.
  set (e1 := C_MUL exact_ops (cR (x 1)) _) in *. set (e2 := C_MUL exact_ops (cR (x 2)) _) in *. set (e3 := C_MUL exact_ops (cR (x 3)) _) in *. set (e4 := C_MUL exact_ops (cR (x 4)) _) in *.
  assert (S7 : cnear B (C_ADD F s1 s4) (C_ADD exact_ops e1 e4) 4 27) by (eapply cnear_weaken; [cadds ea|lra|lra]).
  assert (S10 : cnear B (C_SUB F s1 s4) (C_SUB exact_ops e1 e4) 4 27) by (eapply cnear_weaken; [csubs ea|lra|lra]).
  assert (S8 : cnear B (C_ADD F s2 s3) (C_ADD exact_ops e2 e3) 4 27) by (eapply cnear_weaken; [cadds ea|lra|lra]).
  assert (S9 : cnear B (C_SUB F s2 s3) (C_SUB exact_ops e2 e3) 4 27) by (eapply cnear_weaken; [csubs ea|lra|lra]).
  set (s7 := C_ADD F s1 s4) in *. set (s10 := C_SUB F s1 s4) in *. set (s8 := C_ADD F s2 s3) in *. set (s9 := C_SUB F s2 s3) in *.
  set (e7 := C_ADD exact_ops e1 e4) in *. set (e10 := C_SUB exact_ops e1 e4) in *. set (e8 := C_ADD exact_ops e2 e3) in *. set (e9 := C_SUB exact_ops e2 e3) in *.
  destruct X0 as (X0a & X0b), S7 as (S7a & S7b), S8 as (S8a & S8b), S9 as (S9a & S9b), S10 as (S10a & S10b).
  assert (M : forall a e w t, near B a e 4 27 -> trig w t -> near B (o_mul F a w) (o_mul exact_ops e t) 4 37).
  { intros a e w t Ha Hw. eapply (near_weaken B B1); [apply (near_mul B B1 Bb); [exact Ha|exact Hw|lra|lra]|lra|lra]. }
  assert (P : forall a b c ea eb ec w v t r, near B a ea 1 0 -> near B b eb 4 27 -> near B c ec 4 27 -> trig w t -> trig v r ->
     near B (o_add F (o_add F a (o_mul F b w)) (o_mul F c v)) (o_add exact_ops (o_add exact_ops ea (o_mul exact_ops eb t)) (o_mul exact_ops ec r)) 9 90).
  { intros. eapply (near_weaken B B1); [eapply (near_add B B1 Bb); [eapply (near_add B B1 Bb); [ea|apply M; ea|lra|lra]|apply M; ea|lra|lra]|lra|lra]. }
  assert (Q1 : forall b c eb ec w v t r, near B b eb 4 27 -> near B c ec 4 27 -> trig w t -> trig v r ->
     near B (o_add F (o_mul F b w) (o_mul F c v)) (o_add exact_ops (o_mul exact_ops eb t) (o_mul exact_ops ec r)) 8 83).
  { intros. eapply (near_weaken B B1); [eapply (near_add B B1 Bb); [apply M; ea|apply M; ea|lra|lra]|lra|lra]. }
  assert (Q2 : forall b c eb ec w v t r, near B b eb 4 27 -> near B c ec 4 27 -> trig w t -> trig v r ->
     near B (o_sub F (o_mul F b w) (o_mul F c v)) (o_sub exact_ops (o_mul exact_ops eb t) (o_mul exact_ops ec r)) 8 83).
  { intros. eapply (near_weaken B B1); [eapply (near_sub B B1 Bb); [apply M; ea|apply M; ea|lra|lra]|lra|lra]. }
  assert (Q3 : forall b c eb ec w v t r, near B b eb 4 27 -> near B c ec 4 27 -> trig w t -> trig v r ->
     near B (o_sub F (o_neg F (o_mul F b w)) (o_mul F c v)) (o_sub exact_ops (o_neg exact_ops (o_mul exact_ops eb t)) (o_mul exact_ops ec r)) 8 83).
  { intros. eapply (near_weaken B B1); [eapply (near_sub B B1 Bb); [apply near_neg, M; ea|apply M; ea|lra|lra]|lra|lra]. }
  assert (Q4 : forall b c eb ec w v t r, near B b eb 4 27 -> near B c ec 4 27 -> trig w t -> trig v r ->
     near B (o_add F (o_neg F (o_mul F b w)) (o_mul F c v)) (o_add exact_ops (o_neg exact_ops (o_mul exact_ops eb t)) (o_mul exact_ops ec r)) 8 83).
  { intros. eapply (near_weaken B B1); [eapply (near_add B B1 Bb); [apply near_neg, M; ea|apply M; ea|lra|lra]|lra|lra]. }
  destruct (q1 =? 0).
  { eapply cnear_weaken; [split; cbn [fst snd]; (eapply (near_add B B1 Bb); [ea|eapply (near_add B B1 Bb); [ea|ea|lra|lra]|lra|lra])|lra|lra]. }
  destruct (q1 =? 1).
  { eapply cnear_weaken; [eapply cnear_sub; [split; cbn [fst snd]; first [apply P; assumption|apply Q1; assumption|apply Q3; assumption]|split; cbn [fst snd]; first [apply P; assumption|apply Q1; assumption|apply Q3; assumption]|lra|lra]|lra|lra]. }
  destruct (q1 =? 2).
  { eapply cnear_weaken; [eapply cnear_add; [split; cbn [fst snd]; first [apply P; assumption|apply Q2; assumption|apply Q4; assumption]|split; cbn [fst snd]; first [apply P; assumption|apply Q2; assumption|apply Q4; assumption]|lra|lra]|lra|lra]. }
  destruct (q1 =? 3).
  { eapply cnear_weaken; [eapply cnear_sub; [split; cbn [fst snd]; first [apply P; assumption|apply Q2; assumption|apply Q4; assumption]|split; cbn [fst snd]; first [apply P; assumption|apply Q2; assumption|apply Q4; assumption]|lra|lra]|lra|lra]. }
  eapply cnear_weaken; [eapply cnear_add; [split; cbn [fst snd]; first [apply P; assumption|apply Q1; assumption|apply Q3; assumption]|split; cbn [fst snd]; first [apply P; assumption|apply Q1; assumption|apply Q3; assumption]|lra|lra]|lra|lra].
Qed.

(** ** The generic radix *)
(** after [j] terms *)
Definition gnear (j : R) (v : num Fm * num Fm) (y : cx) : Prop :=
  cfin v /\ Rabs (real Fm (fst v) - fst y) <= (j * j + 14 * j) * eps * B /\
  Rabs (real Fm (snd v) - snd y) <= (j * j + 14 * j) * eps * B /\ cle y (j * B).

Lemma gsum_step j a y b t : 1 <= j <= IZR cap -> B <= big / 1048576 ->
  finite Fm a = true -> Rabs (real Fm a - y) <= (j * j + 14 * j) * eps * B ->
  near B b t 2 11 -> Rabs (y + t) <= (j + 1) * B ->
  finite Fm (nadd Fm a b) = true /\ Rabs (real Fm (nadd Fm a b) - (y + t)) <= ((j + 1) * (j + 1) + 14 * (j + 1)) * eps * B.
Proof.
  intros Hj HB Fa Ea (Fb & Eb & _) Hs'. pose proof eps_pos as Up.
  set (r := real Fm a + real Fm b).
  assert (D : Rabs (r - (y + t)) <= (j * j + 14 * j + 11) * eps * B).
  { unfold r. replace (real Fm a + real Fm b - (y + t)) with ((real Fm a - y) + (real Fm b - t)) by ring.
    eapply Rle_trans; [apply Rabs_triang|]. lra. }
  assert (S1 : (j * j + 14 * j + 11) * eps <= (j + 1) / 15).
  { assert (j * eps <= / 16) by (eapply Rle_trans; [apply Rmult_le_compat_r; [lra|apply Hj]|exact CAPE]).
    replace ((j * j + 14 * j + 11) * eps) with (j * (j * eps) + (14 * j + 11) * eps) by ring.
    assert (j * (j * eps) <= j * / 16) by (apply Rmult_le_compat_l; lra).
    assert ((14 * j + 11) * eps <= (14 * j + 11) * / 1048576) by (apply Rmult_le_compat_l; lra). lra. }
  assert (M : Rabs r <= (j + 1) * B + (j + 1) / 15 * B).
  { replace r with ((y + t) + (r - (y + t))) by ring. eapply Rle_trans; [apply Rabs_triang|].
    assert ((j * j + 14 * j + 11) * eps * B <= (j + 1) / 15 * B) by (apply Rmult_le_compat_r; lra). lra. }
  assert (Mb : Rabs r <= 2000 * big).
  { eapply Rle_trans; [exact M|]. replace ((j + 1) * B + (j + 1) / 15 * B) with ((16 / 15 * (j + 1)) * B) by field.
    assert (IZR cap <= 1048576) by (apply (IZR_le _ 1048576); exact CAPL).
    apply Rle_trans with (2097152 * B); [apply Rmult_le_compat_r; lra|]. lra. }
  destruct (fadd_rnd a b Fa Fb Mb) as (Ff & ->). split; [exact Ff|].
  fold r. pose proof (rn_err r _ M) as R1. assert (1 <= (j + 1) * B + (j + 1) / 15 * B) as H1 by nra. specialize (R1 H1).
  replace (rn Fm r - (y + t)) with ((rn Fm r - r) + (r - (y + t))) by ring. eapply Rle_trans; [apply Rabs_triang|].
  apply Rle_trans with ((16 / 15 * (j + 1) + (j * j + 14 * j + 11)) * (eps * B)); [lra|].
  rewrite Rmult_assoc. apply Rmult_le_compat_r; [apply Rmult_le_pos; lra|]. lra.
Qed.

Lemma gfold_near k : (0 <= s * k < n)%Z -> B <= big / 1048576 ->
  forall l j st sx, (forall q, In q l -> (0 <= q < p)%Z) -> 1 <= IZR j -> (j + Z.of_nat (List.length l) <= cap)%Z ->
  snd st = snd sx -> (0 <= snd st < n)%Z -> gnear (IZR j) (fst st) (fst sx) ->
  gnear (IZR (j + Z.of_nat (List.length l))) (fst (fold_left (gstep F n tw s k x) l st))
    (fst (fold_left (gstep exact_ops n tx s k (fun q => cR (x q))) l sx)).
Proof.
  intros Hk HB. induction l as [|q l IH]; intros j (a & i) (y & i') Hq Hj HL E Hi G; cbn [fst snd] in *.
  - cbn. replace (j + 0)%Z with j by lia. exact G.
  - subst i'. cbn [fold_left List.length] in *. replace (j + Z.of_nat (S (List.length l)))%Z with ((j + 1) + Z.of_nat (List.length l))%Z by lia.
    unfold gstep at 2 4. cbn [fst snd].
    set (i1 := (if i + s * k >=? n then i + s * k - n else i + s * k)%Z).
    assert (I1 : (0 <= i1 < n)%Z) by (unfold i1; destruct (Z.geb_spec (i + s * k) n); lia).
    apply IH; cbn [fst snd]; auto.
    + intros q' Hq'. apply Hq. right. exact Hq'.
    + rewrite plus_IZR. lra.
    + lia.
    + assert (Q : (0 <= q < p)%Z) by (apply Hq; left; reflexivity).
      assert (T : cnear B (C_MUL F (x q) (tw i1)) (C_MUL exact_ops (cR (x q)) (tx i1)) 2 11).
      { eapply cnear_weaken; [eapply cnear_mul; [apply x_near, Q|apply Htw, I1|lra|lra]|lra|lra]. }
      destruct T as (T1 & T2). destruct G as ((Fa & Fb) & Ga & Gb & Gc).
      assert (J : IZR j <= IZR cap) by (apply IZR_le; lia).
      assert (C : cle (C_ADD exact_ops y (C_MUL exact_ops (cR (x q)) (tx i1))) ((IZR j + 1) * B)).
      { replace ((IZR j + 1) * B) with (IZR j * B + B * 1) by ring. apply cle_add; [exact Gc|].
        apply cle_mul; [apply Xb, Q|]. apply Htw, I1. }
      pose proof (cle_fst _ _ C) as C1. pose proof (cle_snd _ _ C) as C2.
      destruct (gsum_step (IZR j) (fst a) (fst y) _ _ ltac:(lra) HB Fa Ga T1 C1) as (H1 & H2).
      destruct (gsum_step (IZR j) (snd a) (snd y) _ _ ltac:(lra) HB Fb Gb T2 C2) as (H3 & H4).
      rewrite plus_IZR. repeat split; try assumption; apply C.
Qed.

Definition kappa (p : Z) : R := IZR (2 * p + 50) * eps.

Lemma bval_near u q1 : (p <= cap)%Z -> B <= big / 1048576 -> (0 <= u < m)%Z -> (0 <= q1 < p)%Z ->
  cfin (bval F n tw p m s u x q1) /\
  cle (csub (cR (bval F n tw p m s u x q1)) (bval exact_ops n tx p m s u (fun q => cR (x q)) q1)) (kappa p * IZR p * B).
Proof.
  intros HpM HB Hu Hq1. pose proof eps_pos as Up. unfold bval, kappa.
  assert (P : 0 <= eps * B) by (apply Rmult_le_pos; lra).
  assert (K : forall v y c k k', cnear B v y c k -> 0 <= k -> 3/2 * k <= k' -> cfin v /\ cle (csub (cR v) y) (k' * (eps * B))).
  { intros v y c k k' H Hk Hk'. destruct (cnear_error v y c k H Hk) as (A & C). split; [exact A|].
    eapply cle_weaken; [exact C|]. apply Rle_trans with (3/2 * k * (eps * B)); [lra|]. apply Rmult_le_compat_r; assumption. }
  replace (IZR (2 * p + 50) * eps * IZR p * B) with ((IZR (2 * p + 50) * IZR p) * (eps * B)) by ring.
  destruct (Z.eqb_spec p 2) as [E|]; [|destruct (Z.eqb_spec p 3) as [E|]; [|destruct (Z.eqb_spec p 4) as [E|]; [|destruct (Z.eqb_spec p 5) as [E|]]]].
  - eapply K; [apply bval2_near; assumption|lra|rewrite E; cbn; lra].
  - eapply K; [apply bval3_near; assumption|lra|rewrite E; cbn; lra].
  - eapply K; [apply bval4_near; assumption|lra|rewrite E; cbn; lra].
  - eapply K; [apply bval5_near; assumption|lra|rewrite E; cbn; lra].
  - unfold bvalg.
    assert (G0 : gnear 1 (x 0%Z) (cR (x 0%Z))).
    { split; [apply Xf; lia|]. unfold cR. cbn [fst snd]. rewrite !Rminus_diag_eq by reflexivity. rewrite Rabs_R0.
      split; [nra|]. split; [nra|]. rewrite Rmult_1_l. apply Xb. lia. }
    assert (SK : (0 <= s * (u + q1 * m) < n)%Z).
    { assert (0 <= u + q1 * m < p * m)%Z by nia. nia. }
    pose proof (gfold_near (u + q1 * m) SK HB (zrange 1 p) 1 (x 0%Z, 0%Z) (cR (x 0%Z), 0%Z)) as G.
    assert (LN : (1 + Z.of_nat (List.length (zrange 1 p)) = p)%Z) by (pose proof (zlen_zrange 1 p ltac:(lia)) as Z1; unfold zlen in Z1; lia).
    rewrite LN in G. cbn [fst snd] in G.
    destruct G as (GF & G1 & G2 & _).
    + intros q Hq. apply in_zrange in Hq. lia.
    + lra.
    + exact HpM.
    + reflexivity.
    + nia.
    + exact G0.
    + split; [exact GF|]. eapply cle_weaken; [apply cle_parts; [exact G1|exact G2]|].
      apply Rle_trans with ((3/2 * (IZR p * IZR p + 14 * IZR p)) * (eps * B)); [lra|].
      apply Rmult_le_compat_r; [exact P|]. rewrite plus_IZR, mult_IZR.
      assert (1 <= IZR p) by (apply (IZR_le 1); lia). nra.
Qed.
End Butterflies.

(** the factor by which the passes of a factor table increase errors *)
Fixpoint growth (l : list Z) : R :=
  match l with
  | p :: m :: l => (1 + kappa p) * (if (m =? 1)%Z then 1 else growth l)
  | _ => 1
  end.

Lemma kappa_pos p : (1 <= p)%Z -> 0 <= kappa p.
Proof.
  intros H. unfold kappa. pose proof eps_pos. assert (0 <= IZR (2 * p + 50)) by (apply (IZR_le 0); lia). nra.
Qed.
Lemma growth_ge l N : factors_ok l N -> 1 <= growth l.
Proof.
  induction 1 as [p rest Hp|p m rest Hp Hm H IH]; cbn [growth]; pose proof (kappa_pos p Hp).
  - cbn [Z.eqb Pos.eqb]. lra.
  - replace (m =? 1)%Z with false by lia. nra.
Qed.

Section FFT.
Variables (twiddle super shift : number_table Fm).
Notation F := (number_ops Fm twiddle super shift).
Variables (n : Z) (tw : list (num Fm * num Fm)) (te : list cx).
Hypothesis Hte : forall i, (0 <= i < n)%Z -> at_ (czero exact_ops) te i = W n i.
Hypothesis Htw : forall i, (0 <= i < n)%Z -> ctrig (at_ (czero F) tw i) (W n i).

Lemma Htw' i : (0 <= i < n)%Z -> ctrig (at_ (czero F) tw i) (at_ (czero exact_ops) te i).
Proof. intros H. rewrite Hte by exact H. apply Htw, H. Qed.

Lemma pass_near p m s x y u q1 B e : (1 <= s)%Z -> (1 <= m)%Z -> (1 <= p <= cap)%Z -> (s * (p * m) = n)%Z ->
  (0 <= u < m)%Z -> (0 <= q1 < p)%Z -> 1 <= B -> B <= big / 1048576 -> 0 <= e ->
  (forall q, (0 <= q < p)%Z -> cfin (x q) /\ cle (cR (x q)) B /\ cle (csub (cR (x q)) (y q)) e) ->
  let v := bval F n (at_ (czero F) tw) p m s u x q1 in
  cfin v /\ cle (csub (cR v) (bval exact_ops n (at_ (czero exact_ops) te) p m s u y q1)) (kappa p * IZR p * B + IZR p * e).
Proof.
  intros Hs Hm Hp HN Hu Hq B1 BB He H v.
  assert (big_pos : 0 <= big) by (unfold big; apply (IZR_le 0); lia).
  assert (Bb : B <= big) by lra.
  destruct (bval_near twiddle super shift B B1 Bb n s m (at_ (czero F) tw) (at_ (czero exact_ops) te) Hs Hm Htw' x p ltac:(lia) HN
     (fun q Hq => proj1 (H q Hq)) (fun q Hq => proj1 (proj2 (H q Hq))) u q1 ltac:(lia) BB Hu Hq) as (V & E).
  fold v in V, E. split; [exact V|].
  rewrite (bval_exact n s m) in E |- * by (try lia; exact Hte).
  replace (csub (cR v) (bfly n s m p u y q1)) with
    (cadd (csub (cR v) (bfly n s m p u (fun q => cR (x q)) q1)) (csub (bfly n s m p u (fun q => cR (x q)) q1) (bfly n s m p u y q1))) by cring.
  apply cle_add; [exact E|]. rewrite bfly_sub by lia. apply bfly_cle; [lia|exact He|]. intros q Hq'. apply H, Hq'.
Qed.

Lemma cle_near a b r e : cle b r -> cle (csub a b) e -> cle a (r + e).
Proof. intros H E. replace a with (cadd b (csub a b)) by cring. apply cle_add; assumption. Qed.

Lemma fft_near l N : factors_ok l N -> forall s x k M, (1 <= s)%Z -> (s * N = n)%Z -> (N <= cap)%Z -> (0 <= k < N)%Z ->
  1 <= M -> growth l * IZR N * M <= big / 1048576 ->
  (forall j, (0 <= j < N)%Z -> cfin (x j) /\ cle (cR (x j)) M) ->
  let v := fft_val F tw n l s x k in
  let e := fft_val exact_ops te n l s (fun j => cR (x j)) k in
  cfin v /\ cle e (IZR N * M) /\ cle (csub (cR v) e) ((growth l - 1) * (IZR N * M)).
Proof.
  intros FO. pose proof FO as FO'. induction FO as [p rest Hp|p m rest Hp Hm H IH]; intros s x k M Hs HN HM Hk M1 MB HX v e.
  - assert (P1 : 1 <= IZR p) by (apply (IZR_le 1); lia).
    assert (E0 : cle e (IZR p * M)).
    { unfold e. rewrite (fft_val_exact te n Hte _ p FO') by lia. apply cle_csum; [lia|lra|]. intros j Hj.
      rewrite <- (Rmult_1_r M). apply cle_mul; [apply HX, Hj|apply W_cle]. }
    pose proof (kappa_pos p Hp) as KP.
    assert (A : cfin v /\ cle (csub (cR v) e) (kappa p * IZR p * M + IZR p * 0)).
    { unfold v, e. cbn [fft_val]. rewrite Z.mod_1_r, Z.div_1_r. cbn [Z.eqb Pos.eqb].
      apply pass_near; try lia; try lra.
      - cbn [growth Z.eqb Pos.eqb] in MB. assert (1 <= (1 + kappa p) * IZR p) by nra. eapply Rle_trans; [|exact MB].
        replace ((1 + kappa p) * 1 * IZR p * M) with ((1 + kappa p) * IZR p * M) by ring. nra.
      - intros q Hq. destruct (HX q Hq) as (A & C). split; [exact A|]. split; [exact C|].
        replace (csub (cR (x q)) (cR (x q))) with (0, 0) by cring. apply cle_0. }
    destruct A as (A & C). split; [exact A|]. split; [exact E0|]. eapply cle_weaken; [exact C|]. cbn [growth Z.eqb Pos.eqb]. right. ring.
  - assert (P1 : 1 <= IZR p) by (apply (IZR_le 1); lia). assert (Q1 : 1 <= IZR m) by (apply (IZR_le 1); lia).
    assert (E0 : cle e (IZR (p * m) * M)).
    { unfold e. rewrite (fft_val_exact te n Hte _ _ FO') by lia. apply cle_csum; [lia|lra|]. intros j Hj.
      rewrite <- (Rmult_1_r M). apply cle_mul; [apply HX, Hj|apply W_cle]. }
    pose proof (kappa_pos p Hp) as KP. pose proof (growth_ge _ _ H) as GP.
    pose proof (Z.mod_pos_bound k m ltac:(lia)) as Hu.
    assert (Hq : (0 <= k / m < p)%Z).
    { split; [apply Z.div_pos; lia|]. apply Z.div_lt_upper_bound; [lia|]. rewrite Z.mul_comm. apply Hk. }
    cbn [growth] in MB |- *. replace (m =? 1)%Z with false in MB |- * by lia. rewrite mult_IZR in *.
    set (g := growth rest) in *. set (mm := IZR m) in *. set (pp := IZR p) in *.
    assert (BB : g * mm * M <= big / 1048576).
    { eapply Rle_trans; [|exact MB]. replace ((1 + kappa p) * g * (pp * mm) * M) with ((1 + kappa p) * pp * (g * mm * M)) by ring.
      assert (0 <= g * mm * M) by (apply Rmult_le_pos; [apply Rmult_le_pos|]; lra).
      assert (1 <= (1 + kappa p) * pp) by nra. nra. }
    assert (B1 : 1 <= g * mm * M).
    { assert (1 <= g * mm) by nra. nra. }
    assert (A : cfin v /\ cle (csub (cR v) e) (kappa p * pp * (g * mm * M) + pp * ((g - 1) * (mm * M)))).
    { unfold v, e. cbn [fft_val]. replace (m =? 1)%Z with false by lia.
      apply pass_near; try assumption; try lia; try nia.
      - apply Rmult_le_pos; [lra|]. nra.
      - intros q Hq'.
        destruct (IH H (s * p)%Z (fun r => x (q + p * r)%Z) (k mod m)%Z M) as (I1 & I2 & I3); try assumption.
        + nia.
        + lia.
        + assert (m <= p * m)%Z by nia. lia.
        + intros j Hj. apply HX. nia.
        + fold g mm in I2, I3. split; [exact I1|]. split; [|exact I3].
          replace (g * mm * M) with (mm * M + (g - 1) * (mm * M)) by ring. eapply cle_near; [exact I2|exact I3]. }
    destruct A as (A & C). split; [exact A|]. split; [exact E0|]. eapply cle_weaken; [exact C|]. right. ring.
Qed.
End FFT.

(** ** The real FFT and the DCT of one line *)
Section Line.
Variables (twiddle super shift : number_table Fm).
Notation F := (number_ops Fm twiddle super shift).
Variable B : R.
Hypothesis B1 : 1 <= B.
Hypothesis Bb : B <= big.
Variables (n : Z) (sup : Z -> num Fm * num Fm) (se : Z -> cx).
Hypothesis Hsup : forall i, (0 <= i < n / 2)%Z -> ctrig (sup i) (se i).

Ltac cweak := eapply (cnear_weaken B B1); [|lra|lra].

Lemma f0_ok : finite Fm (n0 Fm) = true /\ real Fm (n0 Fm) = 0.
Proof. destruct (n0_val Fm RM) as (A & _ & C). split; assumption. Qed.

Lemma rfft_near Y k : (0 <= k < n)%Z -> (forall j, (0 <= j < n)%Z -> cfin (Y j) /\ cle (cR (Y j)) B) ->
  cnear B (rfft_val F sup n Y k) (rfft_val exact_ops se n (fun j => cR (Y j)) k) 3 (41/2).
Proof.
  intros Hk HY. unfold rfft_val.
  assert (N0 : forall j, (0 <= j < n)%Z -> cnear B (Y j) (cR (Y j)) 1 0).
  { intros j Hj. destruct (HY j Hj). apply cnear_0; assumption. }
  assert (NN : forall j, (0 <= j < n)%Z -> cnear B (fst (Y j), o_neg F (snd (Y j))) (fst (cR (Y j)), o_neg exact_ops (snd (cR (Y j)))) 1 0).
  { intros j Hj. destruct (N0 j Hj) as (A & C). split; cbn [fst snd]; [exact A|]. apply near_neg. exact C. }
  assert (H : forall j, (1 <= j)%Z -> (2 * j <= n)%Z -> (j < n)%Z ->
     cnear B (C_ADD F (Y j) (fst (Y (n - j)%Z), o_neg F (snd (Y (n - j)%Z))))
       (C_ADD exact_ops (cR (Y j)) (fst (cR (Y (n - j)%Z)), o_neg exact_ops (snd (cR (Y (n - j)%Z))))) 2 3 /\
     cnear B (C_MUL F (C_SUB F (Y j) (fst (Y (n - j)%Z), o_neg F (snd (Y (n - j)%Z)))) (sup (j - 1)%Z))
       (C_MUL exact_ops (C_SUB exact_ops (cR (Y j)) (fst (cR (Y (n - j)%Z)), o_neg exact_ops (snd (cR (Y (n - j)%Z))))) (se (j - 1)%Z)) 4 23).
  { intros j Hj Hj2 Hj3. split.
    - eapply (cnear_weaken B B1); [eapply (cnear_add twiddle super shift B B1 Bb); [apply N0; lia|apply NN; lia|lra|lra]|lra|lra].
    - eapply (cnear_weaken B B1); [eapply (cnear_mul twiddle super shift B B1 Bb); [eapply (cnear_sub twiddle super shift B B1 Bb); [apply N0; lia|apply NN; lia|lra|lra]|apply Hsup|lra|lra]|lra|lra].
      split; [lia|]. apply Z.lt_le_trans with j; [lia|]. apply Z.div_le_lower_bound; lia. }
  assert (HH : forall a e, near B a e 6 33 -> near B (o_half F a) (o_half exact_ops e) 3 (41/2)).
  { intros a e Ha. eapply (near_weaken B B1); [apply (near_half B B1 Bb); [exact Ha|lra|lra]|lra|lra]. }
  destruct (Z.eqb_spec k 0).
  { split; cbn [fst snd].
    - destruct (N0 0%Z ltac:(lia)) as (A & C). eapply (near_weaken B B1); [eapply (near_add B B1 Bb); [exact A|exact C|lra|lra]|lra|lra].
    - cbn [o_zero number_ops exact_ops]. destruct f0_ok as (F0 & V0). rewrite <- V0.
      eapply (near_weaken B B1); [apply (near_0 B (n0 Fm) 0); [exact F0|rewrite V0, Rabs_R0; lra]|lra|lra]. }
  destruct (Z.eqb_spec k n); [lia|].
  destruct (Z.ltb_spec k (n - k)).
  - destruct (H k ltac:(lia) ltac:(lia) ltac:(lia)) as ((A1 & A2) & (C1 & C2)). unfold rfft_lo. cbv zeta.
    split; cbn [fst snd]; apply HH; (eapply (near_weaken B B1); [eapply (near_add B B1 Bb); [eassumption|eassumption|lra|lra]|lra|lra]).
  - destruct (H (n - k)%Z ltac:(lia) ltac:(lia) ltac:(lia)) as ((A1 & A2) & (C1 & C2)). unfold rfft_hi. cbv zeta.
    split; cbn [fst snd]; apply HH; (eapply (near_weaken B B1); [eapply (near_sub B B1 Bb); [eassumption|eassumption|lra|lra]|lra|lra]).
Qed.

(** the exact post-processing is linear *)
Lemma rfft_exact_diff Y V k d : (0 <= k < n)%Z -> (forall i, (0 <= i < n / 2)%Z -> cle (se i) 1) ->
  (forall j, (0 <= j < n)%Z -> cle (csub (Y j) (V j)) d) ->
  cle (csub (rfft_val exact_ops se n Y k) (rfft_val exact_ops se n V k)) (2 * d).
Proof.
  intros Hk Hse H. unfold rfft_val.
  assert (G : forall j, (1 <= j)%Z -> (2 * j <= n)%Z -> (j < n)%Z ->
     let a := csub (Y j) (V j) in let b := conj (csub (Y (n - j)%Z) (V (n - j)%Z)) in
     cle (cmul (re (1/2)) (cadd (cadd a b) (cmul (csub a b) (se (j - 1)%Z)))) (2 * d) /\
     cle (cmul (re (1/2)) (csub (cadd a b) (cmul (csub a b) (se (j - 1)%Z)))) (2 * d)).
  { intros j J1 J2 J3 a b. assert (Ha : cle a d) by (apply H; lia). assert (Hb : cle b d) by (apply cle_conj, H; lia).
    assert (S1 : cle (se (j - 1)%Z) 1).
    { apply Hse. split; [lia|]. apply Z.lt_le_trans with j; [lia|]. apply Z.div_le_lower_bound; lia. }
    assert (R2 : cle (re (1/2)) (1/2)) by (split; cbn; lra).
    replace (2 * d) with (1/2 * ((d + d) + (d + d) * 1)) by field.
    split; (apply cle_mul; [exact R2|]); [apply cle_add|apply cle_sub]; try (apply cle_add; assumption); (apply cle_mul; [apply cle_sub; assumption|exact S1]). }
  destruct (Z.eqb_spec k 0).
  { cbn [exact_ops o_add o_zero]. pose proof (H 0%Z ltac:(lia)) as H0. destruct H0 as (D & H0). cbn [csub fst snd] in H0.
    split; [lra|]. cbn [csub fst snd].
    set (a := fst (Y 0%Z)) in *. set (b := snd (Y 0%Z)) in *. set (c := fst (V 0%Z)) in *. set (f := snd (V 0%Z)) in *.
    replace (a + b - (c + f)) with ((a - c) + (b - f)) by ring. replace (0 - 0) with 0 by ring.
    set (s := a - c) in *. set (t := b - f) in *. pose proof (Rle_0_sqr (s - t)) as Q. unfold Rsqr in Q. nra. }
  destruct (Z.eqb_spec k n); [lia|].
  destruct (Z.ltb_spec k (n - k)).
  - destruct (G k ltac:(lia) ltac:(lia) ltac:(lia)) as (G1 & _).
    match goal with |- cle ?a _ => match type of G1 with cle ?b _ => replace a with b; [exact G1|] end end.
    unfold rfft_lo. eops. cbn [exact_ops o_half o_add o_neg]. cring.
  - destruct (G (n - k)%Z ltac:(lia) ltac:(lia) ltac:(lia)) as (_ & G2). apply cle_conj in G2.
    match goal with |- cle ?a _ => match type of G2 with cle ?b _ => replace a with b; [exact G2|] end end.
    unfold rfft_hi. eops. cbn [exact_ops o_half o_sub o_add o_neg]. cring.
Qed.
End Line.

Lemma close_trig v t : pair_within Fm eps v (cis t) -> ctrig v (cis t).
Proof.
  intros ((F1 & E1) & (F2 & E2)). split; [|split; [|apply cle_cis]]; (split; [assumption|]); (split; [assumption|]); cbn [cis fst snd].
  - apply Rabs_le. pose proof (COS_bound t). lra.
  - apply Rabs_le. pose proof (SIN_bound t). lra.
Qed.

Section Dct.
Variables (twiddle super shift : number_table Fm).
Notation F := (number_ops Fm twiddle super shift).
Variables (n : Z) (d : @direction (num Fm)) (de : @direction R).
Hypothesis Hn : (1 <= n <= cap)%Z.
Hypothesis Hd : direction_ok F n d.
Hypothesis Hde : direction_ok exact_ops n de.
Hypothesis Hl : ft_factors (fr_sub (dr_cfg de)) = ft_factors (fr_sub (dr_cfg d)).
Hypothesis HT : tables_within Fm eps twiddle super shift n.
Notation l := (ft_factors (fr_sub (dr_cfg d))).
Notation g := (growth l).

Lemma dct_near x M i : 1 <= M -> g * IZR n * (3/2 * M) <= big / 1048576 -> (0 <= i < n)%Z ->
  (forall j, (0 <= j < n)%Z -> finite Fm (x j) = true /\ Rabs (real Fm (x j)) <= M) ->
  finite Fm (dct_val F d n x i) = true /\
  Rabs (real Fm (dct_val F d n x i) - dct n (fun j => real Fm (x j)) i) <= 2 * IZR n * M * (3/2 * (g * (1 + 32 * eps) - 1)).
Proof.
  intros M1 MB Hi HX.
  rewrite <- (dct_val_exact n de) by (assumption || lia).
  destruct Hd as [Hc Hsl Hsh]. destruct Hc as [Hsub Hsupl Hsup _]. destruct Hsub as [_ HF _ HTw].
  destruct Hde as [Hce _ Hshe]. destruct Hce as [Hsube _ Hsupe _]. destruct Hsube as [_ _ _ HTwe].
  set (tw := ft_twiddles (fr_sub (dr_cfg d))) in *.
  set (te := ft_twiddles (fr_sub (dr_cfg de))) in *.
  pose proof (growth_ge _ _ HF) as G1. pose proof eps_pos as Up.
  assert (N1 : 1 <= IZR n) by (apply (IZR_le 1); lia).
  assert (n2 : (0 <= n / 2 <= n)%Z) by (split; [apply Z.div_pos; lia|apply Z.div_le_upper_bound; lia]).
  set (px := fun j : Z => (mirrored n x (2 * j)%Z, mirrored n x (2 * j + 1)%Z)).
  assert (HP : forall j, (0 <= j < n)%Z -> cfin (px j) /\ cle (cR (px j)) (3/2 * M)).
  { intros j Hj.
    assert (Q : forall t, (0 <= t < 2 * n)%Z -> finite Fm (mirrored n x t) = true /\ Rabs (real Fm (mirrored n x t)) <= M).
    { intros t Ht. unfold mirrored. destruct (Z.ltb_spec t n); apply HX; lia. }
    destruct (Q (2 * j)%Z ltac:(lia)), (Q (2 * j + 1)%Z ltac:(lia)). split; [split; assumption|]. apply cle_parts; assumption. }
  set (Y := fft_val F tw n l 1 px). set (E := fft_val exact_ops te n l 1 (fun j => cR (px j))).
  assert (HY : forall k, (0 <= k < n)%Z -> cfin (Y k) /\ cle (E k) (IZR n * (3/2 * M)) /\ cle (csub (cR (Y k)) (E k)) ((g - 1) * (IZR n * (3/2 * M)))).
  { intros k Hk. apply (fft_near twiddle super shift n tw te); try assumption; try lia; try lra.
    - intros t Ht. rewrite HTw by exact Ht. destruct (HT t Ht) as (A & _). apply close_trig. exact A. }
  set (B := g * (IZR n * (3/2 * M))).
  assert (B1 : 1 <= B).
  { unfold B. assert (1 <= IZR n * (3/2 * M)) by (replace 1 with (1 * 1) by ring; apply Rmult_le_compat; lra).
    replace 1 with (1 * 1) by ring. apply Rmult_le_compat; lra. }
  assert (big_pos : 0 <= big) by (unfold big; apply (IZR_le 0); lia).
  assert (Bb : B <= big) by (unfold B; lra).
  assert (YB : forall k, (0 <= k < n)%Z -> cfin (Y k) /\ cle (cR (Y k)) B).
  { intros k Hk. destruct (HY k Hk) as (A & C & D). split; [exact A|].
    replace B with (IZR n * (3/2 * M) + (g - 1) * (IZR n * (3/2 * M))) by (unfold B; ring). eapply cle_near; eassumption. }
  set (sf := at_ (czero F) (fr_super (dr_cfg d))). set (se := at_ (czero exact_ops) (fr_super (dr_cfg de))).
  assert (HS : forall t, (0 <= t < n / 2)%Z -> ctrig (sf t) (se t)).
  { intros t Ht. unfold sf, se. rewrite Hsup, Hsupe by exact Ht. destruct (HT t ltac:(lia)) as (_ & A & _). apply close_trig. exact A. }
  pose proof (rfft_near twiddle super shift B B1 Bb n sf se HS Y i Hi YB) as RN.
  assert (RD : cle (csub (rfft_val exact_ops se n (fun j => cR (Y j)) i) (rfft_val exact_ops se n E i)) (2 * ((g - 1) * (IZR n * (3/2 * M))))).
  { apply rfft_exact_diff; [exact Hi| |].
    - intros t Ht. apply HS, Ht.
    - intros j Hj. apply HY, Hj. }
  set (R0 := rfft_val F sf n Y i) in *. set (R1 := rfft_val exact_ops se n (fun j => cR (Y j)) i) in *. set (R2 := rfft_val exact_ops se n E i) in *.
  set (s0 := at_ (czero F) (dr_shift d) i). set (s1 := at_ (czero exact_ops) (dr_shift de) i).
  assert (TS : ctrig s0 s1).
  { unfold s0, s1. rewrite Hsh, Hshe by exact Hi. destruct (HT i Hi) as (_ & _ & A). apply close_trig. exact A. }
  assert (EQ : dct_val exact_ops de n (fun j => real Fm (x j)) i = fst (cmul R2 s1)).
  { unfold dct_val, real_fft. fold se te. rewrite Hl. fold s1.
    assert (X : rfft_val exact_ops se n (fft_val exact_ops te n l 1 (fun j => (mirrored n (fun j => real Fm (x j)) (2 * j)%Z, mirrored n (fun j => real Fm (x j)) (2 * j + 1)%Z))) i = R2).
    { apply rfft_val_ext; [lia|lia|]. intros j Hj. apply (fft_val_ext exact_ops te n l n); [exact HF|exact Hj|]. intros t Ht.
      unfold px, cR. cbn [fst snd]. unfold mirrored. destruct (_ <? n), (_ <? n); reflexivity. }
    cbv zeta. rewrite X. reflexivity. }
  rewrite EQ.
  assert (EF : dct_val F d n x i = nsub Fm (nmul Fm (fst R0) (fst s0)) (nmul Fm (snd R0) (snd s0))) by reflexivity.
  rewrite EF.
  destruct RN as (A & C). destruct TS as (T1 & T2 & T3).
  assert (NR : near B (nsub Fm (nmul Fm (fst R0) (fst s0)) (nmul Fm (snd R0) (snd s0))) (fst (cmul R1 s1)) 6 64).
  { eapply (near_weaken B B1); [eapply (near_sub B B1 Bb); [eapply (near_mul B B1 Bb); [exact A|exact T1|lra|lra]|eapply (near_mul B B1 Bb); [exact C|exact T2|lra|lra]|lra|lra]|lra|lra]. }
  destruct NR as (NF & NE & _). split; [exact NF|].
  assert (D2 : Rabs (fst (cmul R1 s1) - fst (cmul R2 s1)) <= 2 * ((g - 1) * (IZR n * (3/2 * M)))).
  { replace (fst (cmul R1 s1) - fst (cmul R2 s1)) with (fst (cmul (csub R1 R2) s1)) by (cbn; ring).
    apply cle_fst. rewrite <- (Rmult_1_r (2 * _)). apply cle_mul; [exact RD|exact T3]. }
  match goal with |- Rabs (?a - ?c) <= _ => replace (a - c) with ((a - fst (cmul R1 s1)) + (fst (cmul R1 s1) - c)) by ring end.
  eapply Rle_trans; [apply Rabs_triang|]. eapply Rle_trans; [apply Rplus_le_compat; [exact NE|exact D2]|].
  unfold B. right. field.
Qed.
End Dct.

Definition passes_of (radices : list Z) : R := fold_right (fun p g => (1 + IZR (2 * p + 50) * eps) * g) (1 + 32 * eps) radices.
Lemma passes_growth l n : factor_table n l -> passes_of (radices_of l) = growth l * (1 + 32 * eps).
Proof.
  revert n. assert (H : forall k l n, (List.length l <= k)%nat -> factor_table n l -> passes_of (radices_of l) = growth l * (1 + 32 * eps)).
  { induction k as [|k IH]; intros [|p [|m l']] n L H; cbn in L, H; try lia; try contradiction.
    destruct H as (_ & _ & _ & [(-> & ->)|(Hm & H)]).
    - cbn [radices_of passes_of fold_right growth Z.eqb Pos.eqb]. unfold passes_of, kappa. cbn [fold_right]. ring.
    - cbn [radices_of growth]. replace (m =? 1)%Z with false by lia. unfold passes_of in *. cbn [fold_right].
      rewrite (IH l' m) by (try lia; exact H). unfold kappa. ring. }
  intros n. apply (H (List.length l)). lia.
Qed.

Lemma growth_exp l N : factors_ok l N -> (forall p, In p (radices l) -> (2 <= p)%Z) -> growth l <= exp (54 * IZR N * eps).
Proof.
  pose proof eps_pos as Up.
  assert (K : forall p, 1 + kappa p <= exp (kappa p)) by (intros p; apply exp_ineq1_le).
  induction 1 as [p rest Hp|p m rest Hp Hm H IH]; intros HR; cbn [growth].
  - cbn [Z.eqb Pos.eqb]. rewrite Rmult_1_r. eapply Rle_trans; [apply K|].
    destruct (Req_dec (kappa p) (54 * IZR p * eps)) as [->|]; [lra|]. left. apply exp_increasing.
    assert (1 <= IZR p) by (apply (IZR_le 1); lia).
    assert (kappa p <= 54 * IZR p * eps).
    { unfold kappa. apply Rmult_le_compat_r; [lra|]. rewrite plus_IZR, mult_IZR. lra. }
    lra.
  - replace (m =? 1)%Z with false by lia.
    assert (P2 : (2 <= p)%Z) by (apply HR; left; reflexivity).
    assert (G : growth rest <= exp (54 * IZR m * eps)) by (apply IH; intros q Hq; apply HR; right; exact Hq).
    pose proof (growth_ge _ _ H). pose proof (kappa_pos p ltac:(lia)).
    apply Rle_trans with (exp (kappa p) * exp (54 * IZR m * eps)).
    { apply Rmult_le_compat; try lra. apply K. }
    rewrite <- exp_plus.
    assert (LE : kappa p + 54 * IZR m * eps <= 54 * IZR (p * m) * eps).
    { unfold kappa. rewrite <- Rmult_plus_distr_r. apply Rmult_le_compat_r; [lra|].
      rewrite <- !(mult_IZR 54), <- plus_IZR. apply IZR_le. nia. }
    destruct LE as [LT|EQ]; [left; apply exp_increasing; exact LT|rewrite EQ; lra].
Qed.

Lemma growth_small n l : (1 <= n <= cap)%Z -> kf_factor n = Ok l -> 1 <= growth l <= 81 /\ factors_ok l n /\ factor_table n l.
Proof.
  intros Hn E. destruct (kf_factor_ok n) as (l' & E' & FO & _ & _ & GF & FT); [unfold INT_MAX; lia|].
  rewrite E in E'. injection E' as <-. split; [|split; assumption].
  split; [eapply growth_ge; exact FO|]. pose proof eps_pos as Up.
  destruct (Z.eq_dec n 1) as [->|N].
  - unfold kf_factor in E. vm_compute in E. injection E as <-. cbn [growth Z.eqb Pos.eqb]. unfold kappa. cbn. lra.
  - eapply Rle_trans; [apply (growth_exp _ _ FO)|].
    + intros p Hp. apply good_factor_2. specialize (GF ltac:(lia)). rewrite Forall_forall in GF. apply GF, Hp.
    + apply exp_small. assert (0 <= IZR n <= IZR cap) by (split; [apply (IZR_le 0)|apply IZR_le]; lia).
      assert (IZR n * eps <= / 16) by (eapply Rle_trans; [apply Rmult_le_compat_r; [lra|apply H]|exact CAPE]). lra.
Qed.

(** ** The image *)
Section Image.
Variables (twiddle super shift : number_table Fm).
Notation F := (number_ops Fm twiddle super shift).

Lemma transform_near al w h f mirror FF tmp0 tmp1 wd M lw lh : (forall k, al k = true) ->
  (1 <= w <= cap)%Z -> (1 <= h <= cap)%Z -> tables_within Fm eps twiddle super shift w -> tables_within Fm eps twiddle super shift h ->
  zlen f = (w * h)%Z -> zlen mirror = (2 * Z.max w h)%Z -> zlen FF = (Z.max w h + 1)%Z -> zlen tmp0 = w -> zlen tmp1 = h ->
  1 <= M <= 1048576 -> (forall i, (0 <= i < w * h)%Z -> finite Fm (at_ (n0 Fm) f i) = true /\ Rabs (real Fm (at_ (n0 Fm) f i)) <= M) ->
  kf_factor w = Ok lw -> kf_factor h = Ok lh ->
  exists f' wd', kiss_transform F al w h f mirror FF tmp0 tmp1 wd = Ok (f', wd') /\ zlen f' = (w * h)%Z /\
    forall y x, (0 <= y < h)%Z -> (0 <= x < w)%Z ->
      finite Fm (at_ (n0 Fm) f' (y * w + x)%Z) = true /\
      Rabs (real Fm (at_ (n0 Fm) f' (y * w + x)%Z) - dct_2d w h (fun y x => real Fm (at_ (n0 Fm) f (y * w + x)%Z)) y x)
        <= error_of eps w h (radices_of lw) (radices_of lh) M.
Proof.
  intros Hal Hw Hh Tw Th Lf Lm LF L0 L1 HM Hf Ew Eh.
  assert (Hw3 : (1 <= w <= INT_MAX / 3)%Z) by (rewrite INT3'; lia). assert (Hh3 : (1 <= h <= INT_MAX / 3)%Z) by (rewrite INT3'; lia).
  destruct (kiss_transform_ok F al w h f mirror FF tmp0 tmp1 wd Hw3 Hh3 Lf Lm LF L0 L1)
    as (f' & wd' & E & _ & Lf' & d0 & d1 & M0 & M1 & D0 & D1 & V).
  exists f', wd'. split; [exact E|]. split; [exact Lf'|]. intros y x Hy Hx.
  destruct (make_direction_ok exact_ops w Hw3) as (e0 & Me0 & De0). destruct (make_direction_ok exact_ops h Hh3) as (e1 & Me1 & De1).
  pose proof (direction_factors _ _ _ _ M0 Hw3 Ew) as F0. pose proof (direction_factors _ _ _ _ M1 Hh3 Eh) as F1.
  pose proof (direction_factors _ _ _ _ Me0 Hw3 Ew) as G0. pose proof (direction_factors _ _ _ _ Me1 Hh3 Eh) as G1.
  destruct (growth_small w lw Hw Ew) as (B0 & FO0 & FT0). destruct (growth_small h lh Hh Eh) as (B1 & FO1 & FT1).
  pose proof eps_pos as Up.
  assert (Hbig : big / 1048576 = IZR (2 ^ 80)).
  { unfold big. replace (IZR (2 ^ 100)) with (IZR (2 ^ 80) * 1048576); [field|]. rewrite <- (mult_IZR _ 1048576). f_equal. }
  assert (W1 : 1 <= IZR w <= 1048576) by (split; [apply (IZR_le 1)|apply (IZR_le _ 1048576)]; lia).
  assert (H1 : 1 <= IZR h <= 1048576) by (split; [apply (IZR_le 1)|apply (IZR_le _ 1048576)]; lia).
  specialize (V Hal y x Hy Hx). change (at_ (n0 Fm) f' (y * w + x)%Z) with (at_ (o_zero F) f' (y * w + x)%Z). rewrite V.
  change (o_zero F) with (n0 Fm).
  set (row := fun y' => dct_val F d0 w (fun x' => at_ (n0 Fm) f (y' * w + x')%Z) x).
  set (ex := fun y' => dct w (fun x' => real Fm (at_ (n0 Fm) f (y' * w + x')%Z)) x).
  set (gw := growth lw) in *. set (gh := growth lh) in *.
  set (Lw := 3/2 * (gw * (1 + 32 * eps) - 1)). set (Lh := 3/2 * (gh * (1 + 32 * eps) - 1)).
  assert (LwB : 0 <= Lw <= 123) by (unfold Lw; split; nra).
  assert (WM : 1 <= IZR w * M <= 1048576 * 1048576).
  { split; [replace 1 with (1 * 1) by ring|]; apply Rmult_le_compat; lra. }
  assert (R1 : forall y', (0 <= y' < h)%Z -> finite Fm (row y') = true /\ Rabs (real Fm (row y') - ex y') <= 2 * IZR w * M * Lw).
  { intros y' Hy'. unfold Lw, gw. rewrite <- F0.
    apply (dct_near twiddle super shift w d0 e0); try assumption; try lra.
    - rewrite F0, G0. reflexivity.
    - rewrite F0. fold gw. rewrite Hbig. apply Rle_trans with (81 * (3/2 * (IZR w * M))).
      + replace (gw * IZR w * (3/2 * M)) with (gw * (3/2 * (IZR w * M))) by ring. apply Rmult_le_compat_r; lra.
      + apply Rle_trans with (81 * (3/2 * (1048576 * 1048576))); [lra|]. apply Rle_trans with (IZR (2^50)); [cbn; lra|]. apply IZR_le. lia.
    - intros j Hj. apply Hf. nia. }
  assert (EB : forall y', (0 <= y' < h)%Z -> Rabs (ex y') <= 2 * IZR w * M).
  { intros y' Hy'. apply dct_bound; [lia|]. intros j Hj. apply Hf. nia. }
  set (M2 := 2 * IZR w * M * (1 + Lw)).
  assert (M2B : 1 <= M2 <= 124 * (2 * (1048576 * 1048576))).
  { unfold M2. replace (2 * IZR w * M * (1 + Lw)) with ((1 + Lw) * (2 * (IZR w * M))) by ring.
    split; [replace 1 with (1 * 1) at 1 by ring|]; apply Rmult_le_compat; lra. }
  destruct (dct_near twiddle super shift h d1 e1 Hh D1 De1 ltac:(rewrite F1, G1; reflexivity) Th row M2 y) as (A & C); try assumption; try lra.
  { rewrite F1. fold gh. rewrite Hbig. apply Rle_trans with ((81 * 1048576) * (3/2 * (124 * (2 * (1048576 * 1048576))))).
    - apply Rmult_le_compat; try lra; [apply Rmult_le_pos; lra|]. apply Rmult_le_compat; lra.
    - apply Rle_trans with (IZR (2^80)); [|lra]. cbn. lra. }
  { intros j Hj. destruct (R1 j Hj) as (Fj & Ej). split; [exact Fj|].
    replace (real Fm (row j)) with (ex j + (real Fm (row j) - ex j)) by ring. eapply Rle_trans; [apply Rabs_triang|].
    pose proof (EB j Hj). unfold M2. lra. }
  split; [exact A|].
  rewrite <- (dct_dct w h) by lia. fold ex.
  rewrite F1 in C. fold gh Lh in C.
  assert (D : Rabs (dct h (fun j => real Fm (row j)) y - dct h ex y) <= 2 * IZR h * (2 * IZR w * M * Lw)).
  { rewrite dct_sub by lia. apply dct_bound; [lia|]. intros j Hj. apply R1, Hj. }
  match goal with |- Rabs (?a - ?c) <= _ => replace (a - c) with ((a - dct h (fun j => real Fm (row j)) y) + (dct h (fun j => real Fm (row j)) y - c)) by ring end.
  eapply Rle_trans; [apply Rabs_triang|]. eapply Rle_trans; [apply Rplus_le_compat; [exact C|exact D]|].
  unfold error_of, loss_of. fold (passes_of (radices_of lw)) (passes_of (radices_of lh)). rewrite (passes_growth lw w FT0), (passes_growth lh h FT1). fold gw gh. fold Lw Lh. unfold M2. right. ring.
Qed.
End Image.


End Format.
