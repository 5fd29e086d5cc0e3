(** Responses of windowed sines at every whole factor. *)
From Coq Require Import Reals Lra Lia Psatz.
From Flocq Require Import Core.
From Verif Require Import Base Spec SpecTransform SpecInterpolate SpecLanczos BaseProofs Kiss KissExact UpscaleProofs AccuracyProofs InterpolateProofs InterpolateKernels TablesProofs CubicProofs.
Open Scope R_scope.

(** ** sinc *)
Lemma pi_pos : 0 < PI.
Proof. pose proof pi_near. lra. Qed.
Lemma sinc_mul x : sinc x * (PI * x) = sin (PI * x).
Proof.
  pose proof pi_pos. unfold sinc. destruct (Req_EM_T x 0) as [->|N]; [rewrite Rmult_0_r, sin_0; ring|]. field. lra.
Qed.
Lemma sinc_div x : x <> 0 -> sinc x = sin (PI * x) / (PI * x).
Proof. intros N. unfold sinc. destruct (Req_EM_T x 0); [contradiction|reflexivity]. Qed.
Lemma sinc_0 : sinc 0 = 1.
Proof. unfold sinc. destruct (Req_EM_T 0 0); [reflexivity|contradiction]. Qed.
Lemma sinc_opp x : sinc (- x) = sinc x.
Proof.
  pose proof pi_pos. destruct (Req_EM_T x 0) as [->|N]; [rewrite Ropp_0; reflexivity|].
  rewrite !sinc_div by lra. rewrite Ropp_mult_distr_r_reverse, sin_neg. field. lra.
Qed.
Lemma sinc_double u : sinc (2 * u) = sinc u * cos (PI * u).
Proof.
  pose proof pi_pos. destruct (Req_EM_T u 0) as [->|N]; [rewrite !Rmult_0_r, cos_0, sinc_0; ring|].
  rewrite !sinc_div by lra. replace (PI * (2 * u)) with (2 * (PI * u)) by ring. rewrite sin_2a. field. lra.
Qed.
(** x sin y <= y sin x *)
Lemma sin_chord x y : 0 <= x <= y -> y <= PI -> x * sin y <= y * sin x.
Proof.
  intros H Y. destruct (Req_dec x 0) as [->|X0]; [rewrite sin_0; lra|]. destruct (Req_dec x y) as [->|XY]; [lra|].
  destruct (MVT_cor2 sin cos x y ltac:(lra)) as (c & Ec & Hc); [intros; apply derivable_pt_lim_sin|].
  destruct (MVT_cor2 sin cos 0 x ltac:(lra)) as (d & Ed & Hd); [intros; apply derivable_pt_lim_sin|].
  rewrite sin_0 in Ed. assert (C : cos c <= cos d) by (apply cos_decr_1; lra).
  replace (sin y) with (sin x + cos c * (y - x)) by lra.
  assert (Q : cos c * (x * (y - x)) <= cos d * (x * (y - x))) by (apply Rmult_le_compat_r; [nra|exact C]). nra.
Qed.
Lemma sinc_decr x y : 0 <= x <= y -> y <= 1 -> sinc y <= sinc x.
Proof.
  intros H Y. pose proof pi_pos as P. destruct (Req_dec x 0) as [->|X0].
  - rewrite sinc_0. destruct (Req_dec y 0) as [->|Y0]; [rewrite sinc_0; lra|]. rewrite sinc_div by exact Y0.
    apply Rmult_le_reg_r with (PI * y); [nra|]. unfold Rdiv. rewrite Rmult_assoc, Rinv_l, Rmult_1_r, Rmult_1_l by nra. apply sin_up. nra.
  - pose proof (sin_chord (PI * x) (PI * y) ltac:(nra) ltac:(nra)) as Q. rewrite <- !sinc_mul in Q.
    assert (0 < PI * x * (PI * y)) by (apply Rmult_lt_0_compat; nra). nra.
Qed.
Lemma sinc_1 : sinc 1 = 0.
Proof. rewrite sinc_div by lra. rewrite Rmult_1_r, sin_PI. unfold Rdiv. ring. Qed.
Lemma sinc_range x : 0 <= x <= 1 -> 0 <= sinc x <= 1.
Proof.
  intros H. pose proof (sinc_decr x 1 ltac:(lra) ltac:(lra)) as A. pose proof (sinc_decr 0 x ltac:(lra) ltac:(lra)) as B.
  rewrite sinc_1 in A. rewrite sinc_0 in B. lra.
Qed.
Lemma sinc_low x : 0 <= x <= 1 -> 1 - (PI * x) ^ 2 / 6 <= sinc x.
Proof.
  intros H. pose proof pi_near as PN. destruct (Req_dec x 0) as [->|X0]; [rewrite sinc_0; lra|].
  rewrite sinc_div by exact X0. set (t := PI * x). assert (T : 0 < t <= 315/100) by (unfold t; nra).
  destruct (pre_sin_bound t 0 ltac:(lra) ltac:(lra)) as (L & _). unfold sin_approx, sum_f_R0, sin_term in L. cbn in L.
  apply Rmult_le_reg_r with t; [lra|]. unfold Rdiv at 2. rewrite Rmult_assoc, Rinv_l, Rmult_1_r by lra. lra.
Qed.
Lemma sinc_quarter x : 0 <= x <= 1/4 -> 89/100 <= sinc x.
Proof. intros H. pose proof (sinc_low x ltac:(lra)) as L. pose proof pi_near. assert (PI * x <= 79/100) by nra. assert (0 <= PI * x) by nra. nra. Qed.
Lemma sinc_half x : 0 <= x <= 1/2 -> 63/100 <= sinc x.
Proof.
  intros H. apply Rle_trans with (sinc (1/2)); [|apply sinc_decr; lra]. pose proof pi_near.
  rewrite sinc_div by lra. replace (PI * (1 / 2)) with (PI / 2) by field. rewrite sin_PI2.
  apply Rmult_le_reg_r with (PI / 2); [lra|]. replace (1 / (PI / 2) * (PI / 2)) with 1 by (field; lra). lra.
Qed.
Lemma sin_arch y : 0 <= y <= 1 -> 3 * y * (1 - y) <= sin (PI * y).
Proof.
  assert (G : forall y, 0 <= y <= 1/2 -> 3 * y * (1 - y) <= sin (PI * y)).
  { clear y. intros y H. pose proof pi_near as PN. pose proof (sinc_low y ltac:(lra)) as L. rewrite <- sinc_mul.
    assert (T : 0 <= PI * y) by nra. assert (P2 : PI ^ 2 <= 993/100) by nra.
    apply Rle_trans with ((1 - (PI * y) ^ 2 / 6) * (PI * y)); [|nra].
    replace ((PI * y) ^ 2) with (PI ^ 2 * y ^ 2) by ring.
    assert (Q : PI ^ 2 * y ^ 2 <= 993/100 * y ^ 2) by (apply Rmult_le_compat_r; [apply pow2_ge_0|exact P2]).
    apply Rle_trans with ((1 - 993/100 * y ^ 2 / 6) * (PI * y)); [|apply Rmult_le_compat_r; lra].
    assert (Y : 0 <= 1 - 993/100 * y ^ 2 / 6) by nra.
    apply Rle_trans with ((1 - 993/100 * y ^ 2 / 6) * (314/100 * y)); [|apply Rmult_le_compat_l; [exact Y|nra]].
    nra. }
  intros H. destruct (Rle_or_lt y (1/2)) as [L|L]; [apply G; lra|].
  pose proof (G (1 - y) ltac:(lra)) as Q. replace (PI * (1 - y)) with (PI - PI * y) in Q by ring. rewrite sin_PI_x in Q. lra.
Qed.
Lemma sin_turns x n : sin (2 * PI * (IZR n + x)) = sin (2 * PI * x).
Proof.
  replace (2 * PI * (IZR n + x)) with (2 * PI * x - PI / 2 + 2 * IZR n * PI + PI / 2) by field.
  rewrite sin_plus, cos_PI2, sin_PI2, Rmult_0_r, Rmult_1_r, Rplus_0_l, cos_2kPI.
  replace (2 * PI * x - PI / 2) with (- (PI / 2 - 2 * PI * x)) by ring. rewrite cos_neg, cos_shift. reflexivity.
Qed.

(** ** The response at the end of the old spectrum *)
(** the kernel times its wave is sinc (2u) sinc (u/a) *)
Definition ripple (a : Z) (u : R) : R := sinc (2 * u) * sinc (u / IZR a).
Lemma ripple_opp a u : ripple a (- u) = ripple a u.
Proof. unfold ripple. replace (2 * - u) with (- (2 * u)) by ring. replace (- u / IZR a) with (- (u / IZR a)) by (unfold Rdiv; ring). rewrite !sinc_opp. reflexivity. Qed.
Definition fading (a : Z) (u : R) : R := sinc (u / IZR a) / u.
Lemma part a u : (1 <= a)%Z -> 0 <= u <= IZR a -> 0 <= u / IZR a <= 1.
Proof.
  intros A H. apply IZR_le in A. change (IZR 1) with 1 in A. unfold Rdiv. assert (0 < / IZR a) by (apply Rinv_0_lt_compat; lra).
  split; [nra|]. apply Rmult_le_reg_r with (IZR a); [lra|]. rewrite Rmult_assoc, Rinv_l by lra. lra.
Qed.
Lemma part_le a u w : (1 <= a)%Z -> u <= w -> u / IZR a <= w / IZR a.
Proof. intros A H. apply IZR_le in A. change (IZR 1) with 1 in A. unfold Rdiv. apply Rmult_le_compat_r; [left; apply Rinv_0_lt_compat; lra|exact H]. Qed.
Lemma fading_drop a u w : (1 <= a)%Z -> 0 < u <= w -> w <= IZR a -> sinc (u / IZR a) * (/ u - / w) <= fading a u - fading a w.
Proof.
  intros A H W. pose proof (part a u A ltac:(lra)) as U. pose proof (part a w A ltac:(lra)) as V. pose proof (part_le a u w A ltac:(lra)) as L.
  assert (D : sinc (w / IZR a) <= sinc (u / IZR a)) by (apply sinc_decr; lra). unfold fading, Rdiv. fold (u / IZR a). fold (w / IZR a). assert (0 < / w) by (apply Rinv_0_lt_compat; lra). nra.
Qed.
Lemma fading_decr a u w : (1 <= a)%Z -> 0 < u <= w -> w <= IZR a -> fading a w <= fading a u.
Proof.
  intros A H W. pose proof (fading_drop a u w A H W) as D. pose proof (sinc_range _ (part a u A ltac:(lra))) as S.
  assert (I : / w <= / u) by (apply Rinv_le_contravar; lra). nra.
Qed.
Lemma fading_pos a u : (1 <= a)%Z -> 0 < u <= IZR a -> 0 <= fading a u.
Proof.
  intros A H. pose proof (sinc_range _ (part a u A ltac:(lra))) as S. unfold fading, Rdiv. fold (u / IZR a).
  assert (0 < / u) by (apply Rinv_0_lt_compat; lra). nra.
Qed.
Lemma ripple_fading a u : u <> 0 -> 2 * PI * ripple a u = sin (2 * PI * u) * fading a u.
Proof.
  intros H. pose proof pi_pos. unfold ripple, fading. rewrite (sinc_div (2 * u)) by lra. replace (PI * (2 * u)) with (2 * PI * u) by ring. field. lra.
Qed.

Lemma ripple_pair a n x : (1 <= a)%Z -> (- a <= n < a)%Z -> 0 < x < 1 -> 0 <= ripple a (IZR n + x) + ripple a (IZR n + (1 - x)).
Proof.
  intros A N X. pose proof pi_pos as PP.
  assert (G : forall n x, (0 <= n < a)%Z -> 0 < x <= 1/2 -> 0 <= ripple a (IZR n + x) + ripple a (IZR n + (1 - x))).
  { clear n x N X. intros n x (N0 & N) X. apply IZR_le in N0. assert (N' : (n + 1 <= a)%Z) by lia. apply IZR_le in N'. rewrite plus_IZR in N'. change (IZR 0) with 0 in N0. change (IZR 1) with 1 in N'.
    pose proof (ripple_fading a (IZR n + x) ltac:(lra)) as E1. pose proof (ripple_fading a (IZR n + (1 - x)) ltac:(lra)) as E2.
    rewrite sin_turns in E1, E2. replace (2 * PI * (1 - x)) with (- (2 * PI * x) + 2 * INR 1 * PI) in E2 by (cbn; ring). rewrite sin_period, sin_neg in E2.
    pose proof (fading_decr a (IZR n + x) (IZR n + (1 - x)) A ltac:(lra) ltac:(lra)) as D.
    assert (S : 0 <= sin (2 * PI * x)) by (apply sin_ge_0; nra). nra. }
  assert (G2 : forall n x, (0 <= n < a)%Z -> 0 < x < 1 -> 0 <= ripple a (IZR n + x) + ripple a (IZR n + (1 - x))).
  { intros m y M Y. destruct (Rle_or_lt y (1/2)) as [L|L]; [apply G; [exact M|lra]|].
    pose proof (G m (1 - y) M ltac:(lra)) as Q. replace (1 - (1 - y)) with y in Q by ring. lra. }
  destruct (Z_lt_le_dec n 0) as [L|L]; [|apply G2; [lia|exact X]].
  pose proof (G2 (- n - 1)%Z (1 - x) ltac:(lia) ltac:(lra)) as Q. rewrite minus_IZR, opp_IZR in Q. change (IZR 1) with 1 in Q.
  rewrite <- (ripple_opp a (IZR n + x)), <- (ripple_opp a (IZR n + (1 - x))).
  replace (- (IZR n + x)) with (- IZR n - 1 + (1 - x)) by ring. replace (- (IZR n + (1 - x))) with (- IZR n - 1 + (1 - (1 - x))) by ring. exact Q.
Qed.
Lemma ripple_first a n x : (2 <= a)%Z -> (n = 0 \/ n = -1)%Z -> 0 < x < 1 -> 84/100 * (1 - 2 * x) ^ 2 <= ripple a (IZR n + x) + ripple a (IZR n + (1 - x)).
Proof.
  intros A N X. pose proof pi_near as PP. assert (AR : 2 <= IZR a) by (apply (IZR_le 2); exact A).
  assert (G : forall x, 0 < x <= 1/2 -> 84/100 * (1 - 2 * x) ^ 2 <= ripple a x + ripple a (1 - x)).
  { clear x X. intros x X.
    pose proof (ripple_fading a x ltac:(lra)) as E1. pose proof (ripple_fading a (1 - x) ltac:(lra)) as E2.
    replace (2 * PI * (1 - x)) with (- (2 * PI * x) + 2 * INR 1 * PI) in E2 by (cbn; ring). rewrite sin_period, sin_neg in E2.
    pose proof (fading_drop a x (1 - x) ltac:(lia) ltac:(lra) ltac:(lra)) as D.
    assert (Q : 89/100 <= sinc (x / IZR a)).
    { apply sinc_quarter. split; [apply part; [lia|lra]|]. unfold Rdiv. apply Rmult_le_reg_r with (IZR a); [lra|]. rewrite Rmult_assoc, Rinv_l by lra. lra. }
    pose proof (sin_arch (2 * x) ltac:(lra)) as S. replace (PI * (2 * x)) with (2 * PI * x) in S by ring.
    set (v := sin (2 * PI * x)) in *. set (f1 := fading a x) in *. set (f2 := fading a (1 - x)) in *.
    assert (I : / x - / (1 - x) = (1 - 2 * x) / (x * (1 - x))) by (field; lra).
    assert (J : 0 <= / x - / (1 - x)) by (rewrite I; apply Rmult_le_pos; [lra|left; apply Rinv_0_lt_compat; nra]).
    assert (K : 89/100 * (/ x - / (1 - x)) <= f1 - f2) by nra.
    assert (V0 : 0 <= 3 * (2 * x) * (1 - 2 * x)) by nra.
    assert (L : 3 * (2 * x) * (1 - 2 * x) * (89/100 * (/ x - / (1 - x))) <= v * (f1 - f2)) by (apply Rmult_le_compat; nra).
    rewrite I in L. replace (3 * (2 * x) * (1 - 2 * x) * (89 / 100 * ((1 - 2 * x) / (x * (1 - x))))) with (534/100 * (1 - 2 * x) ^ 2 * / (1 - x)) in L by (field; lra).
    assert (M : 1 <= / (1 - x)) by (rewrite <- Rinv_1; apply Rinv_le_contravar; lra).
    pose proof (pow2_ge_0 (1 - 2 * x)) as Z2. set (z := (1 - 2 * x) ^ 2) in *.
    assert (534/100 * z <= v * (f1 - f2)) by nra. nra. }
  assert (G2 : forall y, 0 < y < 1 -> 84/100 * (1 - 2 * y) ^ 2 <= ripple a y + ripple a (1 - y)).
  { intros y Y. destruct (Rle_or_lt y (1/2)) as [L|L]; [apply G; lra|].
    pose proof (G (1 - y) ltac:(lra)) as Q. replace (1 - (1 - y)) with y in Q by ring.
    replace ((1 - 2 * (1 - y)) ^ 2) with ((1 - 2 * y) ^ 2) in Q by ring. lra. }
  destruct N as [-> | ->].
  - change (IZR 0) with 0. rewrite !Rplus_0_l. apply G2. exact X.
  - rewrite <- (ripple_opp a (-1 + x)), <- (ripple_opp a (-1 + (1 - x))). replace (- (-1 + x)) with (1 - x) by ring. replace (- (-1 + (1 - x))) with x by ring.
    rewrite Rplus_comm. apply G2. exact X.
Qed.

(** ** Sums *)
Lemma rsum_mono f g lo hi : (lo <= hi)%Z -> (forall j, (lo <= j < hi)%Z -> f j <= g j) -> rsum f lo hi <= rsum g lo hi.
Proof.
  revert hi. apply (csum_ind (fun hi => (forall j, (lo <= j < hi)%Z -> f j <= g j) -> rsum f lo hi <= rsum g lo hi)).
  - intros _. rewrite !rsum_empty by lia. lra.
  - intros hi H IH B. rewrite !rsum_last by exact H. pose proof (IH ltac:(intros; apply B; lia)). pose proof (B hi ltac:(lia)). lra.
Qed.
Lemma rsum_abs_le f g lo hi : (lo <= hi)%Z -> (forall j, (lo <= j < hi)%Z -> Rabs (f j) <= g j) -> Rabs (rsum f lo hi) <= rsum g lo hi.
Proof.
  intros H B. apply Rabs_le. split.
  - rewrite <- rsum_opp by exact H. apply rsum_mono; [exact H|]. intros j J. pose proof (B j J) as Q. apply Rabs_le_inv in Q. lra.
  - apply rsum_mono; [exact H|]. intros j J. pose proof (B j J) as Q. apply Rabs_le_inv in Q. lra.
Qed.
Lemma rsum_squares c m : (0 <= m)%Z ->
  rsum (fun r => (c - 2 * IZR r) ^ 2) 0 m = IZR m * c ^ 2 - 2 * c * IZR m * (IZR m - 1) + 2 * IZR m * (IZR m - 1) * (2 * IZR m - 1) / 3.
Proof.
  intros H. revert m H. apply csum_ind; [rewrite rsum_empty by lia; field|]. intros m H IH. rewrite rsum_last, IH, plus_IZR by exact H. field.
Qed.

(** ** The samples of the kernel *)
Section RESPONSE.
Variables (a s : Z) (D : R -> R) (d0 d1 : R).
Hypotheses (A2 : (2 <= a)%Z) (S2 : (2 <= s)%Z).
Hypotheses (D0 : 0 < d0) (DB : forall u, d0 <= D u <= d1) (DE : forall u, D (- u) = D u) (DP : forall n u, D (IZR n + u) = D u).
Definition spot (i : Z) : R := IZR (2 * i + 1 - s) / (2 * IZR s).
Let h := (s / 2)%Z.
Let x (r : Z) : R := spot (h + r).
Let SR : 2 <= IZR s.
Proof. exact (IZR_le 2 s S2). Qed.
Let AR : 2 <= IZR a.
Proof. exact (IZR_le 2 a A2). Qed.

Lemma spot_block n r : spot (h + s * n + r) = IZR n + x r.
Proof. unfold x, spot. rewrite !minus_IZR, !plus_IZR, !mult_IZR, !plus_IZR, mult_IZR. field. lra. Qed.
Lemma halves : s = (2 * h + (if Z.even s then 0 else 1))%Z.
Proof. unfold h. pose proof (Zmod_even s) as E. pose proof (Z.div_mod s 2 ltac:(lia)). destruct (Z.even s); lia. Qed.
Lemma x_even : Z.even s = true -> forall r, x r = (2 * IZR r + 1) / (2 * IZR s).
Proof.
  intros E r. pose proof halves as H. rewrite E in H. unfold x, spot. f_equal. replace (2 * (h + r) + 1 - s)%Z with (2 * r + 1)%Z by lia.
  rewrite plus_IZR, mult_IZR. reflexivity.
Qed.
Lemma x_odd : Z.even s = false -> forall r, x r = IZR r / IZR s.
Proof.
  intros E r. pose proof halves as H. rewrite E in H. unfold x, spot. replace (2 * (h + r) + 1 - s)%Z with (2 * r)%Z by lia.
  rewrite mult_IZR. field. lra.
Qed.
Lemma x_inside r : (0 <= r < s)%Z -> (Z.even s = true \/ 0 < r)%Z -> 0 < x r < 1.
Proof.
  intros (R0 & R1) H. assert (R2 : (r + 1 <= s)%Z) by lia. apply IZR_le in R0, R2. rewrite plus_IZR in R2. change (IZR 0) with 0 in R0. change (IZR 1) with 1 in R2.
  destruct (Z.even s) eqn:E.
  - rewrite x_even by exact E. split; [apply Rdiv_lt_0_compat; lra|]. apply Rmult_lt_reg_r with (2 * IZR s); [lra|].
    unfold Rdiv. rewrite Rmult_assoc, Rinv_l by lra. lra.
  - destruct H as [H|H]; [discriminate H|]. apply IZR_lt in H. change (IZR 0) with 0 in H. rewrite x_odd by exact E.
    split; [apply Rdiv_lt_0_compat; lra|]. apply Rmult_lt_reg_r with (IZR s); [lra|]. unfold Rdiv. rewrite Rmult_assoc, Rinv_l by lra. lra.
Qed.

Definition spread : R := if Z.even s then (IZR s ^ 2 - 1) / (3 * IZR s) else (IZR s - 1) * (IZR s - 2) / (3 * IZR s).
Lemma block_low (f : R -> R) b : (forall y, 0 < y < 1 -> b * (1 - 2 * y) ^ 2 <= f y + f (1 - y)) ->
  (if Z.even s then 0 else f 0) + b / 2 * spread <= rsum (fun r => f (x r)) 0 s.
Proof.
  intros B. unfold spread. destruct (Z.even s) eqn:E.
  - pose proof (rsum_reverse (fun r => f (x r)) s ltac:(lia) (s - 1)%Z) as R.
    replace (s - 1 + 1 - s)%Z with 0%Z in R by lia. replace (s - 1 + 1)%Z with s in R by lia.
    assert (Q : rsum (fun r => (IZR (s - 1) - 2 * IZR r) ^ 2 * (b / IZR s ^ 2)) 0 s <= rsum (fun r => f (x r) + f (x (s - 1 - r)%Z)) 0 s).
    { apply rsum_mono; [lia|]. intros j J. pose proof (B (x j) (x_inside j J (or_introl E))) as Q.
      replace (1 - x j) with (x (s - 1 - j)%Z) in Q by (rewrite !x_even by exact E; rewrite !minus_IZR; field; lra).
      eapply Rle_trans; [|exact Q]. right. rewrite x_even by exact E. rewrite minus_IZR. field. lra. }
    rewrite rsum_add, R, rsum_mul, rsum_squares in Q by lia. rewrite minus_IZR in Q.
    replace ((IZR s * (IZR s - 1) ^ 2 - 2 * (IZR s - 1) * IZR s * (IZR s - 1) + 2 * IZR s * (IZR s - 1) * (2 * IZR s - 1) / 3) * (b / IZR s ^ 2))
      with (2 * (b / 2 * ((IZR s ^ 2 - 1) / (3 * IZR s)))) in Q by (field; lra). lra.
  - rewrite rsum_first by lia. replace (f (x 0%Z)) with (f 0) by (f_equal; rewrite x_odd by exact E; unfold Rdiv; change (IZR 0) with 0; ring).
    apply Rplus_le_compat_l.
    pose proof (rsum_reverse (fun r => f (x r)) (s - 1) ltac:(lia) (s - 1)%Z) as R.
    replace (s - 1 + 1 - (s - 1))%Z with 1%Z in R by lia. replace (s - 1 + 1)%Z with s in R by lia.
    pose proof (rsum_shift (fun r => f (x r)) 0 (s - 1) 1 ltac:(lia)) as H. replace (0 + 1)%Z with 1%Z in * by lia. replace (s - 1 + 1)%Z with s in H by lia.
    assert (Q : rsum (fun r => (IZR (s - 2) - 2 * IZR r) ^ 2 * (b / IZR s ^ 2)) 0 (s - 1) <= rsum (fun r => f (x (r + 1)%Z) + f (x (s - 1 - r)%Z)) 0 (s - 1)).
    { apply rsum_mono; [lia|]. intros j J. pose proof (B (x (j + 1)%Z) (x_inside (j + 1) ltac:(lia) ltac:(right; lia))) as Q.
      replace (1 - x (j + 1)%Z) with (x (s - 1 - j)%Z) in Q by (rewrite !x_odd by exact E; rewrite !minus_IZR, plus_IZR; field; lra).
      eapply Rle_trans; [|exact Q]. right. rewrite x_odd by exact E. rewrite minus_IZR, plus_IZR. field. lra. }
    rewrite rsum_add, R, <- H, rsum_mul, rsum_squares in Q by lia. rewrite !minus_IZR in Q. change (IZR 1) with 1 in Q. change (IZR 2) with 2 in Q.
    replace (((IZR s - 1) * (IZR s - 2) ^ 2 - 2 * (IZR s - 2) * (IZR s - 1) * (IZR s - 1 - 1) + 2 * (IZR s - 1) * (IZR s - 1 - 1) * (2 * (IZR s - 1) - 1) / 3) * (b / IZR s ^ 2))
      with (2 * (b / 2 * ((IZR s - 1) * (IZR s - 2) / (3 * IZR s)))) in Q by (field; lra). lra.
Qed.

Lemma sinc_int n : n <> 0%Z -> sinc (IZR n) = 0.
Proof.
  intros H. rewrite sinc_div by (apply IZR_nz; exact H). rewrite sin_eq_0_1 by (exists n; ring). unfold Rdiv. ring.
Qed.
Lemma spread_pos : 0 <= spread.
Proof.
  unfold spread. destruct (Z.even s); (apply Rmult_le_pos; [|left; apply Rinv_0_lt_compat; lra]); nra.
Qed.
Definition block (n : Z) : R := rsum (fun r => ripple a (IZR n + x r) / D (x r)) 0 s.
Lemma D_flip y : D (1 - y) = D y.
Proof. unfold Rminus. rewrite (DP 1). apply DE. Qed.
Lemma d_inv y : 0 < / d1 <= / D y.
Proof. pose proof (DB y). split; [apply Rinv_0_lt_compat; lra|apply Rinv_le_contravar; lra]. Qed.
Lemma block_pos n : (- a <= n < a)%Z -> 0 <= block n.
Proof.
  intros N. pose proof (block_low (fun y => ripple a (IZR n + y) / D y) 0) as Q.
  eapply Rle_trans; [|apply Q].
  - unfold Rdiv at 2. rewrite !Rmult_0_l, Rplus_0_r. destruct (Z.even s); [lra|]. rewrite Rplus_0_r.
    pose proof (d_inv 0) as I. apply Rmult_le_pos; [|lra]. unfold ripple.
    destruct (Z.eq_dec n 0) as [->|N0]; [unfold Rdiv; rewrite Rmult_0_r, Rmult_0_l, sinc_0; lra|].
    rewrite <- (mult_IZR 2), sinc_int by lia. lra.
  - intros y Y. rewrite D_flip, Rmult_0_l. pose proof (ripple_pair a n y ltac:(lia) N Y) as P. pose proof (d_inv y) as I. unfold Rdiv. nra.
Qed.
Lemma block_first n : (n = 0 \/ n = -1)%Z -> (if Z.even s then 0 else if (n =? 0)%Z then / d1 else 0) + 42/100 * / d1 * spread <= block n.
Proof.
  intros N. pose proof (block_low (fun y => ripple a (IZR n + y) / D y) (84/100 * / d1)) as Q.
  eapply Rle_trans; [|apply Q].
  - replace (84 / 100 * / d1 / 2 * spread) with (42/100 * / d1 * spread) by (field; pose proof (DB 0); lra). apply Rplus_le_compat_r.
    destruct (Z.even s); [lra|]. pose proof (d_inv 0) as I. rewrite Rplus_0_r. unfold ripple. destruct N as [-> | ->]; cbn [Z.eqb].
    + unfold Rdiv. rewrite Rmult_0_r, Rmult_0_l, sinc_0. lra.
    + rewrite <- (mult_IZR 2), sinc_int by lia. unfold Rdiv. rewrite !Rmult_0_l. lra.
  - intros y Y. rewrite D_flip. pose proof (ripple_first a n y A2 N Y) as P. pose proof (d_inv y) as I. pose proof (pow2_ge_0 (1 - 2 * y)) as Z2.
    unfold Rdiv. rewrite <- Rmult_plus_distr_r. apply Rle_trans with ((ripple a (IZR n + y) + ripple a (IZR n + (1 - y))) * / d1); [nra|].
    apply Rmult_le_compat_l; [|lra]. nra.
Qed.
Lemma blocks_low : 21/100 * IZR s / d1 <= rsum block (- a) a.
Proof.
  rewrite (rsum_split block (- a) (-1) a), (rsum_first block (-1)) by lia. replace (-1 + 1)%Z with 0%Z by lia. rewrite (rsum_first block 0) by lia. replace (0 + 1)%Z with 1%Z by lia.
  assert (G : forall lo hi, (- a <= lo <= hi)%Z -> (hi <= a)%Z -> 0 <= rsum block lo hi).
  { intros lo hi L H. rewrite <- (rsum_zero (fun _ => 0) lo hi) by reflexivity. apply rsum_mono; [lia|]. intros j J. apply block_pos. lia. }
  pose proof (G (- a)%Z (-1)%Z ltac:(lia) ltac:(lia)). pose proof (G 1%Z a ltac:(lia) ltac:(lia)).
  pose proof (block_first 0 ltac:(left; reflexivity)) as B0. pose proof (block_first (-1) ltac:(right; reflexivity)) as B1.
  pose proof (d_inv 0) as (I & _). cbn [Z.eqb] in *.
  enough (21/100 * IZR s / d1 <= (if Z.even s then 0 else / d1) + 84/100 * / d1 * spread) by (destruct (Z.even s); lra).
  unfold spread, Rdiv at 2. destruct (Z.even s) eqn:E.
  - rewrite Rplus_0_l. replace (84 / 100 * / d1 * ((IZR s ^ 2 - 1) / (3 * IZR s))) with (28/100 * (IZR s - / IZR s) * / d1) by (field; split; [lra|]; pose proof (DB 0); lra).
    apply Rmult_le_compat_r; [lra|]. assert (V : / IZR s <= / 2) by (apply Rinv_le_contravar; lra). lra.
  - replace (/ d1 + 84 / 100 * / d1 * ((IZR s - 1) * (IZR s - 2) / (3 * IZR s))) with ((1 + 28/100 * (IZR s - 3 + 2 * / IZR s)) * / d1) by (field; split; [lra|]; pose proof (DB 0); lra).
    apply Rmult_le_compat_r; [lra|]. assert (V : 0 < / IZR s) by (apply Rinv_0_lt_compat; lra). lra.
Qed.

(** ** The response around it *)
Definition kern (u : R) : R := lanczos a u / D u.
Lemma kern_ok : kernel_ok a kern.
Proof.
  split; [lia|]. unfold kern, lanczos. split; intros u.
  - rewrite Rabs_Ropp, DE. destruct (Rlt_dec (Rabs u) (IZR a)); [|reflexivity].
    replace (- u / IZR a) with (- (u / IZR a)) by (unfold Rdiv; ring). rewrite !sinc_opp. reflexivity.
  - intros H. destruct (Rlt_dec (Rabs u) (IZR a)); [lra|]. unfold Rdiv. ring.
Qed.
Lemma spot_far i : (i < h - s * a \/ h + s * a <= i)%Z -> IZR a <= Rabs (spot i).
Proof.
  intros H. pose proof halves as E. assert (Q : (2 * s * a <= Z.abs (2 * i + 1 - s))%Z) by (destruct (Z.even s); lia).
  unfold spot, Rdiv. rewrite Rabs_mult, (Rabs_pos_eq (/ _)) by (left; apply Rinv_0_lt_compat; lra).
  apply Rmult_le_reg_r with (2 * IZR s); [lra|]. rewrite Rmult_assoc, Rinv_l, Rmult_1_r by lra. rewrite <- abs_IZR.
  apply IZR_le in Q. rewrite !mult_IZR in Q. change (IZR 2) with 2 in Q. lra.
Qed.
Variables (N k : Z).
Hypothesis N1 : (1 <= N)%Z.
Let NR : 1 <= IZR N.
Proof. exact (IZR_le 1 N N1). Qed.
Lemma phase_spots k' : phase_cos N (s * N) a kern k' 0 = rsum (fun i => kern (spot i) * cos (PI * (IZR k' / IZR N) * spot i)) (h - s * a) (h + s * a).
Proof.
  rewrite phase_cos_0 by (exact kern_ok || lia). pose proof halves as E. destruct kern_ok as (_ & _ & KZ).
  rewrite (rsum_ext _ (fun i => kern (spot i) * cos (PI * (IZR k' / IZR N) * spot i))).
  2:{ intros i _. fold (spot i). f_equal. f_equal. unfold spot. rewrite mult_IZR. field. lra. }
  symmetry. apply rsum_widen; [split; [|nia]|..].
  - destruct (Z.even s); nia.
  - destruct (Z.even s); nia.
  - intros i I. rewrite KZ by (apply spot_far; lia). ring.
  - intros i I. rewrite KZ by (apply spot_far; lia). ring.
Qed.
Lemma blocks_of F G : (forall n r, (- a <= n < a)%Z -> (0 <= r < s)%Z -> F (h + s * n + r)%Z = G n r) ->
  rsum F (h - s * a) (h + s * a) = rsum (fun n => rsum (G n) 0 s) (- a) a.
Proof.
  intros E. pose proof (rsum_shift F 0 (s * (2 * a)) (h - s * a) ltac:(nia)) as Q.
  replace (0 + (h - s * a))%Z with (h - s * a)%Z in Q by lia. replace (s * (2 * a) + (h - s * a))%Z with (h + s * a)%Z in Q by lia.
  rewrite Q, rsum_blocks by lia.
  pose proof (rsum_shift (fun n => rsum (G n) 0 s) 0 (2 * a) (- a) ltac:(lia)) as P.
  replace (0 + - a)%Z with (- a)%Z in P by lia. replace (2 * a + - a)%Z with a in P by lia. rewrite P.
  apply rsum_ext. intros n Hn. apply rsum_ext. intros r Hr. rewrite <- E by lia. f_equal. lia.
Qed.
Lemma edge_low : 21/100 * IZR s / d1 <= phase_cos N (s * N) a kern N 0.
Proof.
  rewrite phase_spots. rewrite (blocks_of _ (fun n r => ripple a (IZR n + x r) / D (x r))); [exact blocks_low|].
  intros n r Hn Hr. rewrite spot_block. replace (IZR N / IZR N) with 1 by (field; lra). rewrite Rmult_1_r.
  unfold kern. rewrite DP. unfold ripple. rewrite sinc_double. set (u := IZR n + x r).
  assert (U : - IZR a <= u < IZR a).
  { assert (X : 0 <= x r < 1).
    { destruct (Z.even s) eqn:E; [pose proof (x_inside r Hr (or_introl E)); lra|].
      destruct (Z.eq_dec r 0) as [->|R0]; [rewrite x_odd by exact E; unfold Rdiv; change (IZR 0) with 0; lra|].
      pose proof (x_inside r Hr ltac:(right; lia)). lra. }
    destruct Hn as (L & H). assert (H' : (n + 1 <= a)%Z) by lia. apply IZR_le in L, H'. rewrite plus_IZR in H'. rewrite opp_IZR in L. change (IZR 1) with 1 in H'. unfold u. lra. }
  unfold lanczos. destruct (Rlt_dec (Rabs u) (IZR a)) as [L|L]; [unfold Rdiv; ring|].
  assert (Q : u = - IZR a) by (destruct (Rcase_abs u) as [C|C]; [rewrite Rabs_left in L by exact C; lra|rewrite Rabs_right in L by exact C; lra]).
  rewrite Q, <- opp_IZR, sinc_int by lia. unfold Rdiv. ring.
Qed.

Lemma turning i : rsum (fun i => cos (2 * PI * spot i)) (h - s * a) i * (2 * sin (PI / IZR s)) = 
  if (h - s * a <=? i)%Z then sin (2 * PI * spot i - PI / IZR s) - sin (2 * PI * spot (h - s * a) - PI / IZR s) else 0.
Proof.
  destruct (Z.leb_spec (h - s * a) i) as [L|L]; [|rewrite rsum_empty by lia; ring].
  revert i L. apply csum_ind; [rewrite rsum_empty by lia; ring|]. intros i L IH. rewrite rsum_last by exact L. rewrite Rmult_plus_distr_r, IH.
  replace (2 * PI * spot (i + 1) - PI / IZR s) with (2 * PI * spot i + PI / IZR s).
  2:{ unfold spot. rewrite !minus_IZR, !plus_IZR, !mult_IZR, plus_IZR. field. lra. }
  rewrite sin_plus, !sin_minus. ring.
Qed.
Lemma cos_balance : rsum (fun i => cos (2 * PI * spot i)) (h - s * a) (h + s * a) = 0.
Proof.
  pose proof (turning (h + s * a)) as T. destruct (Z.leb_spec (h - s * a) (h + s * a)) as [_|L]; [|nia].
  assert (P : 0 < sin (PI / IZR s)).
  { pose proof pi_pos. apply sin_gt_0; [apply Rdiv_lt_0_compat; lra|]. apply Rmult_lt_reg_r with (IZR s); [lra|]. unfold Rdiv. rewrite Rmult_assoc, Rinv_l by lra. nra. }
  replace (2 * PI * spot (h + s * a) - PI / IZR s) with (2 * PI * (IZR (2 * a) + (spot (h - s * a) - / (2 * IZR s)))) in T.
  2:{ unfold spot. rewrite !minus_IZR, !plus_IZR, !mult_IZR, !minus_IZR, !plus_IZR, !mult_IZR. field. lra. }
  rewrite sin_turns in T.
  replace (2 * PI * (spot (h - s * a) - / (2 * IZR s))) with (2 * PI * spot (h - s * a) - PI / IZR s) in T by (field; lra). nra.
Qed.

Lemma kern_wave u e : Rabs (kern u * (cos (PI * (1 + e) * u) - cos (PI * u))) <= Rabs e / d0 * (3536/10000) * (2 - cos (2 * PI * u)).
Proof.
  pose proof pi_pos as PP. pose proof (DB u) as B. pose proof (Rabs_pos e) as E0.
  assert (I : 0 < / D u <= / d0) by (split; [apply Rinv_0_lt_compat; lra|apply Rinv_le_contravar; lra]).
  replace (2 * PI * u) with (2 * (PI * u)) by ring. rewrite cos_2a_sin. set (v := sin (PI * u)).
  assert (V : Rabs v <= 3536/10000 * (1 + 2 * v * v)).
  { assert (Q : v * v = Rabs v * Rabs v) by (rewrite <- Rabs_mult; symmetry; apply Rabs_pos_eq; nra).
    replace (2 * v * v) with (2 * (v * v)) by ring. rewrite Q. pose proof (Rabs_pos v). pose proof (pow2_ge_0 (Rabs v - 7071/10000)). nra. }
  assert (L : Rabs (lanczos a u * (cos (PI * (1 + e) * u) - cos (PI * u))) <= Rabs e * Rabs v).
  { unfold lanczos. destruct (Rlt_dec (Rabs u) (IZR a)) as [U|U]; [|rewrite Rmult_0_l, Rabs_R0; apply Rmult_le_pos; apply Rabs_pos].
    pose proof (cos_close (PI * (1 + e) * u) (PI * u)) as C. replace (PI * (1 + e) * u - PI * u) with (PI * u * e) in C by ring.
    assert (S : Rabs (sinc (u / IZR a)) <= 1).
    { assert (W : forall w, 0 <= w < IZR a -> Rabs (sinc (w / IZR a)) <= 1).
      { intros w Hw. pose proof (sinc_range _ (part a w ltac:(lia) ltac:(lra))). apply Rabs_le. lra. }
      unfold Rabs in U. destruct (Rcase_abs u) as [G|G]; [|apply W; lra].
      pose proof (W (- u) ltac:(lra)) as Q. replace (- u / IZR a) with (- (u / IZR a)) in Q by (unfold Rdiv; ring). rewrite sinc_opp in Q. exact Q. }
    rewrite !Rabs_mult. pose proof (Rabs_pos (sinc u)) as S0. pose proof (Rabs_pos (sinc (u / IZR a))) as S1.
    apply Rle_trans with (Rabs (sinc u) * 1 * Rabs (PI * u * e)).
    - apply Rmult_le_compat; [apply Rmult_le_pos; assumption|apply Rabs_pos|apply Rmult_le_compat_l; assumption|exact C].
    - rewrite Rmult_1_r, (Rabs_mult (PI * u)), <- Rmult_assoc, <- Rabs_mult, sinc_mul. fold v. lra. }
  unfold kern, Rdiv. replace (lanczos a u * / D u * (cos (PI * (1 + e) * u) - cos (PI * u))) with (lanczos a u * (cos (PI * (1 + e) * u) - cos (PI * u)) * / D u) by ring.
  rewrite Rabs_mult, (Rabs_pos_eq (/ D u)) by lra.
  apply Rle_trans with (Rabs e * Rabs v * / d0).
  - apply Rmult_le_compat; [apply Rabs_pos|lra|exact L|lra].
  - replace (Rabs e * / d0 * (3536 * / 10000) * (2 - (1 - 2 * v * v))) with (Rabs e * (3536/10000 * (1 + 2 * v * v)) * / d0) by (field; lra).
    apply Rmult_le_compat_r; [lra|]. apply Rmult_le_compat_l; assumption.
Qed.
Lemma edge_near : Rabs (phase_cos N (s * N) a kern k 0 - phase_cos N (s * N) a kern N 0) <= 14144/10000 * (IZR a * IZR s * (Rabs (IZR (k - N)) / IZR N) / d0).
Proof.
  rewrite !phase_spots. set (e := IZR (k - N) / IZR N).
  assert (AE : Rabs (IZR (k - N)) / IZR N = Rabs e) by (unfold e, Rdiv; rewrite Rabs_mult, (Rabs_pos_eq (/ IZR N)) by (left; apply Rinv_0_lt_compat; lra); reflexivity).
  rewrite AE.
  set (F := fun i => kern (spot i) * cos (PI * (IZR k / IZR N) * spot i)). set (G := fun i => kern (spot i) * cos (PI * (IZR N / IZR N) * spot i)).
  assert (W : (h - s * a <= h + s * a)%Z) by nia.
  replace (rsum F (h - s * a) (h + s * a) - rsum G (h - s * a) (h + s * a)) with (rsum (fun i => F i + - G i) (h - s * a) (h + s * a)) by (rewrite rsum_add, rsum_opp by exact W; ring).
  set (c := Rabs e / d0 * (3536/10000)).
  eapply Rle_trans; [apply (rsum_abs_le _ (fun i => 2 * c + - (cos (2 * PI * spot i) * c))); [exact W|]|].
  - intros i I. unfold F, G. replace (IZR N / IZR N) with 1 by (field; lra). rewrite Rmult_1_r.
    replace (IZR k / IZR N) with (1 + e) by (unfold e; rewrite minus_IZR; field; lra).
    pose proof (kern_wave (spot i) e) as Q. fold c in Q.
    replace (kern (spot i) * cos (PI * (1 + e) * spot i) + - (kern (spot i) * cos (PI * spot i))) with (kern (spot i) * (cos (PI * (1 + e) * spot i) - cos (PI * spot i))) by ring.
    lra.
  - rewrite rsum_add, rsum_opp, (rsum_mul c (fun i => cos (2 * PI * spot i))), cos_balance by exact W.
    rewrite (rsum_ext _ (fun i => 1 * (2 * c))) by (intros; ring). rewrite rsum_mul by exact W.
    assert (ONE : rsum (fun _ => 1) (h - s * a) (h + s * a) = 2 * IZR a * IZR s).
    { assert (Q : forall lo hi, (lo <= hi)%Z -> rsum (fun _ => 1) lo hi = IZR (hi - lo)).
      { intros lo. apply csum_ind; [rewrite rsum_empty, Z.sub_diag by lia; reflexivity|]. intros hi H IH. rewrite rsum_last, IH by exact H. rewrite <- (plus_IZR _ 1). f_equal. lia. }
      rewrite Q by exact W. replace (h + s * a - (h - s * a))%Z with (2 * a * s)%Z by lia. rewrite !mult_IZR. reflexivity. }
    rewrite ONE. unfold c. right. field. lra.
Qed.
Lemma edge_positive : 14144/10000 * d1 * IZR a * Rabs (IZR (k - N)) < 21/100 * d0 * IZR N -> 0 < phase_cos N (s * N) a kern k 0.
Proof.
  intros H. pose proof edge_low as L. pose proof edge_near as E. apply Rabs_le_inv in E. pose proof (DB 0) as B.
  enough (14144/10000 * (IZR a * IZR s * (Rabs (IZR (k - N)) / IZR N) / d0) < 21/100 * IZR s / d1) by lra.
  apply Rmult_lt_reg_r with (d0 * d1 * IZR N / IZR s); [apply Rdiv_lt_0_compat; [apply Rmult_lt_0_compat; [nra|lra]|lra]|].
  replace (14144 / 10000 * (IZR a * IZR s * (Rabs (IZR (k - N)) / IZR N) / d0) * (d0 * d1 * IZR N / IZR s)) with (14144/10000 * d1 * IZR a * Rabs (IZR (k - N))) by (field; lra).
  replace (21 / 100 * IZR s / d1 * (d0 * d1 * IZR N / IZR s)) with (21/100 * d0 * IZR N) by (field; lra). exact H.
Qed.
End RESPONSE.

(** ** The sum of the weights *)
Section TOTAL.
Variables (a : Z) (K : R -> R).
Hypothesis KO : kernel_ok a K.
Lemma total_wide u lo hi : (lo <= Zfloor u - a + 1)%Z -> (Zfloor u + a + 1 <= hi)%Z -> total a K u = rsum (fun m => K (u - IZR m)) lo hi.
Proof.
  intros L H. destruct KO as (A1 & _ & KZ). unfold total. pose proof (Zfloor_lb u) as F0. pose proof (Zfloor_ub u) as F1.
  assert (Z1 : forall m, (m <= Zfloor u - a)%Z -> K (u - IZR m) = 0).
  { intros m M. apply KZ. apply IZR_le in M. rewrite minus_IZR in M. rewrite Rabs_pos_eq; lra || (assert (0 <= IZR a) by (apply (IZR_le 0); lia); lra). }
  assert (Z2 : forall m, (Zfloor u + a + 1 <= m)%Z -> K (u - IZR m) = 0).
  { intros m M. apply KZ. apply IZR_le in M. rewrite !plus_IZR in M. change (IZR 1) with 1 in M. assert (0 <= IZR a) by (apply (IZR_le 0); lia).
    rewrite Rabs_left1 by lra. lra. }
  transitivity (rsum (fun m => K (u - IZR m)) (Zfloor u - a + 1) (Zfloor u + a + 1)).
  - rewrite rsum_first by lia. rewrite Z1 by lia. ring.
  - apply rsum_widen; [lia|lia|intros; apply Z1; lia|intros; apply Z2; lia].
Qed.
Lemma total_shift n u : total a K (IZR n + u) = total a K u.
Proof.
  assert (F : Zfloor (IZR n + u) = (Zfloor u + n)%Z).
  { apply Zfloor_imp. pose proof (Zfloor_lb u). pose proof (Zfloor_ub u). rewrite !plus_IZR. lra. }
  unfold total. rewrite F. replace (Zfloor u + n - a)%Z with (Zfloor u - a + n)%Z by lia. replace (Zfloor u + n + a + 1)%Z with (Zfloor u + a + 1 + n)%Z by lia.
  destruct KO as (A1 & _). rewrite rsum_shift by lia. apply rsum_ext. intros m _. f_equal. rewrite plus_IZR. ring.
Qed.
Lemma total_opp u : total a K (- u) = total a K u.
Proof.
  assert (A1 := KO). destruct A1 as (A1 & KE & _). set (b := (Z.abs (Zfloor u) + Z.abs (Zfloor (- u)) + a + 1)%Z).
  rewrite (total_wide (- u) (- b) (b + 1)), (total_wide u (- b) (b + 1)) by (unfold b; lia).
  rewrite rsum_negate by (unfold b; lia). apply rsum_ext. intros m _. rewrite opp_IZR, <- KE. f_equal. ring.
Qed.
Lemma total_block u : 0 < u < 1 -> total a K u = rsum (fun n => K (IZR n + u) + K (IZR n + (1 - u))) 0 a.
Proof.
  intros U. assert (A1 := KO). destruct A1 as (A1 & KE & _). assert (F : Zfloor u = 0%Z) by (apply Zfloor_imp; cbn; lra).
  rewrite (total_wide u (1 - a) (a + 1)) by lia. rewrite (rsum_split _ _ 1) by lia.
  pose proof (rsum_reverse (fun m => K (u - IZR m)) a ltac:(lia) 0%Z) as R. replace (0 + 1 - a)%Z with (1 - a)%Z in R by lia. replace (0 + 1)%Z with 1%Z in R by lia.
  pose proof (rsum_shift (fun m => K (u - IZR m)) 0 a 1 ltac:(lia)) as S. replace (0 + 1)%Z with 1%Z in S by lia.
  rewrite <- R, S, <- rsum_add by lia. apply rsum_ext. intros n _. f_equal.
  - f_equal. rewrite minus_IZR. change (IZR 0) with 0. ring.
  - rewrite <- KE. f_equal. rewrite plus_IZR. change (IZR 1) with 1. ring.
Qed.
End TOTAL.

(** alternating sums *)
Fixpoint alternating (t : Z -> R) (c : Z) (n : nat) : R := match n with O => 0 | S n => t c - alternating t (c + 1) n end.
Lemma alternating_range t n : forall c, (forall j, (c <= j < c + Z.of_nat n)%Z -> 0 <= t j) -> (forall j, (c <= j)%Z -> (j + 1 < c + Z.of_nat n)%Z -> t (j + 1)%Z <= t j) ->
  0 <= alternating t c n /\ (n <> O -> alternating t c n <= t c).
Proof.
  induction n as [|n IH]; intros c P M; cbn [alternating]; [split; [lra|congruence]|].
  destruct (IH (c + 1)%Z) as (L & H); [intros; apply P; lia|intros; apply M; lia|].
  split; [|intros _; lra]. destruct n as [|n]; [cbn [alternating]; pose proof (P c ltac:(lia)); lra|].
  pose proof (H ltac:(discriminate)). pose proof (M c ltac:(lia) ltac:(lia)). lra.
Qed.
Lemma alternating_rsum t n : forall c, rsum (fun j => cos (PI * IZR (j - c)) * t j) c (c + Z.of_nat n) = alternating t c n.
Proof.
  induction n as [|n IH]; intros c; cbn [alternating]; [apply rsum_empty; lia|].
  rewrite rsum_first by lia. rewrite Z.sub_diag, Rmult_0_r, cos_0, Rmult_1_l. unfold Rminus. f_equal.
  replace (c + Z.of_nat (S n))%Z with (c + 1 + Z.of_nat n)%Z by lia. rewrite <- IH, <- rsum_opp by lia. apply rsum_ext. intros j _.
  replace (PI * IZR (j - c)) with (PI * IZR (j - (c + 1)) + PI) by (rewrite !minus_IZR, plus_IZR; ring). rewrite neg_cos. ring.
Qed.
Lemma alternating_first t a : (2 <= a)%Z -> (forall j, (0 <= j < a)%Z -> 0 <= t j) -> (forall j, (0 <= j)%Z -> (j + 1 < a)%Z -> t (j + 1)%Z <= t j) ->
  t 0%Z - t 1%Z <= rsum (fun j => cos (PI * IZR j) * t j) 0 a <= t 0%Z.
Proof.
  intros A P M. assert (E : exists n, a = (Z.of_nat (S (S n)))%Z) by (exists (Z.to_nat (a - 2)); lia). destruct E as (n & ->).
  pose proof (alternating_rsum t (S (S n)) 0) as Q. rewrite (rsum_ext _ (fun j => cos (PI * IZR j) * t j)) in Q by (intros j _; rewrite Z.sub_0_r; reflexivity).
  rewrite Z.add_0_l in Q. rewrite Q.
  destruct (alternating_range t (S (S n)) 0) as (_ & H); [intros; apply P; lia|intros; apply M; lia|].
  destruct (alternating_range t (S n) 1) as (_ & L); [intros; apply P; lia|intros; apply M; lia|].
  split; [|apply H; discriminate]. pose proof (L ltac:(discriminate)) as L'. cbn [alternating] in *. replace (0 + 1)%Z with 1%Z by lia. lra.
Qed.

Lemma lanczos_ok a : (1 <= a)%Z -> kernel_ok a (lanczos a).
Proof.
  intros A. split; [exact A|]. unfold lanczos. split; intros u.
  - rewrite Rabs_Ropp. destruct (Rlt_dec (Rabs u) (IZR a)); [|reflexivity].
    replace (- u / IZR a) with (- (u / IZR a)) by (unfold Rdiv; ring). rewrite !sinc_opp. reflexivity.
  - intros H. destruct (Rlt_dec (Rabs u) (IZR a)); [lra|]. reflexivity.
Qed.
Lemma lanczos_fading a n y : (1 <= a)%Z -> (0 <= n < a)%Z -> 0 < y < 1 -> lanczos a (IZR n + y) = sin (PI * y) / PI * (cos (PI * IZR n) * fading a (IZR n + y)).
Proof.
  intros A (N0 & N1) Y. assert (N2 : (n + 1 <= a)%Z) by lia. apply IZR_le in N0, N2. rewrite plus_IZR in N2. change (IZR 0) with 0 in N0. change (IZR 1) with 1 in N2.
  pose proof pi_pos. unfold lanczos, fading. rewrite Rabs_pos_eq by lra. destruct (Rlt_dec (IZR n + y) (IZR a)) as [_|F]; [|lra].
  rewrite (sinc_div (IZR n + y)) by lra.
  assert (E : sin (PI * (IZR n + y)) = cos (PI * IZR n) * sin (PI * y)).
  { rewrite Rmult_plus_distr_l, sin_plus, (sin_eq_0_1 (PI * IZR n)) by (exists n; ring). ring. }
  rewrite E. field. split; lra.
Qed.
Lemma total_lanczos a y : (2 <= a)%Z -> 0 < y < 1 ->
  sin (PI * y) / PI * (fading a y - fading a (1 + y) + (fading a (1 - y) - fading a (1 + (1 - y)))) <= total a (lanczos a) y <=
  sin (PI * y) / PI * (fading a y + fading a (1 - y)).
Proof.
  intros A Y. pose proof pi_pos as PP. rewrite (total_block a _ (lanczos_ok a ltac:(lia)) y Y).
  assert (S0 : 0 <= sin (PI * y) / PI) by (apply Rmult_le_pos; [apply sin_ge_0; nra|left; apply Rinv_0_lt_compat; lra]).
  assert (G : forall y, 0 < y < 1 -> fading a y - fading a (1 + y) <= rsum (fun n => cos (PI * IZR n) * fading a (IZR n + y)) 0 a <= fading a y).
  { intros z Hz. pose proof (alternating_first (fun n => fading a (IZR n + z)) a A) as Q. cbv beta in Q. change (IZR 0) with 0 in Q. change (IZR 1) with 1 in Q. rewrite Rplus_0_l in Q.
    apply Q.
    - intros j (J0 & J1). assert (J2 : (j + 1 <= a)%Z) by lia. apply IZR_le in J0, J2. rewrite plus_IZR in J2. change (IZR 0) with 0 in J0. change (IZR 1) with 1 in J2. apply fading_pos; [lia|lra].
    - intros j J0 J1. assert (J2 : (j + 2 <= a)%Z) by lia. apply IZR_le in J0, J2. rewrite plus_IZR in J2. change (IZR 0) with 0 in J0. change (IZR 2) with 2 in J2.
      rewrite plus_IZR. change (IZR 1) with 1. apply fading_decr; [lia|lra|lra]. }
  pose proof (G y Y) as G1. pose proof (G (1 - y) ltac:(lra)) as G2.
  assert (E : rsum (fun n => lanczos a (IZR n + y) + lanczos a (IZR n + (1 - y))) 0 a =
    (rsum (fun n => cos (PI * IZR n) * fading a (IZR n + y)) 0 a + rsum (fun n => cos (PI * IZR n) * fading a (IZR n + (1 - y))) 0 a) * (sin (PI * y) / PI)).
  { rewrite <- rsum_add, <- rsum_mul by lia. apply rsum_ext. intros n Hn. rewrite !lanczos_fading by (lra || lia).
    replace (sin (PI * (1 - y))) with (sin (PI * y)); [ring|]. replace (PI * (1 - y)) with (PI - PI * y) by ring. rewrite sin_PI_x. reflexivity. }
  rewrite E, (Rmult_comm (rsum _ _ _ + rsum _ _ _)). split; apply Rmult_le_compat_l; lra.
Qed.
Lemma cos_high z : Rabs z <= 1 -> cos z <= 1 - z ^ 2 / 2 + z ^ 4 / 24.
Proof.
  intros Z. apply Rabs_le_inv in Z. destruct (pre_cos_bound z 0 ltac:(lra) ltac:(lra)) as (_ & H). unfold cos_approx, sum_f_R0, cos_term in H. cbn in H. lra.
Qed.
Lemma total_range_half a y : (2 <= a)%Z -> 0 < y <= 1/2 -> 59/100 <= total a (lanczos a) y <= 128/100.
Proof.
  intros A Y. pose proof pi_near as PN. destruct (total_lanczos a y A ltac:(lra)) as (L & H). assert (AR : 2 <= IZR a) by (apply (IZR_le 2); exact A).
  assert (SE : sin (PI * y) / PI = sinc y * y) by (rewrite <- sinc_mul; field; lra). rewrite SE in *.
  assert (DV : forall u, 0 <= u -> u / IZR a <= u / 2).
  { intros u U. apply Rmult_le_compat_l; [exact U|]. apply Rinv_le_contravar; lra. }
  assert (DV0 : forall u, 0 <= u -> 0 <= u / IZR a) by (intros u U; apply Rmult_le_pos; [exact U|left; apply Rinv_0_lt_compat; lra]).
  assert (SY : 1 - (PI * y) ^ 2 / 6 <= sinc y <= 1) by (split; [apply sinc_low; lra|apply sinc_range; lra]).
  split.
  - eapply Rle_trans; [|exact L].
    pose proof (fading_drop a y (1 + y) ltac:(lia) ltac:(lra) ltac:(lra)) as F1. pose proof (fading_drop a (1 - y) (1 + (1 - y)) ltac:(lia) ltac:(lra) ltac:(lra)) as F2.
    assert (Q1 : 89/100 <= sinc (y / IZR a)) by (apply sinc_quarter; pose proof (DV y ltac:(lra)); pose proof (DV0 y ltac:(lra)); lra).
    assert (Q2 : 63/100 <= sinc ((1 - y) / IZR a)) by (apply sinc_half; pose proof (DV (1 - y) ltac:(lra)); pose proof (DV0 (1 - y) ltac:(lra)); lra).
    assert (I1 : / y - / (1 + y) = / (y * (1 + y))) by (field; lra). assert (I2 : / (1 - y) - / (1 + (1 - y)) = / ((1 - y) * (2 - y))) by (field; lra).
    rewrite I1 in F1. rewrite I2 in F2.
    assert (P1 : 0 < / (y * (1 + y))) by (apply Rinv_0_lt_compat; nra). assert (P2 : 0 < / ((1 - y) * (2 - y))) by (apply Rinv_0_lt_compat; nra).
    assert (T : 89/100 * / (y * (1 + y)) + 63/100 * / ((1 - y) * (2 - y)) <= fading a y - fading a (1 + y) + (fading a (1 - y) - fading a (1 + (1 - y)))) by nra.
    apply Rle_trans with (sinc y * y * (89/100 * / (y * (1 + y)) + 63/100 * / ((1 - y) * (2 - y)))).
    2:{ apply Rmult_le_compat_l; [|exact T]. apply Rmult_le_pos; [apply sinc_range; lra|lra]. }
    replace (sinc y * y * (89 / 100 * / (y * (1 + y)) + 63 / 100 * / ((1 - y) * (2 - y)))) with
      (sinc y * ((178 - 204 * y + 152 * y ^ 2) / 100) * / ((1 + y) * (1 - y) * (2 - y))) by (field; lra).
    assert (PP : 0 < (1 + y) * (1 - y) * (2 - y)) by (apply Rmult_lt_0_compat; nra).
    apply Rmult_le_reg_r with ((1 + y) * (1 - y) * (2 - y)); [exact PP|].
    match goal with |- _ <= ?X * / ?P * ?P => replace (X * / P * P) with X by (field; lra) end.
    assert (S1 : 1 - 16538/10000 * y ^ 2 <= sinc y).
    { eapply Rle_trans; [|apply SY]. replace ((PI * y) ^ 2) with (PI ^ 2 * y ^ 2) by ring. assert (PI ^ 2 <= 99225/10000) by nra. pose proof (pow2_ge_0 y). nra. }
    assert (W : 0 <= (178 - 204 * y + 152 * y ^ 2) / 100) by nra.
    apply Rle_trans with ((1 - 16538/10000 * y ^ 2) * ((178 - 204 * y + 152 * y ^ 2) / 100)); [|apply Rmult_le_compat_r; assumption].
    set (z := 1/2 - y). replace y with (1/2 - z) by (unfold z; ring). assert (ZB : 0 <= z < 1/2) by (unfold z; lra).
    assert (0 <= z ^ 3) by (apply pow_le; lra). assert (0 <= z ^ 4) by (apply pow_le; lra). nra.
  - eapply Rle_trans; [exact H|].
    assert (F : fading a y + fading a (1 - y) <= / y + / (1 - y)).
    { unfold fading, Rdiv. fold (y / IZR a). fold ((1 - y) / IZR a).
      pose proof (sinc_range _ (part a y ltac:(lia) ltac:(lra))). pose proof (sinc_range _ (part a (1 - y) ltac:(lia) ltac:(lra))).
      assert (0 < / y) by (apply Rinv_0_lt_compat; lra). assert (0 < / (1 - y)) by (apply Rinv_0_lt_compat; lra). nra. }
    assert (E : sinc y * y * (fading a y + fading a (1 - y)) <= sinc y * / (1 - y)).
    { apply Rle_trans with (sinc y * y * (/ y + / (1 - y))); [apply Rmult_le_compat_l; [apply Rmult_le_pos; [apply sinc_range; lra|lra]|exact F]|].
      right. field. lra. }
    eapply Rle_trans; [exact E|]. apply Rmult_le_reg_r with (1 - y); [lra|]. rewrite Rmult_assoc, Rinv_l, Rmult_1_r by lra.
    destruct (Rle_or_lt y (21/100)) as [S|S]; [lra|].
    apply Rmult_le_reg_r with (PI * y); [nra|]. rewrite sinc_mul. replace (PI * y) with (PI / 2 - PI * (1 / 2 - y)) at 1 by field. rewrite sin_shift.
    set (w := 1/2 - y). assert (WB : 0 <= w <= 29/100) by (unfold w; lra). replace y with (1/2 - w) by (unfold w; ring).
    assert (ZW : 0 <= PI * w <= 92/100) by nra.
    eapply Rle_trans; [apply cos_high; rewrite Rabs_pos_eq; lra|].
    replace ((PI * w) ^ 4) with ((PI * w) ^ 2 * (PI * w) ^ 2) by ring. set (q := (PI * w) ^ 2). assert (QB : 0 <= q <= 85/100) by (unfold q; nra).
    assert (PW : 314/100 * (PI * w * w) <= q) by (unfold q; nra).
    replace (128 / 100 * (1 - (1 / 2 - w)) * (PI * (1 / 2 - w))) with (32/100 * PI - 128/100 * (PI * w * w)) by field.
    assert (PW0 : 0 <= PI * w * w) by nra. nra.
Qed.
Lemma lanczos_int a n : (1 <= a)%Z -> lanczos a (IZR n) = if (n =? 0)%Z then 1 else 0.
Proof.
  intros A. apply IZR_le in A. change (IZR 1) with 1 in A. unfold lanczos. destruct (Z.eqb_spec n 0) as [->|N].
  - rewrite Rabs_R0. destruct (Rlt_dec 0 (IZR a)); [|lra]. unfold Rdiv. rewrite Rmult_0_l, sinc_0. ring.
  - rewrite sinc_int by exact N. destruct (Rlt_dec _ _); ring.
Qed.
Lemma total_range a u : (2 <= a)%Z -> 59/100 <= total a (lanczos a) u <= 128/100.
Proof.
  intros A. pose proof (lanczos_ok a ltac:(lia)) as KO. set (n := Zfloor u). replace u with (IZR n + (u - IZR n)) by ring. rewrite total_shift by exact KO.
  pose proof (Zfloor_lb u) as F0. pose proof (Zfloor_ub u) as F1. fold n in F0, F1. set (y := u - IZR n). assert (Y : 0 <= y < 1) by (unfold y; lra).
  destruct (Req_dec y 0) as [->|Y0].
  - rewrite (total_wide a _ KO 0 (- a) (a + 1)); [|change 0 with (IZR 0); rewrite Zfloor_IZR; lia..].
    rewrite (rsum_point _ _ _ 0) by (lia || (intros j _ J; unfold Rminus; rewrite Rplus_0_l, <- opp_IZR, lanczos_int by lia; destruct (Z.eqb_spec (- j) 0); [lia|reflexivity])).
    rewrite Rminus_0_r, (lanczos_int a 0) by lia. cbn. lra.
  - destruct (Rle_or_lt y (1/2)) as [L|L]; [apply total_range_half; [exact A|lra]|].
    rewrite <- (total_opp a _ KO y), <- (total_shift a _ KO 1 (- y)). apply total_range_half; [exact A|]. change (IZR 1) with 1. lra.
Qed.

(** ** Both kernels *)
Lemma lanczos_plain a u : lanczos a u = kern a (fun _ => 1) u.
Proof. unfold kern. field. Qed.
Lemma lanczos_positive a N s k range : (2 <= a)%Z -> (2 <= s)%Z -> (1 <= N)%Z -> (7 * a * range <= N)%Z -> (N - range <= k <= N + range)%Z ->
  0 < phase_cos N (s * N) a (lanczos a) k 0.
Proof.
  intros A S N1 R K. replace (phase_cos N (s * N) a (lanczos a) k 0) with (phase_cos N (s * N) a (kern a (fun _ => 1)) k 0) by (unfold phase_cos; apply rsum_ext; intros; rewrite <- lanczos_plain; reflexivity).
  apply (edge_positive a s (fun _ => 1) 1 1); try assumption; try lra; try reflexivity; [intros; lra|].
  rewrite <- abs_IZR. assert (Q : (7 * a * Z.abs (k - N) <= N)%Z) by nia. apply IZR_le in Q, N1. rewrite !mult_IZR in Q. change (IZR 7) with 7 in Q. change (IZR 1) with 1 in N1. lra.
Qed.
Lemma normalised_positive a N s k range : (2 <= a)%Z -> (2 <= s)%Z -> (1 <= N)%Z -> (15 * a * range <= N)%Z -> (N - range <= k <= N + range)%Z ->
  0 < phase_cos N (s * N) a (normalised a (lanczos a)) k 0.
Proof.
  intros A S N1 R K. pose proof (lanczos_ok a ltac:(lia)) as KO. change (normalised a (lanczos a)) with (kern a (total a (lanczos a))).
  apply (edge_positive a s (total a (lanczos a)) (59/100) (128/100)); try assumption; try lra.
  - intros u. apply total_range. exact A.
  - intros u. apply total_opp. exact KO.
  - intros n u. apply total_shift. exact KO.
  - rewrite <- abs_IZR. assert (Q : (15 * a * Z.abs (k - N) <= N)%Z) by nia. apply IZR_le in Q, N1. rewrite !mult_IZR in Q. change (IZR 15) with 15 in Q. change (IZR 1) with 1 in N1. lra.
Qed.
Lemma normalised_ok a K : kernel_ok a K -> kernel_ok a (normalised a K).
Proof.
  intros KO. assert (H := KO). destruct H as (A & E & Z0). split; [exact A|]. unfold normalised. split; intros u.
  - rewrite E, (total_opp a K KO). reflexivity.
  - intros H. rewrite Z0 by exact H. unfold Rdiv. ring.
Qed.
Lemma lanczos_responds lobe a K N s k range : lanczos_kernel lobe a K -> (2 <= s)%Z -> (1 <= N)%Z -> (lobe * a * range <= N)%Z -> (N - range <= k <= N + range)%Z ->
  kernel_ok a K /\ exists P, 0 < P /\ responds N (s * N) a K k P 0.
Proof.
  intros (A & H) S N1 R Hk.
  assert (KO : kernel_ok a K) by (destruct H as [(_ & ->)|(_ & ->)]; [|apply normalised_ok]; apply lanczos_ok; lia).
  split; [exact KO|]. exists (phase_cos N (s * N) a K k 0). split; [|apply responds_whole; [exact N1|lia|exact KO]].
  destruct H as [(-> & ->)|(-> & ->)]; [apply (lanczos_positive a N s k range)|apply (normalised_positive a N s k range)]; assumption.
Qed.
