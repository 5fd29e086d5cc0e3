(** Rounding error of the reported confidences. *)
From Coq Require Import Reals Permutation Lra Psatz.
From Flocq Require Import Core Relative IEEE754.Binary.
From Verif Require Import Base Flt Util Methods Analysis History Spec SpecAnalysis SpecReport.
From Verif Require Import BaseProofs FltProofs MethodsProofs AnalysisProofs ResultsProofs.
Open Scope list_scope.
Open Scope Z_scope.

Local Notation u := (bpow radix2 (-53)).
Local Notation eta := (bpow radix2 (-1075)).

Lemma half_bpow e : (/ 2 * bpow radix2 e = bpow radix2 (e - 1))%R.
Proof. unfold Z.sub. rewrite bpow_plus. change (bpow radix2 (-(1))) with (/2)%R. lra. Qed.

Lemma rnd64_err x : (0 <= x -> Rabs (rnd64 x - x) <= u * x + eta)%R.
Proof.
  intros Hx. destruct (error_N_FLT radix2 (-1074) 53 ltac:(lia) (fun x => negb (Z.even x)) x) as (e & t & He & Ht & _ & EQ).
  unfold rnd64. change fexp64 with (FLT_exp (-1074) 53). rewrite EQ.
  rewrite half_bpow in He, Ht. change (-53 + 1 - 1) with (-53) in He. change (-1074 - 1) with (-1075) in Ht.
  replace (x * (1 + e) + t - x)%R with (x * e + t)%R by ring.
  eapply Rle_trans; [apply Rabs_triang|]. rewrite Rabs_mult, (Rabs_pos_eq x) by exact Hx.
  apply Rplus_le_compat; [|exact Ht]. rewrite Rmult_comm. apply Rmult_le_compat_r; assumption.
Qed.

Lemma u_small : (0 < u <= / 1000000)%R.
Proof. split; [apply bpow_gt_0|]. apply Rle_trans with (bpow radix2 (-20)); [apply bpow_le; lia|]. simpl. lra. Qed.
Lemma eta_small : (0 < eta <= u * / 1000)%R.
Proof.
  split; [apply bpow_gt_0|]. apply Rle_trans with (bpow radix2 (-53 + -10)); [apply bpow_le; lia|].
  rewrite bpow_plus. apply Rmult_le_compat_l; [apply bpow_ge_0|]. simpl. lra.
Qed.

Lemma rnd64_int_err z : 0 <= z -> exists d, (rnd64 (IZR z) = IZR z * (1 + d) /\ Rabs d <= 1.001 * u)%R.
Proof.
  intros Hz. destruct (Z.eq_dec z 0) as [->|NZ].
  - exists 0%R. rewrite rnd64_0, Rabs_R0. pose proof u_small. split; lra.
  - assert (P : (1 <= IZR z)%R) by (apply IZR_le; lia).
    exists ((rnd64 (IZR z) - IZR z) / IZR z)%R. split; [field; lra|].
    unfold Rdiv. rewrite Rabs_mult, (Rabs_pos_eq (/ IZR z)) by (left; apply Rinv_0_lt_compat; lra).
    apply Rle_trans with ((u * IZR z + eta) * / IZR z)%R.
    { apply Rmult_le_compat_r; [left; apply Rinv_0_lt_compat; lra|]. apply rnd64_err. lra. }
    apply Rmult_le_reg_r with (IZR z); [lra|]. rewrite Rmult_assoc, Rinv_l, Rmult_1_r by lra.
    pose proof eta_small. pose proof u_small. nra.
Qed.

(** error of one ratio *)
Lemma ratio_err c D range x : 0 < d_lines D <= 2^31 -> 0 < range <= 2^31 ->
  exists r, dval (ratio c D range x) r /\ (0 <= r <= 1)%R /\ (0 <= exact_ratio c range x D <= 1)%R /\
    (Rabs (r - exact_ratio c range x D) <= 4 * u)%R.
Proof.
  intros HL HR.
  assert (HB := hits_bounds c D range x ltac:(lia) ltac:(lia)).
  set (k := hits c D range x) in *. set (d := tested c D range).
  assert (HD : match c with ZeroCrossing => d_lines D | _ => d_lines D * range end = d) by reflexivity.
  rewrite HD in HB.
  assert (D1 : 1 <= d <= 2^62) by (unfold d, tested; destruct c; nia).
  assert (Q : dval (ratio c D range x) (rnd64 (rnd64 (IZR k) / rnd64 (IZR d))) /\
              (rnd64 (rnd64 (IZR k) / rnd64 (IZR d)) <= 1)%R).
  { unfold ratio. fold k.
    destruct c; (apply quotient_val; [lia|lia| |lia|lia]); unfold d, tested;
      try (apply denominator_val; lia). apply f64_of_Z_val; lia. }
  destruct Q as (Q & Q1). eexists. split; [exact Q|].
  assert (Q0 := dval_nonneg _ _ Q). split; [lra|].
  unfold exact_ratio. fold k d.
  assert (dp : (1 <= IZR d)%R) by (apply IZR_le; lia). assert (kp : (0 <= IZR k)%R) by (apply IZR_le; lia).
  assert (kd : (IZR k <= IZR d)%R) by (apply IZR_le; lia).
  set (q := (IZR k / IZR d)%R).
  assert (Hq : (0 <= q <= 1)%R).
  { unfold q. split; [apply Rmult_le_pos; [lra|left; apply Rinv_0_lt_compat; lra]|].
    apply Rmult_le_reg_r with (IZR d); [lra|]. unfold Rdiv. rewrite Rmult_assoc, Rinv_l by lra. lra. }
  split; [exact Hq|].
  destruct (rnd64_int_err k ltac:(lia)) as (a & Ka & Ha). destruct (rnd64_int_err d ltac:(lia)) as (b & Kb & Hb).
  pose proof u_small as U. pose proof eta_small as T.
  apply Rabs_le_inv in Ha. apply Rabs_le_inv in Hb.
  assert (b1 : (0 < 1 + b)%R) by lra.
  assert (EQ : (rnd64 (IZR k) / rnd64 (IZR d) = q * ((1 + a) / (1 + b)))%R).
  { rewrite Ka, Kb. unfold q. field. split; lra. }
  rewrite EQ in *.
  set (v := ((1 + a) / (1 + b))%R) in *.
  assert (Hv : (Rabs (v - 1) <= 2.01 * u)%R).
  { replace (v - 1)%R with ((a - b) * / (1 + b))%R by (unfold v; field; lra).
    rewrite Rabs_mult, (Rabs_pos_eq (/ (1 + b))) by (left; apply Rinv_0_lt_compat; lra).
    apply Rmult_le_reg_r with (1 + b)%R; [lra|]. rewrite Rmult_assoc, Rinv_l, Rmult_1_r by lra.
    apply Rabs_le. split; nra. }
  apply Rabs_le_inv in Hv.
  assert (qv : (0 <= q * v)%R) by (apply Rmult_le_pos; lra).
  pose proof (rnd64_err (q * v) qv) as E1. apply Rabs_le_inv in E1.
  assert (M : (Rabs (q * v - q) <= 2.01 * u)%R).
  { replace (q * v - q)%R with (q * (v - 1))%R by ring. apply Rabs_le. split; nra. }
  apply Rabs_le_inv in M. apply Rabs_le. split; nra.
Qed.

Lemma sum_R_app l a : (sum_R (l ++ [a]) = sum_R l + a)%R.
Proof. induction l as [|b l IH]; cbn; [lra|]. rewrite IH. lra. Qed.

(** error of the accumulated total *)
Lemma total_err c range x : 0 < range <= 2^31 -> forall Ds,
  (forall D, In D Ds -> 0 < d_lines D <= 2^31) -> zlen Ds <= 2^53 ->
  exists s, dval (total c Ds range x) s /\ (0 <= s <= IZR (zlen Ds))%R /\
    (0 <= sum_R (map (exact_ratio c range x) Ds) <= IZR (zlen Ds))%R /\
    (Rabs (s - sum_R (map (exact_ratio c range x) Ds)) <= IZR (zlen Ds) * (IZR (zlen Ds) / 2 + 6) * u)%R.
Proof.
  intros HR Ds. induction Ds as [|D Ds IH] using rev_ind; intros HL HN.
  - exists 0%R. split; [apply d0_val|]. change (zlen []) with 0. cbn [map sum_R]. pose proof u_small. split; [lra|]. split; [lra|].
    rewrite Rminus_0_r, Rabs_R0. lra.
  - rewrite zlen_app in HN. change (zlen [D]) with 1 in HN. pose proof (zlen_nonneg Ds).
    destruct IH as (s & Vs & Bs & Be & Es). { intros D' I. apply HL. apply in_or_app. left. exact I. } { lia. }
    destruct (ratio_err c D range x) as (r & Vr & Br & Bq & Er). { apply HL. apply in_or_app. right. left. reflexivity. } { exact HR. }
    rewrite total_snoc, map_app. cbn [map]. rewrite sum_R_app, zlen_app. change (zlen [D]) with 1.
    set (q := exact_ratio c range x D) in *. set (t := sum_R (map (exact_ratio c range x) Ds)) in *.
    rewrite plus_IZR. set (n := IZR (zlen Ds)) in *.
    assert (n0 : (0 <= n)%R) by (apply IZR_le; lia).
    assert (SM : (s + r <= bpow radix2 1023)%R).
    { apply Rle_trans with (IZR (2^53)); [|rewrite <- bpow_IZR by lia; apply bpow_le; lia].
      apply Rle_trans with (IZR (zlen Ds + 1)); [rewrite plus_IZR; fold n; lra|apply IZR_le; lia]. }
    exists (rnd64 (s + r)). pose proof (dadd_val _ _ _ _ Vs Vr SM) as V.
    split; [exact V|]. split.
    { split; [exact (dval_nonneg _ _ V)|].
      apply Rle_trans with (rnd64 (IZR (zlen Ds + 1))).
      - apply rnd64_le. rewrite plus_IZR. fold n. lra.
      - rewrite rnd64_Z by lia. rewrite plus_IZR. fold n. lra. }
    split; [lra|].
    pose proof (rnd64_err (s + r) ltac:(lra)) as E1. apply Rabs_le_inv in E1. apply Rabs_le_inv in Es. apply Rabs_le_inv in Er.
    pose proof u_small as U. pose proof eta_small as T.
    assert (K : (u * (s + r) <= u * (n + 1))%R) by (apply Rmult_le_compat_l; lra).
    apply Rabs_le. split; nra.
Qed.

Lemma rnd32_unit_err x : (0 <= x <= 1 -> Rabs (rnd32 x - x) <= bpow radix2 (-25))%R.
Proof.
  intros [H0 H1]. destruct (Req_dec x 1) as [->|N1].
  { rewrite rnd32_1, Rminus_diag_eq, Rabs_R0 by reflexivity. apply bpow_ge_0. }
  eapply Rle_trans; [apply error_le_half_ulp; apply FLT_exp_valid; reflexivity|].
  replace (bpow radix2 (-25)) with (/ 2 * bpow radix2 (-24))%R by (rewrite half_bpow; reflexivity).
  apply Rmult_le_compat_l; [lra|].
  destruct (Req_dec x 0) as [->|N0].
  { change fexp32 with (FLT_exp (-149) 24). rewrite ulp_FLT_0 by reflexivity. apply bpow_le. lia. }
  rewrite ulp_neq_0 by exact N0. apply bpow_le. unfold cexp.
  assert (M : mag radix2 x <= 0). { apply mag_le_bpow; [exact N0|]. rewrite Rabs_pos_eq by lra. simpl. lra. }
  change fexp32 with (FLT_exp (-149) 24). unfold FLT_exp. lia.
Qed.

(** the mean in double precision *)
Lemma mean64_err c Ds range x : 0 < range <= 2^31 ->
  (forall D, In D Ds -> 0 < d_lines D <= 2^31) -> 1 <= zlen Ds <= 2^53 ->
  exists v, dval (mean c Ds range x) v /\ (0 <= v <= 1)%R /\ (Rabs (v - exact_mean c Ds range x) <= (INR (length Ds) + 10) * u)%R.
Proof.
  intros HR HL HN. destruct (total_err c range x HR Ds HL ltac:(lia)) as (s & Vs & Bs & Be & Es).
  unfold mean, exact_mean. fold (zlen Ds).
  rewrite INR_IZR_INZ. fold (zlen Ds). set (t := sum_R _) in *.
  pose proof (f64_of_Z_exact (zlen Ds) ltac:(lia)) as Vn.
  set (n := IZR (zlen Ds)) in *.
  assert (n1 : (1 <= n)%R) by (apply IZR_le; lia).
  assert (i0 : (0 < / n)%R) by (apply Rinv_0_lt_compat; lra).
  assert (B : (0 <= s / n <= 1)%R).
  { unfold Rdiv. split; [apply Rmult_le_pos; lra|]. apply Rmult_le_reg_r with n; [lra|]. rewrite Rmult_assoc, Rinv_l; lra. }
  assert (V : dval (ddiv (total c Ds range x) (f64_of_Z (zlen Ds))) (rnd64 (s / n))).
  { apply ddiv_val; [exact Vs|exact Vn|lra|]. apply Rle_trans with 1%R; [lra|]. change 1%R with (bpow radix2 0). apply bpow_le. lia. }
  exists (rnd64 (s / n)). split; [exact V|]. split.
  { split; [exact (dval_nonneg _ _ V)|]. rewrite <- rnd64_1. apply rnd64_le. lra. }
  pose proof (rnd64_err (s / n) ltac:(lra)) as E2.
  pose proof u_small as U. pose proof eta_small as T.
  assert (E1 : (Rabs (s / n - t / n) <= (n / 2 + 6) * u)%R).
  { replace (s / n - t / n)%R with ((s - t) * / n)%R by (field; lra).
    rewrite Rabs_mult, (Rabs_pos_eq (/ n)) by lra.
    apply Rmult_le_reg_r with n; [lra|]. rewrite Rmult_assoc, Rinv_l by lra. lra. }
  apply Rabs_le_inv in E1. apply Rabs_le_inv in E2. apply Rabs_le.
  assert (K : (u * (s / n) <= u * 1)%R) by (apply Rmult_le_compat_l; lra).
  assert (K2 : (0 <= n * u)%R) by (apply Rmult_le_pos; lra).
  split; nra.
Qed.

Lemma mean_err c Ds range x : 0 < range <= 2^31 ->
  (forall D, In D Ds -> 0 < d_lines D <= 2^31) -> 1 <= zlen Ds <= 2^53 ->
  (Rabs (rf (f32_of_f64 (mean c Ds range x)) - exact_mean c Ds range x)
    <= bpow radix2 (-25) + (INR (length Ds) + 10) * u)%R.
Proof.
  intros HR HL HN. destruct (mean64_err c Ds range x HR HL HN) as (v & V & R1 & E).
  destruct (f32_of_f64_val _ _ V) as (_ & _ & VF).
  { apply Rle_trans with 1%R; [lra|]. change 1%R with (bpow radix2 0). apply bpow_le. lia. }
  rewrite VF. pose proof (rnd32_unit_err _ R1) as E3. apply Rabs_le_inv in E. apply Rabs_le_inv in E3. apply Rabs_le. split; lra.
Qed.
