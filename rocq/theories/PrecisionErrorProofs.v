(** Rounding error of the means in every precision. *)
From Coq Require Import ZArith Reals Lia Lra Psatz Bool List.
From Flocq Require Import Core Relative IEEE754.BinarySingleNaN IEEE754.Binary IEEE754.Bits.
From Verif Require Import Base Flt Util Methods Precision Spec SpecAnalysis SpecPrecision BaseProofs FltProofs MethodsProofs.
From Verif Require Import AnalysisProofs ErrorProofs PrecisionProofs.
Import ListNotations.
Open Scope list_scope.
Open Scope Z_scope.

Section Error.
Context (C I : format) (RI : roomy I).
Notation p := (f_prec I).
Notation emin := (3 - f_emax I - f_prec I).
Notation u := (bpow radix2 (- f_prec I)).
Notation eta := (bpow radix2 (3 - f_emax I - f_prec I - 1)).
Notation P := (2 ^ f_prec I).
Notation rn := (rn I).

Lemma rn_err x : (0 <= x -> Rabs (rn x - x) <= u * x + eta)%R.
Proof.
  intros Hx. destruct (error_N_FLT radix2 emin p ltac:(destruct RI; lia) (fun x => negb (Z.even x)) x) as (e & t & He & Ht & _ & EQ).
  unfold PrecisionProofs.rn. rewrite fx_flt. rewrite EQ.
  rewrite half_bpow in He, Ht. replace (- p + 1 - 1) with (- p) in He by lia.
  replace (x * (1 + e) + t - x)%R with (x * e + t)%R by ring.
  eapply Rle_trans; [apply Rabs_triang|]. rewrite Rabs_mult, (Rabs_pos_eq x) by exact Hx.
  apply Rplus_le_compat; [|exact Ht]. rewrite Rmult_comm. apply Rmult_le_compat_r; assumption.
Qed.
Lemma pu_small : (0 < u <= / 1000000)%R.
Proof. split; [apply bpow_gt_0|]. apply Rle_trans with (bpow radix2 (-20)); [apply bpow_le; destruct RI; lia|]. simpl. lra. Qed.
Lemma peta_small : (0 < eta <= u * / 1000)%R.
Proof.
  split; [apply bpow_gt_0|]. apply Rle_trans with (bpow radix2 (- p + -10)); [apply bpow_le; destruct RI; lia|].
  rewrite bpow_plus. apply Rmult_le_compat_l; [apply bpow_ge_0|]. simpl. lra.
Qed.
Lemma rn_int_err z : 0 <= z -> exists d, (rn (IZR z) = IZR z * (1 + d) /\ Rabs d <= 1.001 * u)%R.
Proof.
  intros Hz. destruct (Z.eq_dec z 0) as [->|NZ].
  - exists 0%R. rewrite rn_0, Rabs_R0 by exact RI. pose proof pu_small. split; lra.
  - assert (Q : (1 <= IZR z)%R) by (apply IZR_le; lia).
    exists ((rn (IZR z) - IZR z) / IZR z)%R. split; [field; lra|].
    unfold Rdiv. rewrite Rabs_mult, (Rabs_pos_eq (/ IZR z)) by (left; apply Rinv_0_lt_compat; lra).
    apply Rle_trans with ((u * IZR z + eta) * / IZR z)%R.
    { apply Rmult_le_compat_r; [left; apply Rinv_0_lt_compat; lra|]. apply rn_err. lra. }
    apply Rmult_le_reg_r with (IZR z); [lra|]. rewrite Rmult_assoc, Rinv_l, Rmult_1_r by lra.
    pose proof peta_small. pose proof pu_small. nra.
Qed.

Context (k : criterion) (range x : Z).
Hypothesis HR : 0 < range <= P.

Lemma pratio_err D : 0 < s_lines D <= P ->
  exists r, val I (pratio C I k D range x) r /\ (0 <= r <= 1)%R /\ (0 <= true_ratio C I k range x D <= 1)%R /\
    (Rabs (r - true_ratio C I k range x D) <= 4 * u)%R.
Proof.
  intros HL. destruct (pratio_val C I RI k D range x HL HR) as (V & B). cbv zeta in V, B.
  assert (HB := met_bounds C I k D range x ltac:(lia) ltac:(lia)).
  unfold true_ratio. set (a := met C I k D range x) in *. set (d := tried C k D range) in *.
  assert (D1 : 1 <= d) by (unfold d, tried; destruct k; nia).
  eexists. split; [exact V|]. split; [exact B|].
  assert (dp : (1 <= IZR d)%R) by (apply IZR_le; lia). assert (kp : (0 <= IZR a)%R) by (apply IZR_le; lia).
  assert (kd : (IZR a <= IZR d)%R) by (apply IZR_le; lia).
  set (q := (IZR a / IZR d)%R).
  assert (Hq : (0 <= q <= 1)%R).
  { unfold q. split; [apply Rmult_le_pos; [lra|left; apply Rinv_0_lt_compat; lra]|].
    apply Rmult_le_reg_r with (IZR d); [lra|]. unfold Rdiv. rewrite Rmult_assoc, Rinv_l by lra. lra. }
  split; [exact Hq|].
  destruct (rn_int_err a ltac:(lia)) as (s & Ka & Ha). destruct (rn_int_err d ltac:(lia)) as (t & Kb & Hb).
  pose proof pu_small as U. pose proof peta_small as T.
  apply Rabs_le_inv in Ha. apply Rabs_le_inv in Hb.
  assert (b1 : (0 < 1 + t)%R) by lra.
  assert (EQ : (rn (IZR a) / rn (IZR d) = q * ((1 + s) / (1 + t)))%R).
  { rewrite Ka, Kb. unfold q. field. split; lra. }
  rewrite EQ in *.
  set (v := ((1 + s) / (1 + t))%R) in *.
  assert (Hv : (Rabs (v - 1) <= 2.01 * u)%R).
  { replace (v - 1)%R with ((s - t) * / (1 + t))%R by (unfold v; field; lra).
    rewrite Rabs_mult, (Rabs_pos_eq (/ (1 + t))) by (left; apply Rinv_0_lt_compat; lra).
    apply Rmult_le_reg_r with (1 + t)%R; [lra|]. rewrite Rmult_assoc, Rinv_l, Rmult_1_r by lra.
    apply Rabs_le. split; nra. }
  apply Rabs_le_inv in Hv.
  assert (qv : (0 <= q * v)%R) by (apply Rmult_le_pos; lra).
  pose proof (rn_err (q * v) qv) as E1. apply Rabs_le_inv in E1.
  assert (M : (Rabs (q * v - q) <= 2.01 * u)%R).
  { replace (q * v - q)%R with (q * (v - 1))%R by ring. apply Rabs_le. split; nra. }
  apply Rabs_le_inv in M. apply Rabs_le. split; nra.
Qed.

Definition ptot (Ds : list (span C)) : num I := fold_left (fun s D => nadd I s (pratio C I k D range x)) Ds (n0 I).
Lemma ptot_snoc Ds D : ptot (Ds ++ [D]) = nadd I (ptot Ds) (pratio C I k D range x).
Proof. unfold ptot. rewrite fold_left_app. reflexivity. Qed.

Lemma room_P a : (a <= IZR P + 1)%R -> (a <= bpow radix2 (f_emax I - 1))%R.
Proof.
  intros H. eapply Rle_trans; [exact H|]. rewrite <- plus_IZR. destruct RI. rewrite bpow_IZR by lia. apply IZR_le.
  apply Z.le_trans with (2 ^ (p + 1)); [rewrite Z.pow_add_r by lia; pose proof (p_big I RI); lia|apply Z.pow_le_mono_r; lia].
Qed.

Lemma ptot_err Ds : (forall D, In D Ds -> 0 < s_lines D <= P) -> zlen Ds <= P ->
  exists s, val I (ptot Ds) s /\ (0 <= s <= IZR (zlen Ds))%R /\
    (0 <= sum_R (map (true_ratio C I k range x) Ds) <= IZR (zlen Ds))%R /\
    (Rabs (s - sum_R (map (true_ratio C I k range x) Ds)) <= IZR (zlen Ds) * (IZR (zlen Ds) / 2 + 6) * u)%R.
Proof.
  induction Ds as [|D Ds IH] using rev_ind; intros HL HN.
  - exists 0%R. split; [apply n0_val; exact RI|]. change (zlen []) with 0. cbn [map sum_R]. pose proof pu_small. split; [lra|]. split; [lra|].
    rewrite Rminus_0_r, Rabs_R0. lra.
  - rewrite zlen_app in HN. change (zlen [D]) with 1 in HN. pose proof (zlen_nonneg Ds).
    destruct IH as (s & Vs & Bs & Be & Es). { intros D' ID. apply HL. apply in_or_app. left. exact ID. } { lia. }
    destruct (pratio_err D) as (r & Vr & Br & Bq & Er). { apply HL. apply in_or_app. right. left. reflexivity. }
    rewrite ptot_snoc, map_app. cbn [map]. rewrite sum_R_app, zlen_app. change (zlen [D]) with 1.
    set (q := true_ratio C I k range x D) in *. set (t := sum_R (map (true_ratio C I k range x) Ds)) in *.
    rewrite plus_IZR. set (n := IZR (zlen Ds)) in *.
    assert (n0 : (0 <= n)%R) by (apply IZR_le; lia).
    assert (nP : (n <= IZR P)%R) by (apply IZR_le; lia).
    assert (V : val I (nadd I (ptot Ds) (pratio C I k D range x)) (rn (s + r))).
    { apply add_val; [exact RI|exact Vs|exact Vr|]. apply room_P. lra. }
    exists (rn (s + r)). split; [exact V|]. split.
    { split; [exact (val_nonneg _ _ _ V)|].
      apply Rle_trans with (rn (IZR (zlen Ds + 1))).
      - apply rn_le. rewrite plus_IZR. fold n. lra.
      - rewrite rn_Z by (try exact RI; lia). rewrite plus_IZR. fold n. lra. }
    split; [lra|].
    pose proof (rn_err (s + r) ltac:(lra)) as E1. apply Rabs_le_inv in E1. apply Rabs_le_inv in Es. apply Rabs_le_inv in Er.
    pose proof pu_small as U. pose proof peta_small as T.
    assert (K : (u * (s + r) <= u * (n + 1))%R) by (apply Rmult_le_compat_l; lra).
    apply Rabs_le. split; nra.
Qed.

Lemma pmean_err Ds : (forall D, In D Ds -> 0 < s_lines D <= P) -> 1 <= zlen Ds <= P ->
  exists v, val I (pmean I (ptot Ds) (zlen Ds)) v /\ (0 <= v <= 1)%R /\
    (Rabs (v - true_mean C I k Ds range x) <= (IZR (zlen Ds) + 10) * u)%R.
Proof.
  intros HL HN. destruct (ptot_err Ds HL ltac:(lia)) as (s & Vs & Bs & Be & Es).
  unfold true_mean. rewrite INR_IZR_INZ. fold (zlen Ds). set (t := sum_R _) in *.
  pose proof (of_Z_exact I RI (zlen Ds) ltac:(lia)) as Vn.
  set (n := IZR (zlen Ds)) in *.
  assert (n1 : (1 <= n)%R) by (apply IZR_le; lia).
  assert (i0 : (0 < / n)%R) by (apply Rinv_0_lt_compat; lra).
  assert (B : (0 <= s / n <= 1)%R).
  { unfold Rdiv. split; [apply Rmult_le_pos; lra|]. apply Rmult_le_reg_r with n; [lra|]. rewrite Rmult_assoc, Rinv_l; lra. }
  assert (V : val I (pmean I (ptot Ds) (zlen Ds)) (rn (s / n))).
  { apply div_val; [exact RI|exact Vs|exact Vn|lra|]. apply (le_top I RI). lra. }
  exists (rn (s / n)). split; [exact V|]. split.
  { split; [exact (val_nonneg _ _ _ V)|]. rewrite <- (rn_1 I RI). apply rn_le. lra. }
  pose proof (rn_err (s / n) ltac:(lra)) as E2.
  pose proof pu_small as U. pose proof peta_small as T.
  assert (E1 : (Rabs (s / n - t / n) <= (n / 2 + 6) * u)%R).
  { replace (s / n - t / n)%R with ((s - t) * / n)%R by (field; lra).
    rewrite Rabs_mult, (Rabs_pos_eq (/ n)) by lra.
    apply Rmult_le_reg_r with n; [lra|]. rewrite Rmult_assoc, Rinv_l by lra. lra. }
  apply Rabs_le_inv in E1. apply Rabs_le_inv in E2. apply Rabs_le.
  assert (K : (u * (s / n) <= u * 1)%R) by (apply Rmult_le_compat_l; lra).
  assert (K2 : (0 <= n * u)%R) by (apply Rmult_le_pos; lra).
  split; nra.
Qed.

(** every pair, or no pair, meets the criterion *)
Lemma pratio_all D : 0 < s_lines D <= P -> met C I k D range x = tried C k D range -> val I (pratio C I k D range x) 1.
Proof.
  intros HL E. destruct (pratio_val C I RI k D range x HL HR) as (V & _). cbv zeta in V. rewrite E in V.
  assert (D1 : 1 <= tried C k D range) by (unfold tried; destruct k; nia).
  pose proof (rn_pos I RI _ D1). unfold Rdiv in V. rewrite Rinv_r in V by lra. rewrite rn_1 in V by exact RI. exact V.
Qed.
Lemma pratio_none D : 0 < s_lines D <= P -> met C I k D range x = 0 -> val I (pratio C I k D range x) 0.
Proof.
  intros HL E. destruct (pratio_val C I RI k D range x HL HR) as (V & _). cbv zeta in V. rewrite E in V.
  rewrite rn_0 in V by exact RI. unfold Rdiv in V. rewrite Rmult_0_l, rn_0 in V by exact RI. exact V.
Qed.
Lemma ptot_all Ds : (forall D, In D Ds -> 0 < s_lines D <= P /\ met C I k D range x = tried C k D range) ->
  val I (ptot Ds) (IZR (Z.min (zlen Ds) P)).
Proof.
  pose proof (p_big I RI). induction Ds as [|D Ds IH] using rev_ind; intros HL.
  - change (zlen []) with 0. rewrite Z.min_l by lia. apply n0_val. exact RI.
  - rewrite ptot_snoc, zlen_app. change (zlen [D]) with 1. pose proof (zlen_nonneg Ds).
    destruct (HL D) as (HL1 & HM). { apply in_or_app. right. left. reflexivity. }
    pose proof (IH ltac:(intros D' ID; apply HL, in_or_app; left; exact ID)) as V.
    assert (Q : rn (IZR (Z.min (zlen Ds) P) + 1) = IZR (Z.min (zlen Ds + 1) P)).
    { destruct (Z.le_gt_cases P (zlen Ds)) as [B|B].
      - rewrite !Z.min_r by lia. apply rn_stuck. exact RI.
      - rewrite !Z.min_l by lia. rewrite <- plus_IZR. apply rn_Z; [exact RI|lia]. }
    rewrite <- Q. apply add_val; [exact RI|exact V|apply pratio_all; assumption|].
    apply room_P. apply Rplus_le_compat_r. apply IZR_le. lia.
Qed.
Lemma ptot_none Ds : (forall D, In D Ds -> 0 < s_lines D <= P /\ met C I k D range x = 0) -> val I (ptot Ds) 0.
Proof.
  induction Ds as [|D Ds IH] using rev_ind; intros HL.
  - apply n0_val. exact RI.
  - rewrite ptot_snoc. destruct (HL D) as (HL1 & HM). { apply in_or_app. right. left. reflexivity. }
    pose proof (IH ltac:(intros D' ID; apply HL, in_or_app; left; exact ID)) as V.
    assert (Q : rn (0 + 0) = 0%R) by (rewrite Rplus_0_r; apply rn_0; exact RI).
    rewrite <- Q. apply add_val; [exact RI|exact V|apply pratio_none; assumption|].
    rewrite Rplus_0_r. apply bpow_ge_0.
Qed.
End Error.

Lemma same_number {A B} (Q : A -> B -> Prop) l l' : Forall2 Q l l' -> length l = length l'.
Proof. intros H. induction H as [|a b l l' H1 H2 IH]; [reflexivity|]. cbn [length]. f_equal. exact IH. Qed.
Lemma some_zlen {A} (l : list A) : l <> [] -> 1 <= zlen l.
Proof. destruct l as [|a l]; [intros H; contradiction H; reflexivity|]. intros _. rewrite zlen_cons. pose proof (zlen_nonneg l). lia. Qed.

(** ** Series of planes *)
Lemma series_confidence : forall C I c m fs Ds len n stride dist range,
  roomy C -> roomy I -> wider C I -> wider binary32_format I ->
  series C I c m fs Ds len n stride dist range ->
  exists result, prun_all C I c m fs len n stride dist range (repeat (n0 I) (Z.to_nat (len - 2 * range))) = Ok result /\
    zlen result = len - 2 * range /\
    forall i, 0 <= i < len - 2 * range ->
      let v := at_ (n0 I) result i in let k := zlen fs in let q := pconfidence I v k in
      ffinite q = true /\ (0 <= B2R 24 128 q <= 1)%R /\
      (k <= 2 ^ f_prec I -> (Rabs (B2R 24 128 q - true_mean C I (counted c m) Ds range (range + i))
          <= / IZR (2 ^ 25) + (IZR k + 10) / IZR (2 ^ f_prec I))%R) /\
      forall threshold, ffinite threshold = true ->
        (preaches I v k threshold = true <-> (B2R 24 128 threshold <= real I (pmean I v k))%R).
Proof.
  intros C I c m fs Ds len n stride dist range RC RI W W32 S.
  destruct S as [S1 S2 S3 S4 S5 S6 S7 S8].
  destruct (prun_all_ok C I RC RI W c m n stride dist range len ltac:(lia) ltac:(lia) ltac:(lia) S7 ltac:(lia) ltac:(lia) S8 fs Ds ltac:(lia) S1)
    as (result & E & LR & A).
  exists result. split; [exact E|]. split; [exact LR|]. intros i Hi v k q.
  assert (LEN : zlen Ds = zlen fs). { unfold zlen. f_equal. symmetry. exact (same_number _ _ _ S1). }
  assert (LN : forall D, In D Ds -> s_lines D = n).
  { intros D ID. clear - S1 ID. induction S1 as [|f D' fs Ds [G _] S1 IH]; [destruct ID|]. destruct ID as [<-|ID]; [exact (l_n _ _ _ _ _ _ G)|apply IH, ID]. }
  assert (K1 : 1 <= k < 2 ^ 64). { unfold k. split; [apply some_zlen, S2|exact S3]. }
  assert (EV : v = ptotal C I c m range Ds (range + i)) by (apply A; lia).
  destruct (ptotal_val C I RI c m n range ltac:(lia) ltac:(lia) ltac:(lia) Ds (range + i) LN ltac:(lia)) as (s & V & B).
  rewrite <- EV in V. rewrite LEN in B. fold k in B.
  destruct (pmean_val I RI v s k V ltac:(lia) B) as (VM & BM).
  destruct (pconfidence_val I v k _ RI VM BM) as (Q1 & Q2 & Q3). fold q in Q1, Q2.
  split; [exact Q1|]. split; [rewrite Q2; exact Q3|]. split.
  - intros HK. destruct (pmean_err C I RI (counted c m) range (range + i) ltac:(lia) Ds) as (v' & VM' & B' & E').
    { intros D ID. rewrite (LN D ID). lia. } { lia. }
    change (ptot C I (counted c m) range (range + i) Ds) with (ptotal C I c m range Ds (range + i)) in VM'.
    rewrite <- EV, LEN in VM'. fold k in VM'. rewrite LEN in E'. fold k in E'.
    assert (EQ : rn I (s / rn I (IZR k)) = v'). { destruct VM as (_ & _ & X). destruct VM' as (_ & _ & Y). congruence. }
    rewrite Q2, EQ.
    pose proof (rnd32_unit_err _ B') as E3. apply Rabs_le_inv in E'. apply Rabs_le_inv in E3.
    rewrite bpow_opp in E'. rewrite bpow_IZR in E' by (destruct RI; lia).
    change (bpow radix2 (-25)) with (/ IZR (2 ^ 25))%R in E3. unfold Rdiv. apply Rabs_le. split; lra.
  - intros th Hth. unfold preaches.
    destruct (convert_up binary32_format I th W32 Hth) as (T1 & T2 & _).
    destruct VM as (M1 & _ & _). rewrite (ge_spec I _ _ M1 T1). rewrite T2. reflexivity.
Qed.

Lemma series_unanimous : forall C I c m fs Ds len n stride dist range result i,
  roomy C -> roomy I -> wider C I -> wider binary32_format I ->
  series C I c m fs Ds len n stride dist range ->
  prun_all C I c m fs len n stride dist range (repeat (n0 I) (Z.to_nat (len - 2 * range))) = Ok result ->
  0 <= i < len - 2 * range ->
  let q := pconfidence I (at_ (n0 I) result i) (zlen fs) in
  ((forall D, In D Ds -> met C I (counted c m) D range (range + i) = tried C (counted c m) D range) ->
     zlen fs <= 2 ^ f_prec I -> B2R 24 128 q = 1%R) /\
  ((forall D, In D Ds -> met C I (counted c m) D range (range + i) = 0) -> B2R 24 128 q = 0%R).
Proof.
  intros C I c m fs Ds len n stride dist range result i RC RI W W32 S E Hi q.
  destruct S as [S1 S2 S3 S4 S5 S6 S7 S8].
  destruct (prun_all_ok C I RC RI W c m n stride dist range len ltac:(lia) ltac:(lia) ltac:(lia) S7 ltac:(lia) ltac:(lia) S8 fs Ds ltac:(lia) S1)
    as (result' & E' & LR & A).
  rewrite E in E'. injection E' as <-.
  assert (LEN : zlen Ds = zlen fs). { unfold zlen. f_equal. symmetry. exact (same_number _ _ _ S1). }
  assert (LN : forall D, In D Ds -> s_lines D = n).
  { intros D ID. clear - S1 ID. induction S1 as [|f D' fs Ds [G _] S1 IH]; [destruct ID|]. destruct ID as [<-|ID]; [exact (l_n _ _ _ _ _ _ G)|apply IH, ID]. }
  assert (K1 : 1 <= zlen fs < 2 ^ 64). { split; [apply some_zlen, S2|exact S3]. }
  unfold q. rewrite (A i) by lia. set (k := zlen fs) in *.
  change (ptotal C I c m range Ds (range + i)) with (ptot C I (counted c m) range (range + i) Ds).
  pose proof (p_big I RI). split.
  - intros HM HK. pose proof (ptot_all C I RI (counted c m) range (range + i) ltac:(lia) Ds) as V.
    rewrite LEN in V. rewrite Z.min_l in V by lia.
    specialize (V ltac:(intros D ID; rewrite (LN D ID); split; [lia|apply HM, ID])).
    destruct (pmean_val I RI _ _ k V) as (VM & BM). { lia. } { rewrite Z.min_l by lia. split; [apply IZR_le; lia|lra]. }
    rewrite (rn_Z I RI k) in VM, BM by lia.
    assert (NZ : IZR k <> 0%R) by (apply IZR_neq; lia).
    unfold Rdiv in VM, BM. rewrite Rinv_r, rn_1 in VM, BM by assumption.
    destruct (pconfidence_val I _ k _ RI VM BM) as (_ & Q & _). rewrite Q. apply rnd32_1.
  - intros HM. pose proof (ptot_none C I RI (counted c m) range (range + i) ltac:(lia) Ds) as V.
    specialize (V ltac:(intros D ID; rewrite (LN D ID); split; [lia|apply HM, ID])).
    destruct (pmean_val I RI _ _ k V) as (VM & BM). { lia. } { split; [lra|apply IZR_le; lia]. }
    unfold Rdiv in VM, BM. rewrite Rmult_0_l, rn_0 in VM, BM by exact RI.
    destruct (pconfidence_val I _ k _ RI VM BM) as (_ & Q & _). rewrite Q. apply rnd32_0.
Qed.

Lemma series_stuck : forall C I c m fs Ds len n stride dist range result i,
  roomy C -> roomy I -> wider C I -> wider binary32_format I ->
  series C I c m fs Ds len n stride dist range ->
  prun_all C I c m fs len n stride dist range (repeat (n0 I) (Z.to_nat (len - 2 * range))) = Ok result ->
  0 <= i < len - 2 * range ->
  (forall D, In D Ds -> met C I (counted c m) D range (range + i) = tried C (counted c m) D range) ->
  2 ^ (f_prec I + 1) <= zlen fs ->
  true_mean C I (counted c m) Ds range (range + i) = 1%R /\
  (B2R 24 128 (pconfidence I (at_ (n0 I) result i) (zlen fs)) <= / 2)%R.
Proof.
  intros C I c m fs Ds len n stride dist range result i RC RI W W32 S E Hi HM HK.
  destruct S as [S1 S2 S3 S4 S5 S6 S7 S8].
  destruct (prun_all_ok C I RC RI W c m n stride dist range len ltac:(lia) ltac:(lia) ltac:(lia) S7 ltac:(lia) ltac:(lia) S8 fs Ds ltac:(lia) S1)
    as (result' & E' & LR & A).
  rewrite E in E'. injection E' as <-.
  assert (LEN : zlen Ds = zlen fs). { unfold zlen. f_equal. symmetry. exact (same_number _ _ _ S1). }
  assert (LN : forall D, In D Ds -> s_lines D = n).
  { intros D ID. clear - S1 ID. induction S1 as [|f D' fs Ds [G _] S1 IH]; [destruct ID|]. destruct ID as [<-|ID]; [exact (l_n _ _ _ _ _ _ G)|apply IH, ID]. }
  assert (K1 : 1 <= zlen fs < 2 ^ 64). { split; [apply some_zlen, S2|exact S3]. }
  rewrite (A i) by lia. set (k := zlen fs) in *.
  change (ptotal C I c m range Ds (range + i)) with (ptot C I (counted c m) range (range + i) Ds).
  pose proof (p_big I RI). split.
  - unfold true_mean. rewrite INR_IZR_INZ. fold (zlen Ds). rewrite LEN. fold k.
    assert (SR : sum_R (map (true_ratio C I (counted c m) range (range + i)) Ds) = IZR (zlen Ds)).
    { assert (HM' : forall D, In D Ds -> true_ratio C I (counted c m) range (range + i) D = 1%R).
      { intros D ID. unfold true_ratio. rewrite (HM D ID). unfold Rdiv. apply Rinv_r.
        apply IZR_neq. unfold tried. rewrite (LN D ID). destruct (counted c m); nia. }
      clear - HM'. induction Ds as [|D Ds IH]; [reflexivity|]. cbn [map sum_R]. rewrite zlen_cons, plus_IZR.
      rewrite IH by (intros D' ID; apply HM'; right; exact ID). rewrite HM' by (left; reflexivity). lra. }
    rewrite SR, LEN. fold k. unfold Rdiv. apply Rinv_r. apply IZR_neq. lia.
  - pose proof (ptot_all C I RI (counted c m) range (range + i) ltac:(lia) Ds) as V.
    rewrite LEN in V. fold k in V.
    assert (PP : 2 ^ f_prec I * 2 <= k). { rewrite Z.pow_add_r in HK by (destruct RI; lia). lia. }
    rewrite Z.min_r in V by lia.
    specialize (V ltac:(intros D ID; rewrite (LN D ID); split; [lia|apply HM, ID])).
    destruct (pmean_val I RI _ _ k V) as (VM & BM). { lia. } { rewrite Z.min_r by lia. split; [apply IZR_le; lia|lra]. }
    destruct (pconfidence_val I _ k _ RI VM BM) as (_ & Q & _). rewrite Q.
    assert (H2 : (IZR (2 ^ f_prec I * 2) <= rn I (IZR k))%R).
    { assert (G2 : rn I (IZR (2 ^ f_prec I * 2)) = IZR (2 ^ f_prec I * 2)).
      { apply rn_id. replace (2 ^ f_prec I * 2) with (2 ^ (f_prec I + 1)) by (rewrite Z.pow_add_r by (destruct RI; lia); lia).
        rewrite <- bpow_IZR by (destruct RI; lia). apply fmt_bpow; [exact RI|]. destruct RI. lia. }
      rewrite <- G2. apply rn_le, IZR_le. exact PP. }
    rewrite mult_IZR in H2. set (a := IZR (2 ^ f_prec I)) in *.
    assert (a1 : (1 <= a)%R) by (apply IZR_le; lia).
    assert (U : (a / rn I (IZR k) <= / 2)%R).
    { apply Rmult_le_reg_r with (rn I (IZR k)); [lra|]. unfold Rdiv. rewrite Rmult_assoc, Rinv_l by lra. lra. }
    assert (H3 : (rn I (a / rn I (IZR k)) <= / 2)%R).
    { assert (G3 : rn I (/ 2) = (/ 2)%R). { change (/ 2)%R with (bpow radix2 (-1)). apply rn_id, fmt_bpow; [exact RI|]. destruct RI. lia. }
      rewrite <- G3. apply rn_le. exact U. }
    assert (G4 : rnd32 (/ 2) = (/ 2)%R). { change (/ 2)%R with (bpow radix2 (-1)). apply rnd32_id, fmt32_bpow. lia. }
    rewrite <- G4. apply rnd32_le. exact H3.
Qed.
