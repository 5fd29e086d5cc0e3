(** The sign method counts what every other method counts. *)
From Coq Require Import Reals Lra Lia Psatz.
From Flocq Require Import Core IEEE754.BinarySingleNaN IEEE754.Binary IEEE754.Bits.
From Verif Require Import Base Flt Util Methods Analysis History Spec SpecAnalysis SpecUtil SpecReport SpecOrder.
From Verif Require Import BaseProofs FltProofs RoundProofs WorldProofs MethodsProofs AnalysisProofs ResultsProofs ClientProofs CompareProofs.
Open Scope list_scope.
Open Scope Z_scope.

(** ** Counting *)
Lemma filter_le {A} (P Q : A -> bool) l : (forall a, In a l -> P a = true -> Q a = true) -> (length (filter P l) <= length (filter Q l))%nat.
Proof.
  induction l as [|a l IH]; intros H; [apply le_n|]. cbn [filter].
  specialize (IH (fun b I => H b (or_intror I))). specialize (H a (or_introl eq_refl)).
  destruct (P a); [rewrite (H eq_refl); cbn [length]; lia|]. destruct (Q a); cbn [length]; lia.
Qed.
Lemma in_pairs_prod n range y i : In (y, i) (list_prod (zrange 0 n) (zrange 1 (range + 1))) <-> 0 <= y < n /\ 1 <= i <= range.
Proof. rewrite in_prod_iff, !in_zrange. lia. Qed.
Lemma how_many_pairs_le P Q n range : (forall y i, 0 <= y < n -> 1 <= i <= range -> P y i = true -> Q y i = true) -> how_many_pairs P n range <= how_many_pairs Q n range.
Proof. intros H. unfold how_many_pairs. apply inj_le, filter_le. intros (y & i) I. apply in_pairs_prod in I. apply H; tauto. Qed.
Lemma how_many_one P n : how_many P 0 n = how_many_pairs (fun y _ => P y) n 1.
Proof.
  unfold how_many, how_many_pairs. f_equal. change (zrange 1 (1 + 1)) with [1]. induction (zrange 0 n) as [|y l IH]; [reflexivity|].
  cbn [list_prod map app filter fst]. destruct (P y); cbn [length]; rewrite IH; reflexivity.
Qed.

(** ** Magnitude *)
Lemma fdiv_same_sign a b : fsign a = fsign b -> ffinite (fdiv a b) = true -> (0 <= rf (fdiv a b))%R.
Proof.
  intros SG F. destruct (Req_dec (rf b) 0) as [Z|NZ].
  - destruct b as [s|s|s pl H|s m e H]; destruct a as [s'|s'|s' pl' H'|s' m' e' H']; try discriminate F; try (unfold rf, fdiv, b32_div; cbn; lra).
    exfalso. unfold rf in Z. cbn in Z. apply eq_0_F2R in Z. destruct s; discriminate Z.
  - unfold fdiv, b32_div in *.
    match goal with |- context [Bdiv _ _ ?p1 ?p2 ?n mode_NE a b] => pose proof (Bdiv_correct 24 128 p1 p2 n mode_NE a b NZ) as C end.
    destruct (Rlt_bool _ _) in C.
    + destruct C as (C1 & C2 & C3). apply sign_nonneg_f; [exact F|]. etransitivity; [apply C3|].
      * unfold ffinite in F. match goal with |- is_nan _ _ ?t = false => destruct t; try reflexivity; discriminate end.
      * unfold fsign in SG. rewrite SG. apply xorb_nilpotent.
    + exfalso. unfold ffinite in F. rewrite <- is_finite_B2FF in F. rewrite C in F.
      unfold binary_overflow in F. cbn in F. discriminate F.
Qed.
Lemma clamped_sign b : fsign (clamped b) = fsign b.
Proof.
  unfold clamped. destruct (fgt (fabsf b) eps32); [reflexivity|]. destruct f32_of_f64_eps as (F & V). fold eps32 in F, V.
  destruct eps32 as [s|s|s pl H|s m e H]; try discriminate F; reflexivity.
Qed.
Lemma fadd_one_ge q : ffinite (fadd q (f32_of_Z 1)) = true -> ffinite q = true /\ ((0 <= rf q)%R -> (1 <= rf (fadd q (f32_of_Z 1)))%R).
Proof.
  intros F. destruct (f32_of_Z_exact 1 ltac:(lia)) as (F1 & S1 & V1).
  assert (FQ : ffinite q = true).
  { destruct q as [s|s|s pl H|s m e H]; try reflexivity; exfalso; revert F; destruct (f32_of_Z 1) as [t|t|t pl2 H2|t m2 e2 H2]; try discriminate F1; unfold fadd, b32_plus; cbn; discriminate. }
  split; [exact FQ|]. intros Q. unfold fadd, b32_plus in *.
  match goal with |- context [Bplus _ _ ?p1 ?p2 ?n mode_NE q (f32_of_Z 1)] => pose proof (Bplus_correct 24 128 p1 p2 n mode_NE q (f32_of_Z 1) FQ F1) as C end.
  destruct (Rlt_bool _ _) in C.
  - destruct C as (C1 & _). rewrite C1, V1.
    change (1 <= rnd32 (rf q + 1))%R. rewrite <- rnd32_1 at 1. apply rnd32_le. lra.
  - exfalso. destruct C as (C & _). unfold ffinite in F. rewrite <- is_finite_B2FF in F. rewrite C in F.
    unfold binary_overflow in F. cbn in F. discriminate F.
Qed.
Lemma opposite_inverted a b : opposite_magnitude false a b = true -> xorb (fsign a) (fsign b) = true.
Proof.
  unfold opposite_magnitude. cbv zeta. destruct (ffinite (fadd (fdiv a (clamped b)) (f32_of_Z 1))) eqn:F; [|discriminate].
  intros L. destruct (Bool.bool_dec (fsign a) (fsign b)) as [SG|SG]; [|revert SG; destruct (fsign a), (fsign b); intros SG; try reflexivity; exfalso; apply SG; reflexivity]. exfalso.
  destruct (fadd_one_ge _ F) as (FQ & G). destruct (fabsf_finite _ F) as (FA & VA). destruct (f32_of_Z_exact 1 ltac:(lia)) as (F1 & S1 & V1).
  apply flt_spec in L; [|exact FA|exact F1]. rewrite VA, V1 in L. specialize (G (fdiv_same_sign a (clamped b) ltac:(rewrite clamped_sign; exact SG) FQ)).
  unfold Rabs in L. destruct (Rcase_abs _); lra.
Qed.
(** moderate coefficients have finite quotients *)
Lemma clamped_large b : ffinite b = true -> ffinite (clamped b) = true /\ (bpow radix2 (-52) <= Rabs (rf (clamped b)))%R.
Proof.
  intros F. unfold clamped. destruct f32_of_f64_eps as (FE & VE). fold eps32 in FE, VE. destruct (fabsf_finite _ F) as (FA & VA).
  destruct (fgt (fabsf b) eps32) eqn:G.
  - split; [exact F|]. rewrite fgt_flt in G. apply flt_spec in G; [|exact FE|exact FA]. rewrite VE, VA in G. lra.
  - destruct eps32 as [s|s|s pl H|s m e H]; try discriminate FE.
    + exfalso. unfold rf in VE. cbn - [bpow] in VE. pose proof (bpow_gt_0 radix2 (-52)). lra.
    + split; [reflexivity|]. rewrite <- VE. unfold rf, fcopysign. cbn - [bpow]. rewrite <- !F2R_Zabs, !abs_cond_Zopp.
      destruct s; cbn [cond_Zopp].
      * apply Rle_trans with 0%R; [apply F2R_le_0; cbn; lia|apply F2R_ge_0; cbn; lia].
      * apply Rle_refl.
Qed.
Lemma moderate_quotient a b : ffinite a = true -> ffinite b = true -> (Rabs (rf a) <= IZR (2^48))%R ->
  ffinite (fadd (fdiv a (clamped b)) (f32_of_Z 1)) = true.
Proof.
  intros Fa Fb A. destruct (clamped_large b Fb) as (Fc & C). set (c := clamped b) in *. clearbody c.
  pose proof (bpow_gt_0 radix2 (-52)) as P.
  assert (NZ : rf c <> 0%R) by (intros Z; rewrite Z, Rabs_R0 in C; lra).
  assert (Q : (Rabs (rf a / rf c) <= bpow radix2 100)%R).
  { unfold Rdiv. rewrite Rabs_mult, Rabs_inv.
    apply Rle_trans with (IZR (2^48) * / bpow radix2 (-52))%R.
    - apply Rmult_le_compat; [apply Rabs_pos|left; apply Rinv_0_lt_compat; lra|exact A|apply Rinv_le; lra].
    - rewrite <- bpow_opp. rewrite <- bpow_IZR by lia. rewrite <- bpow_plus. apply Rle_refl. }
  assert (D : ffinite (fdiv a c) = true /\ rf (fdiv a c) = rnd32 (rf a / rf c)).
  { unfold fdiv, b32_div. match goal with |- context [Bdiv _ _ ?p1 ?p2 ?n _ _ _] => pose proof (Bdiv_correct 24 128 p1 p2 n mode_NE a c NZ) as K end.
    change (round_mode mode_NE) with ZnearestE in K. fold (rnd32 (rf a / rf c)) in K.
    rewrite small_lt_emax32 in K by (eapply Rle_trans; [exact Q|]; apply bpow_le; lia).
    destruct K as (K1 & K2 & _). split; [|exact K1]. unfold ffinite. etransitivity; [exact K2|exact Fa]. }
  destruct D as (DF & DV). set (q := fdiv a c) in *. clearbody q.
  destruct (f32_of_Z_exact 1 ltac:(lia)) as (F1 & S1 & V1).
  assert (QB : (Rabs (rf q) <= bpow radix2 100)%R).
  { rewrite DV. apply Rabs_le. apply Rabs_le_inv in Q. destruct Q as (Q1 & Q2). split.
    - rewrite <- (rnd32_id (- bpow radix2 100)); [apply rnd32_le; lra|]. apply generic_format_opp, fmt32_bpow. lia.
    - rewrite <- (rnd32_id (bpow radix2 100)); [apply rnd32_le; lra|]. apply fmt32_bpow. lia. }
  apply fadd_rnd; [exact DF|exact F1|]. rewrite V1. eapply Rle_trans; [apply Rabs_triang|]. rewrite Rabs_R1.
  rewrite bpow_IZR in QB by lia. change (IZR (2 ^ 100)) with big in QB. assert (1 <= big)%R by (apply (IZR_le 1); lia). lra.
Qed.
Lemma moderate_special sp a b : ffinite a = true -> ffinite b = true -> (Rabs (rf a) <= IZR (2^48))%R -> opposite_magnitude sp a b = opposite_magnitude false a b.
Proof. intros Fa Fb A. unfold opposite_magnitude. cbv zeta. rewrite moderate_quotient by assumption. reflexivity. Qed.

(** ** Hits *)
Lemma hits_le c D range x : 1 <= range -> range <= x < d_len D - range -> (c = ZeroCrossing -> range = 1) -> (c = Magnitude true -> moderate D) ->
  hits c D range x <= hits Sign D range x.
Proof.
  intros HR HX HZ HM. destruct c as [|sp| |]; unfold hits.
  - lia.
  - apply how_many_pairs_le. intros y i Hy Hi O. apply opposite_inverted. destruct sp; [|exact O].
    destruct (HM eq_refl y (x - i) Hy ltac:(lia)) as (F1 & B1). destruct (HM eq_refl y (x + i) Hy ltac:(lia)) as (F2 & _).
    rewrite (moderate_special true) in O by assumption. exact O.
  - destruct (dip D range x); [lia|]. unfold inverted_pairs, how_many_pairs. lia.
  - rewrite (HZ eq_refl). unfold crossing_lines, inverted_pairs. rewrite how_many_one. apply how_many_pairs_le. intros y i Hy Hi O.
    assert (i = 1) by lia. subst i. apply andb_true_iff in O. apply O.
Qed.

(** ** Means *)
Lemma ratio_le c D range x : 0 < d_lines D <= 2^31 -> 1 <= range <= 2^31 -> (c = ZeroCrossing -> range = 1) -> hits c D range x <= hits Sign D range x ->
  exists a b, dval (ratio c D range x) a /\ dval (ratio Sign D range x) b /\ (a <= b <= 1)%R.
Proof.
  intros HL HR HZ H. pose proof (hits_bounds c D range x ltac:(lia) ltac:(lia)) as H0. pose proof (hits_bounds Sign D range x ltac:(lia) ltac:(lia)) as H1. cbn [hits] in H1.
  set (d := d_lines D * range) in *. assert (Hd : 1 <= d <= 2^64) by (unfold d; nia).
  pose proof (rnd64_pos d ltac:(lia)) as P1.
  assert (DV : dval (match c with ZeroCrossing => f64_of_Z (d_lines D) | _ => dmul (f64_of_Z (d_lines D)) (f64_of_Z range) end) (rnd64 (IZR d))).
  { destruct c; try (apply denominator_val; lia). unfold d. rewrite (HZ eq_refl), Z.mul_1_r. apply f64_of_Z_val. lia. }
  assert (DS : dval (dmul (f64_of_Z (d_lines D)) (f64_of_Z range)) (rnd64 (IZR d))) by (apply denominator_val; lia).
  assert (V : forall k y, 0 <= k <= d -> dval y (rnd64 (IZR d)) -> dval (ddiv (f64_of_Z k) y) (rnd64 (rnd64 (IZR k) / rnd64 (IZR d))) /\ (rnd64 (rnd64 (IZR k) / rnd64 (IZR d)) <= 1)%R).
  { intros k y Hk Hy. apply quotient_val; try assumption; try lia. }
  destruct (V (hits c D range x) _ ltac:(destruct c; unfold d in *; nia) DV) as (A & _). destruct (V (hits Sign D range x) _ H1 DS) as (B & B1).
  exists (rnd64 (rnd64 (IZR (hits c D range x)) / rnd64 (IZR d))), (rnd64 (rnd64 (IZR (hits Sign D range x)) / rnd64 (IZR d))).
  split; [destruct c; exact A|]. split; [exact B|]. split; [|exact B1].
  apply rnd64_le. apply Rmult_le_compat_r; [left; apply Rinv_0_lt_compat; lra|]. apply rnd64_le, IZR_le, H.
Qed.
Lemma total_le c Ds range x : 1 <= range <= 2^31 -> (c = ZeroCrossing -> range = 1) ->
  (forall D, In D Ds -> 0 < d_lines D <= 2^31 /\ hits c D range x <= hits Sign D range x) ->
  exists a b, dval (total c Ds range x) a /\ dval (total Sign Ds range x) b /\ (a <= b)%R.
Proof.
  intros HR HZ. induction Ds as [|D Ds IH] using rev_ind; intros H.
  - exists 0%R, 0%R. split; [apply d0_val|]. split; [apply d0_val|lra].
  - destruct IH as (a & b & A & B & L). { intros D' I. apply H, in_or_app. left. exact I. }
    destruct (H D) as (HL & HH). { apply in_or_app. right. left. reflexivity. }
    destruct (ratio_le c D range x HL HR HZ HH) as (q & r & Q & R & QR).
    destruct (total_val Sign Ds range x) as (t & T & TB); [intros D' I; apply H, in_or_app; left; exact I|lia|].
    assert (t = b) by (destruct T as (_ & _ & <-), B as (_ & _ & <-); reflexivity). subst t.
    assert (BB : (b <= IZR (2^53))%R). { eapply Rle_trans; [apply TB|]. apply IZR_le. lia. }
    assert (BG : (b + r <= bpow radix2 1023)%R).
    { apply (bpow_big _ _ 54); [|lia]. change (2^54) with (2^53 + 2^53). rewrite plus_IZR. assert (1 <= IZR (2^53))%R by (apply (IZR_le 1); lia). lra. }
    exists (rnd64 (a + q)), (rnd64 (b + r)). unfold total in *. rewrite !fold_left_app. cbn [fold_left].
    split; [apply dadd_val; try assumption; lra|]. split; [apply dadd_val; assumption|]. apply rnd64_le. lra.
Qed.
Lemma mean_le c Ds range x : 1 <= range <= 2^31 -> (c = ZeroCrossing -> range = 1) -> 1 <= zlen Ds <= SIZE_MAX ->
  (forall D, In D Ds -> 0 < d_lines D <= 2^31 /\ hits c D range x <= hits Sign D range x) ->
  exists a b, dval (mean c Ds range x) a /\ dval (mean Sign Ds range x) b /\ (a <= b <= 1)%R.
Proof.
  intros HR HZ HN H. destruct (total_le c Ds range x HR HZ H) as (a & b & A & B & L).
  assert (HL : forall D, In D Ds -> 0 < d_lines D <= 2^31) by (intros D I; apply H, I).
  destruct (avg_val Sign Ds (zlen Ds) range x HL ltac:(lia) HN) as (v & V & VB & V1). specialize (V1 ltac:(lia)).
  destruct (total_val Sign Ds range x HL ltac:(lia)) as (t & T & TB).
  assert (t = b) by (destruct T as (_ & _ & <-), B as (_ & _ & <-); reflexivity). subst t.
  unfold SIZE_MAX in HN. pose proof (rnd64_pos (zlen Ds) ltac:(lia)) as P1.
  assert (NV : dval (f64_of_Z (zlen Ds)) (rnd64 (IZR (zlen Ds)))) by (apply f64_of_Z_val; lia).
  assert (B53 : (b <= IZR (2^53))%R). { eapply Rle_trans; [apply TB|]. apply IZR_le. lia. }
  assert (S53 : (0 < IZR (2^53))%R) by (apply IZR_lt; lia).
  assert (Q : forall z, (0 <= z)%R -> (z <= b)%R -> (z / rnd64 (IZR (zlen Ds)) <= bpow radix2 1023)%R).
  { intros z Z0 Zb. apply (bpow_big _ _ 53); [|lia]. apply Rmult_le_reg_r with (rnd64 (IZR (zlen Ds))); [lra|]. unfold Rdiv. rewrite Rmult_assoc, Rinv_l, Rmult_1_r by lra. nra. }
  pose proof (dval_nonneg _ _ A) as A0. pose proof (dval_nonneg _ _ B) as B0.
  exists (rnd64 (a / rnd64 (IZR (zlen Ds)))), (rnd64 (b / rnd64 (IZR (zlen Ds)))).
  split; [apply ddiv_val; [exact A|exact NV|lra|apply Q; assumption]|].
  assert (MB : dval (mean Sign Ds range x) (rnd64 (b / rnd64 (IZR (zlen Ds))))) by (apply ddiv_val; [exact B|exact NV|lra|apply Q; lra]).
  split; [exact MB|]. split.
  - apply rnd64_le. apply Rmult_le_compat_r; [left; apply Rinv_0_lt_compat; lra|exact L].
  - change (avg Sign Ds (zlen Ds) range x) with (mean Sign Ds range x) in V. destruct V as (_ & _ & V). destruct MB as (_ & _ & MB). rewrite <- MB, V. exact V1.
Qed.
