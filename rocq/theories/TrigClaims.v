(** @header
    Property C95: the trigonometric tables of the KISS transform in every precision. *)
From Coq Require Import ZArith Reals Lia Lra Bool List.
From Flocq Require Import Core IEEE754.BinarySingleNaN IEEE754.Binary IEEE754.Bits.
From Verif Require Import Base Flt Util Methods Analysis Precision Kiss Tables KissPrecision TablesPrecision Spec SpecAnalysis SpecReport SpecTransform SpecAccuracy SpecPrecision SpecKissPrecision SpecTablesPrecision.
From Verif Require Import BaseProofs FltProofs PrecisionProofs RoundProofs KissPrecisionProofs KissClaims AccuracyClaims ScalarClaims TablesPrecisionProofs.
Import ListNotations.
Open Scope list_scope.
Open Scope Z_scope.

Lemma inter_rule coeff inter : coeff <> PF -> inter_precision coeff inter <> PF.
Proof. destruct coeff, inter; cbn; congruence. Qed.
Lemma table_unit_range coeff inter : (/ IZR (2 ^ f_prec (kiss_scalar coeff)) <= table_unit coeff inter <= / IZR (2 ^ 20))%R.
Proof. destruct coeff, inter; cbn [kiss_scalar table_unit f_prec binary32_format binary64_format Z.pow Z.pow_pos Pos.iter Z.mul Pos.mul]; lra. Qed.
Lemma length_range u n : length_ok u n -> 1 <= n <= 2^20. Proof. intros (H & _). exact H. Qed.

(** C95.  With a C library whose cos and sin, on arguments up to 8, and atan, at 1, are good to
    [maths_unit], the tables for lengths up to 2^20 are good to 2^-46 in builds with double or
    long double coefficients, to 2^-24 in builds with float coefficients and double or long
    double intermediates, and to 2^-20 in builds with floats only. *)
Lemma trig_tables_claim : forall L coeff inter QD QI n, long_double L ->
  let p := inter_precision coeff inter in let S := kiss_scalar coeff in let I := format_of L p in
  maths_within binary64_format (maths_unit PD) QD -> maths_within I (maths_unit p) QI -> 1 <= n <= 2^20 ->
  tables_within S (table_unit coeff p) (twiddles S QD) (supers S QD) (shifts S I QI) n.
Proof.
  intros L coeff inter QD QI n HL p S I OD OI Hn.
  exact (tables_of_maths L coeff (inter_precision coeff inter) QD QI n HL (inter_rule coeff inter) OD OI Hn).
Qed.

(** the C library with the numbers of the format nearest to the exact values *)
Definition nearest_maths (F : format) : maths F :=
  mkMaths F (fun x => nearest F (cos (real F x))) (fun x => nearest F (sin (real F x))) (fun x => nearest F (atan (real F x))).
Lemma nearest_maths_ok F e : roomy F -> (bpow radix2 (- f_prec F) <= e)%R -> maths_within F e (nearest_maths F).
Proof.
  intros RF U.
  assert (C : forall r, (Rabs r <= 1)%R -> within_unit F e (nearest F r) r).
  { intros r Hr. destruct (nearest_close F RF r Hr) as (A & B). split; [exact A|]. lra. }
  constructor; cbn [nearest_maths f_cos f_sin f_atan].
  - intros x _ _. apply C, Rabs_le. pose proof (COS_bound (real F x)). lra.
  - intros x _ _. apply C, Rabs_le. pose proof (SIN_bound (real F x)). lra.
  - destruct (of_integer F RF 1) as (_ & V). { destruct RF. change (Z.abs 1) with (2 ^ 0). apply Z.pow_le_mono_r; lia. }
    rewrite V. apply C. rewrite atan_1. pose proof PI_RGT_0. pose proof PI_4. apply Rabs_le. lra.
Qed.
Lemma library_exists L p : long_double L -> maths_within (format_of L p) (maths_unit p) (nearest_maths (format_of L p)).
Proof.
  intros HL. apply nearest_maths_ok; [apply roomy_of, HL|].
  change (maths_unit p) with (match p with PF => bpow radix2 (-23) | PD | PL => bpow radix2 (-51) end).
  destruct p; cbn [format_of]; [| |destruct HL as [->|[->| ->]]]; apply bpow_le; cbn; lia.
Qed.
(** such libraries exist for every precision, and the three kinds of builds do *)
Example trig_tables_example : (forall L p, long_double L -> exists Q, maths_within (format_of L p) (maths_unit p) Q) /\
  table_unit PF (inter_precision PF PF) = (/ 1048576)%R /\ table_unit PF (inter_precision PF PD) = (/ 16777216)%R /\
  table_unit PD (inter_precision PD PF) = (/ 70368744177664)%R /\ table_unit PL (inter_precision PL PD) = (/ 70368744177664)%R.
Proof.
  split; [intros L p HL; eexists; apply library_exists, HL|]. repeat split; reflexivity.
Qed.

(** C95.  In the default build these are the tables of C83. *)
Lemma trig_default_claim : forall M n i, let Q := mkMaths binary64_format (m_cos M) (m_sin M) (m_atan M) in
  f_prec (format_of x87_format (inter_precision PF PD)) = 53 /\
  twiddles (kiss_scalar PF) Q n i = twiddle_table M n i /\
  supers (kiss_scalar PF) Q n i = super_table M n i /\
  shifts (kiss_scalar PF) binary64_format Q n i = shift_table M n i.
Proof. intros. repeat split; reflexivity. Qed.
(** the first entries of a table of four, with the phases 0 and about -pi/2 *)
Example trig_default_example : forall M, 
  twiddle_table M 4 0 = (f32_of_f64 (m_cos M (twiddle_phase 4 0)), f32_of_f64 (m_sin M (twiddle_phase 4 0))) /\
  B2R 53 1024 (twiddle_phase 4 0) = 0%R /\ (-1.58 < B2R 53 1024 (twiddle_phase 4 1) < -1.57)%R.
Proof.
  intros M. split; [reflexivity|]. split; [reflexivity|].
  destruct (twiddle_near 4 1 ltac:(lia) ltac:(lia) pi_literal pi_close) as (_ & B).
  change (real binary64_format _) with (B2R 53 1024 (twiddle_phase 4 1)) in B. apply Rabs_le_inv in B. unfold e47 in B.
  pose proof pi_bound51 as P. apply Rabs_le_inv in P. unfold e51 in P. lra.
Qed.

(** C95.  So the coefficients computed with these tables are as close to the exact ones as
    C94 says, with nothing assumed of the tables. *)
Lemma trig_accuracy_claim : forall L coeff inter load store QD QI al w h image g M lw lh m W t wd,
  long_double L ->
  let p := inter_precision coeff inter in let S := kiss_scalar coeff in let C := format_of L coeff in let I := format_of L p in let u := table_unit coeff p in
  conversions S C load store -> maths_within binary64_format (maths_unit PD) QD -> maths_within I (maths_unit p) QI -> (forall k, al k = true) ->
  length_ok u w -> length_ok u h ->
  (1 <= M <= 1048576)%R -> kf_factor w = Ok lw -> kf_factor h = Ok lh -> has_samples w h image g M ->
  exists f wd', coefficients load store (number_ops S (twiddles S QD) (supers S QD) (shifts S I QI)) al w h image m W t wd = Ok (f, wd') /\ zlen f = w * h /\
    forall y x, 0 <= y < h -> 0 <= x < w ->
      within_unit C (error_of u w h (radices_of lw) (radices_of lh) M) (at_ (n0 C) f (y * w + x)) (dct_2d w h g y x).
Proof.
  intros L coeff inter load store QD QI al w h image g M lw lh m W t wd HL p S C I u CV OD OI Hal Hw Hh.
  apply (scalar_accuracy_claim L coeff load store u _ _ _ al w h image g M lw lh m W t wd HL CV (table_unit_range coeff p) Hal Hw Hh);
    apply trig_tables_claim; try assumption; eapply length_range; eassumption.
Qed.
(** with double coefficients, a 1920x1080 image of samples of magnitude at most 1 has
    coefficients to 1/5000; builds with floats only are covered for lengths up to 65536 *)
Example trig_accuracy_example : (error_of (table_unit PD PD) 1920 1080 [4; 4; 4; 2; 3; 5]%Z [4; 2; 3; 3; 3; 5]%Z 1 <= 1 / 5000)%R /\
  length_ok (table_unit PF PF) 65536 /\ has_samples 4 1 accuracy_image (widened 2 upscale_source) 1.
Proof.
  split; [|split; [split; [lia|cbn [table_unit]; change (IZR (2 ^ 20)) with 1048576%R; lra]|exact accuracy_holds]]. cbn [table_unit]. change (IZR (2 ^ 46)) with 70368744177664%R. unfold error_of, loss_of. cbn. lra.
Qed.

(** C95.  And nearest-neighbour upscales get the confidence 1 from the samples on: tables,
    transform, sign method and result in the build's precisions. *)
Lemma trig_upscale_width_claim : forall L coeff inter c load store QD QI al m W t s N h range images fs,
  long_double L ->
  let p := inter_precision coeff inter in let S := kiss_scalar coeff in let C := format_of L coeff in let I := format_of L p in let u := table_unit coeff p in
  conversions S C load store -> maths_within binary64_format (maths_unit PD) QD -> maths_within I (maths_unit p) QI -> (forall k, al k = true) ->
  1 <= s -> length_ok u (s * N) -> length_ok u h -> 1 <= range -> range < N < s * N - range -> h * range < storage_mod c ->
  images <> [] -> zlen images <= 2 ^ f_prec I -> zlen images < 2^64 ->
  (forall image, In image images -> clear_x u s N h range image) ->
  Forall2 (fun image f => exists wd wd', coefficients load store (number_ops S (twiddles S QD) (supers S QD) (shifts S I QI)) al (s * N) h image m W t wd = Ok (f, wd')) images fs ->
  exists result, prun_all C I c Msign fs (s * N) h (s * N) 1 range (repeat (n0 I) (Z.to_nat (s * N - 2 * range))) = Ok result /\
    B2R 24 128 (pconfidence I (at_ (n0 I) result (N - range)) (zlen images)) = 1%R.
Proof.
  intros L coeff inter c load store QD QI al m W t s N h range images fs HL p S C I u CV OD OI Hal Hs HsN Hh Hr HR HC HI HP H64 HX HF.
  eapply (scalar_upscale_width_claim L coeff inter c load store u _ _ _ al m W t s N h range images fs HL CV (table_unit_range coeff p) Hal
    Hs HsN Hh Hr HR HC _ _ HI HP H64 HX HF).
  Unshelve. all: apply trig_tables_claim; try assumption; eapply length_range; eassumption.
Qed.
Lemma trig_upscale_height_claim : forall L coeff inter c load store QD QI al m W t s N w range images fs,
  long_double L ->
  let p := inter_precision coeff inter in let S := kiss_scalar coeff in let C := format_of L coeff in let I := format_of L p in let u := table_unit coeff p in
  conversions S C load store -> maths_within binary64_format (maths_unit PD) QD -> maths_within I (maths_unit p) QI -> (forall k, al k = true) ->
  1 <= s -> length_ok u (s * N) -> length_ok u w -> 1 <= range -> range < N < s * N - range -> w * range < storage_mod c ->
  images <> [] -> zlen images <= 2 ^ f_prec I -> zlen images < 2^64 ->
  (forall image, In image images -> clear_y u s N w range image) ->
  Forall2 (fun image f => exists wd wd', coefficients load store (number_ops S (twiddles S QD) (supers S QD) (shifts S I QI)) al w (s * N) image m W t wd = Ok (f, wd')) images fs ->
  exists result, prun_all C I c Msign fs (s * N) w 1 w range (repeat (n0 I) (Z.to_nat (s * N - 2 * range))) = Ok result /\
    B2R 24 128 (pconfidence I (at_ (n0 I) result (N - range)) (zlen images)) = 1%R.
Proof.
  intros L coeff inter c load store QD QI al m W t s N w range images fs HL p S C I u CV OD OI Hal Hs HsN Hh Hr HR HC HI HP H64 HX HF.
  eapply (scalar_upscale_height_claim L coeff inter c load store u _ _ _ al m W t s N w range images fs HL CV (table_unit_range coeff p) Hal
    Hs HsN Hh Hr HR HC _ _ HI HP H64 HX HF).
  Unshelve. all: apply trig_tables_claim; try assumption; eapply length_range; eassumption.
Qed.
(** the 2x1 image 1 0 widened to 4x1 is clear of the errors even of a build with floats only,
    and its coefficients are computed in every build *)
Lemma error_demo u : (0 <= u <= / 1048576)%R -> (error_of u 4 1 [4]%Z [1]%Z 1 < 1/2)%R.
Proof.
  intros Hu. eapply Rle_lt_trans; [apply (error_mono u (/ 1048576)); try lia; try lra; repeat constructor; lia|].
  unfold error_of, loss_of. cbn. lra.
Qed.
Lemma demo_clear u : (0 <= u <= / 1048576)%R -> clear_x u 2 2 1 1 accuracy_image.
Proof.
  intros Hu. exists upscale_source, 1%R, [4; 1], [1; 1]. split; [lra|]. split; [reflexivity|]. split; [reflexivity|]. split; [exact accuracy_holds|].
  intros y i Hy Hi. assert (y = 0) by lia. assert (i = 1) by lia. subst y i. pose proof (error_demo u Hu) as E.
  destruct demo_large as (A & B). split; (eapply Rlt_trans; [exact E|assumption]).
Qed.
Example trig_upscale_width_example : forall L coeff inter, long_double L ->
  let p := inter_precision coeff inter in let S := kiss_scalar coeff in let I := format_of L p in let u := table_unit coeff p in
  length_ok u (2 * 2) /\ length_ok u 1 /\ clear_x u 2 2 1 1 accuracy_image /\
  exists load store QD QI f wd', conversions S (format_of L coeff) load store /\ maths_within binary64_format (maths_unit PD) QD /\ maths_within I (maths_unit p) QI /\
    coefficients load store (number_ops S (twiddles S QD) (supers S QD) (shifts S I QI)) (fun _ => true) (2 * 2) 1 accuracy_image (n0 S) (n0 S, n0 S) (n0 S, n0 S) world0 = Ok (f, wd').
Proof.
  intros L coeff inter HL p S I u. pose proof (table_unit_range coeff p) as U. fold u in U.
  assert (U0 : (0 <= u <= / 1048576)%R).
  { change (/ IZR (2 ^ 20))%R with (/ 1048576)%R in U. split; [|apply U]. eapply Rle_trans; [|apply U]. left. apply Rinv_0_lt_compat. apply (IZR_lt 0). destruct coeff; reflexivity. }
  assert (L4 : length_ok u (2 * 2)) by (split; [lia|change (IZR (2 * 2)) with 4%R; lra]).
  assert (L1 : length_ok u 1) by (split; [lia|lra]).
  split; [exact L4|]. split; [exact L1|]. split; [exact (demo_clear u U0)|].
  destruct (proj1 scalar_accuracy_example L coeff HL) as (load & store & CV).
  pose proof (library_exists L PD HL) as OD. pose proof (library_exists L p HL) as OI.
  destruct (trig_accuracy_claim L coeff inter load store (nearest_maths binary64_format) (nearest_maths I) (fun _ => true) (2 * 2) 1 accuracy_image
    (widened 2 upscale_source) 1 [4; 1] [1; 1] (n0 S) (n0 S, n0 S) (n0 S, n0 S) world0 HL CV OD OI (fun _ => eq_refl) L4 L1) as (f & wd' & E & _).
  { lra. } { reflexivity. } { reflexivity. } { exact accuracy_holds. }
  exists load, store, (nearest_maths binary64_format), (nearest_maths I), f, wd'.
  split; [exact CV|]. split; [exact OD|]. split; [exact OI|]. exact E.
Qed.
Example trig_upscale_height_example : forall coeff inter, clear_y (table_unit coeff (inter_precision coeff inter)) 2 2 1 1 accuracy_image.
Proof.
  intros coeff inter. set (u := table_unit _ _). assert (U0 : (0 <= u <= / 1048576)%R).
  { pose proof (table_unit_range coeff (inter_precision coeff inter)) as U. fold u in U. change (/ IZR (2 ^ 20))%R with (/ 1048576)%R in U.
    split; [|apply U]. eapply Rle_trans; [|apply U]. left. apply Rinv_0_lt_compat. apply (IZR_lt 0). destruct coeff; reflexivity. }
  exists (fun y x => upscale_source x y), 1%R, [1; 1], [4; 1]. split; [lra|]. split; [reflexivity|]. split; [reflexivity|]. split; [exact demo_column|].
  intros y i Hy Hi. assert (y = 0) by lia. assert (i = 1) by lia. subst y i. rewrite (UpscaleProofs.dct_2d_flip 1 (2 * 2) _ (2 - 1) 0), (UpscaleProofs.dct_2d_flip 1 (2 * 2) _ (2 + 1) 0) by lia.
  assert (E : error_of u 1 (2 * 2) (radices_of [1; 1]) (radices_of [4; 1]) 1 = error_of u 4 1 [4]%Z [1]%Z 1).
  { unfold error_of. cbn [radices_of Z.mul Pos.mul]. ring. }
  rewrite E. pose proof (error_demo u U0) as B. destruct demo_large as (A1 & A2). split; (eapply Rlt_trans; [exact B|assumption]).
Qed.
