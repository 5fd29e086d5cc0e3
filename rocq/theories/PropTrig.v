(**     Property C95: the trigonometric tables of the KISS transform in every precision. *)
From Coq Require Import ZArith Reals Lia Lra Bool List.
From Flocq Require Import Core IEEE754.BinarySingleNaN IEEE754.Binary IEEE754.Bits.
From Verif Require Import Base Flt Util Methods Analysis Precision Kiss Tables KissPrecision TablesPrecision Spec SpecAnalysis SpecReport SpecTransform SpecAccuracy SpecPrecision SpecKissPrecision SpecTablesPrecision.
From Verif Require Import BaseProofs FltProofs PrecisionProofs RoundProofs KissPrecisionProofs KissClaims AccuracyClaims ScalarClaims TablesPrecisionProofs.
Import ListNotations.
Open Scope list_scope.
Open Scope Z_scope.
From Verif Require Import TrigClaims.

(** C95.  With a C library whose cos and sin, on arguments up to 8, and atan, at 1, are good to
    [maths_unit], the tables for lengths up to 2^20 are good to 2^-46 in builds with double or
    long double coefficients, to 2^-24 in builds with float coefficients and double or long
    double intermediates, and to 2^-20 in builds with floats only. *)
Theorem trig_tables : forall L coeff inter QD QI n, long_double L ->
  let p := inter_precision coeff inter in let S := kiss_scalar coeff in let I := format_of L p in
  maths_within binary64_format (maths_unit PD) QD -> maths_within I (maths_unit p) QI -> 1 <= n <= 2^20 ->
  tables_within S (table_unit coeff p) (twiddles S QD) (supers S QD) (shifts S I QI) n.
Proof. exact trig_tables_claim. Qed.
Print Assumptions trig_tables.

(** such libraries exist for every precision, and the three kinds of builds do *)
Example trig_tables_witness : (forall L p, long_double L -> exists Q, maths_within (format_of L p) (maths_unit p) Q) /\
  table_unit PF (inter_precision PF PF) = (/ 1048576)%R /\ table_unit PF (inter_precision PF PD) = (/ 16777216)%R /\
  table_unit PD (inter_precision PD PF) = (/ 70368744177664)%R /\ table_unit PL (inter_precision PL PD) = (/ 70368744177664)%R.
Proof. exact trig_tables_example. Qed.

(** C95.  In the default build these are the tables of C83. *)
Theorem trig_default : forall M n i, let Q := mkMaths binary64_format (m_cos M) (m_sin M) (m_atan M) in
  f_prec (format_of x87_format (inter_precision PF PD)) = 53 /\
  twiddles (kiss_scalar PF) Q n i = twiddle_table M n i /\
  supers (kiss_scalar PF) Q n i = super_table M n i /\
  shifts (kiss_scalar PF) binary64_format Q n i = shift_table M n i.
Proof. exact trig_default_claim. Qed.
Print Assumptions trig_default.

(** the first entries of a table of four, with the phases 0 and about -pi/2 *)
Example trig_default_witness : forall M, 
  twiddle_table M 4 0 = (f32_of_f64 (m_cos M (twiddle_phase 4 0)), f32_of_f64 (m_sin M (twiddle_phase 4 0))) /\
  B2R 53 1024 (twiddle_phase 4 0) = 0%R /\ (-1.58 < B2R 53 1024 (twiddle_phase 4 1) < -1.57)%R.
Proof. exact trig_default_example. Qed.

(** C95.  So the coefficients computed with these tables are as close to the exact ones as
    C94 says, with nothing assumed of the tables. *)
Theorem trig_accuracy : forall L coeff inter load store QD QI al w h image g M lw lh m W t wd,
  long_double L ->
  let p := inter_precision coeff inter in let S := kiss_scalar coeff in let C := format_of L coeff in let I := format_of L p in let u := table_unit coeff p in
  conversions S C load store -> maths_within binary64_format (maths_unit PD) QD -> maths_within I (maths_unit p) QI -> (forall k, al k = true) ->
  length_ok u w -> length_ok u h ->
  (1 <= M <= 1048576)%R -> kf_factor w = Ok lw -> kf_factor h = Ok lh -> has_samples w h image g M ->
  exists f wd', coefficients load store (number_ops S (twiddles S QD) (supers S QD) (shifts S I QI)) al w h image m W t wd = Ok (f, wd') /\ zlen f = w * h /\
    forall y x, 0 <= y < h -> 0 <= x < w ->
      within_unit C (error_of u w h (radices_of lw) (radices_of lh) M) (at_ (n0 C) f (y * w + x)) (dct_2d w h g y x).
Proof. exact trig_accuracy_claim. Qed.
Print Assumptions trig_accuracy.

(** with double coefficients, a 1920x1080 image of samples of magnitude at most 1 has
    coefficients to 1/5000; builds with floats only are covered for lengths up to 65536 *)
Example trig_accuracy_witness : (error_of (table_unit PD PD) 1920 1080 [4; 4; 4; 2; 3; 5]%Z [4; 2; 3; 3; 3; 5]%Z 1 <= 1 / 5000)%R /\
  length_ok (table_unit PF PF) 65536 /\ has_samples 4 1 accuracy_image (widened 2 upscale_source) 1.
Proof. exact trig_accuracy_example. Qed.

(** C95.  And nearest-neighbour upscales get the confidence 1 from the samples on: tables,
    transform, sign method and result in the build's precisions. *)
Theorem trig_upscale_width : forall L coeff inter c load store QD QI al m W t s N h range images fs,
  long_double L ->
  let p := inter_precision coeff inter in let S := kiss_scalar coeff in let C := format_of L coeff in let I := format_of L p in let u := table_unit coeff p in
  conversions S C load store -> maths_within binary64_format (maths_unit PD) QD -> maths_within I (maths_unit p) QI -> (forall k, al k = true) ->
  1 <= s -> length_ok u (s * N) -> length_ok u h -> 1 <= range -> range < N < s * N - range -> h * range < storage_mod c ->
  images <> [] -> zlen images <= 2 ^ f_prec I -> zlen images < 2^64 ->
  (forall image, In image images -> clear_x u s N h range image) ->
  Forall2 (fun image f => exists wd wd', coefficients load store (number_ops S (twiddles S QD) (supers S QD) (shifts S I QI)) al (s * N) h image m W t wd = Ok (f, wd')) images fs ->
  exists result, prun_all C I c Msign fs (s * N) h (s * N) 1 range (repeat (n0 I) (Z.to_nat (s * N - 2 * range))) = Ok result /\
    B2R 24 128 (pconfidence I (at_ (n0 I) result (N - range)) (zlen images)) = 1%R.
Proof. exact trig_upscale_width_claim. Qed.
Print Assumptions trig_upscale_width.

Theorem trig_upscale_height : forall L coeff inter c load store QD QI al m W t s N w range images fs,
  long_double L ->
  let p := inter_precision coeff inter in let S := kiss_scalar coeff in let C := format_of L coeff in let I := format_of L p in let u := table_unit coeff p in
  conversions S C load store -> maths_within binary64_format (maths_unit PD) QD -> maths_within I (maths_unit p) QI -> (forall k, al k = true) ->
  1 <= s -> length_ok u (s * N) -> length_ok u w -> 1 <= range -> range < N < s * N - range -> w * range < storage_mod c ->
  images <> [] -> zlen images <= 2 ^ f_prec I -> zlen images < 2^64 ->
  (forall image, In image images -> clear_y u s N w range image) ->
  Forall2 (fun image f => exists wd wd', coefficients load store (number_ops S (twiddles S QD) (supers S QD) (shifts S I QI)) al w (s * N) image m W t wd = Ok (f, wd')) images fs ->
  exists result, prun_all C I c Msign fs (s * N) w 1 w range (repeat (n0 I) (Z.to_nat (s * N - 2 * range))) = Ok result /\
    B2R 24 128 (pconfidence I (at_ (n0 I) result (N - range)) (zlen images)) = 1%R.
Proof. exact trig_upscale_height_claim. Qed.
Print Assumptions trig_upscale_height.

Example trig_upscale_width_witness : forall L coeff inter, long_double L ->
  let p := inter_precision coeff inter in let S := kiss_scalar coeff in let I := format_of L p in let u := table_unit coeff p in
  length_ok u (2 * 2) /\ length_ok u 1 /\ clear_x u 2 2 1 1 accuracy_image /\
  exists load store QD QI f wd', conversions S (format_of L coeff) load store /\ maths_within binary64_format (maths_unit PD) QD /\ maths_within I (maths_unit p) QI /\
    coefficients load store (number_ops S (twiddles S QD) (supers S QD) (shifts S I QI)) (fun _ => true) (2 * 2) 1 accuracy_image (n0 S) (n0 S, n0 S) (n0 S, n0 S) world0 = Ok (f, wd').
Proof. exact trig_upscale_width_example. Qed.

Example trig_upscale_height_witness : forall coeff inter, clear_y (table_unit coeff (inter_precision coeff inter)) 2 2 1 1 accuracy_image.
Proof. exact trig_upscale_height_example. Qed.
