(**     Property C94: the KISS transform with the scalars of every COEFF_PRECISION. *)
From Coq Require Import ZArith Reals Lia Lra Bool List.
From Flocq Require Import Core IEEE754.BinarySingleNaN IEEE754.Binary IEEE754.Bits.
From Verif Require Import Base Flt Util Methods Analysis Precision Kiss KissPrecision Spec SpecAnalysis SpecReport SpecTransform SpecAccuracy SpecPrecision SpecKissPrecision.
From Verif Require Import BaseProofs FltProofs PrecisionProofs PrecisionErrorProofs KissProofs KissFactor KissTransform KissExact RoundProofs AccuracyProofs KissClaims AccuracyClaims KissPrecisionProofs.
Import ListNotations.
Open Scope list_scope.
Open Scope Z_scope.
From Verif Require Import ScalarClaims.

(** C94.  The coefficients of every image of at most 2^20 x 2^20 samples (fewer if u is above
    2^-24) of magnitude at most M are computed, finite, and off by at most [error_of u], where u
    bounds the errors of the tables and of one operation.  Float coefficients are computed in
    float, double and long double ones in double. *)
Theorem scalar_accuracy : forall L coeff load store u twiddle super shift al w h image g M lw lh m W t wd,
  long_double L ->
  let S := kiss_scalar coeff in let C := format_of L coeff in
  conversions S C load store -> (/ IZR (2 ^ f_prec S) <= u <= / IZR (2 ^ 20))%R -> (forall k, al k = true) ->
  length_ok u w -> length_ok u h ->
  tables_within S u twiddle super shift w -> tables_within S u twiddle super shift h ->
  (1 <= M <= 1048576)%R -> kf_factor w = Ok lw -> kf_factor h = Ok lh -> has_samples w h image g M ->
  exists f wd', coefficients load store (number_ops S twiddle super shift) al w h image m W t wd = Ok (f, wd') /\ zlen f = w * h /\
    forall y x, 0 <= y < h -> 0 <= x < w ->
      within_unit C (error_of u w h (radices_of lw) (radices_of lh) M) (at_ (n0 C) f (y * w + x)) (dct_2d w h g y x).
Proof. exact scalar_accuracy_claim. Qed.
Print Assumptions scalar_accuracy.

(** the conversions exist for every long double, tables with the nearest numbers are good to
    2^-p; with errors of 2^-48, and double scalars, a 1920x1080 image of samples of magnitude at
    most 1 has coefficients to 1/20000, where float scalars can only promise 600 *)
Example scalar_accuracy_witness :
  (forall L coeff, long_double L -> exists load store, conversions (kiss_scalar coeff) (format_of L coeff) load store) /\
  (forall coeff u, (/ IZR (2 ^ f_prec (kiss_scalar coeff)) <= u)%R ->
     exists twiddle super shift, forall n, tables_within (kiss_scalar coeff) u twiddle super shift n) /\
  has_samples 4 1 accuracy_image (widened 2 upscale_source) 1 /\
  kf_factor 1920 = Ok [4; 480; 4; 120; 4; 30; 2; 15; 3; 5; 5; 1] /\ kf_factor 1080 = Ok [4; 270; 2; 135; 3; 45; 3; 15; 3; 5; 5; 1] /\
  (error_of (/ IZR (2 ^ 48)) 1920 1080 [4; 4; 4; 2; 3; 5]%Z [4; 2; 3; 3; 3; 5]%Z 1 <= 1 / 20000)%R /\
  (500 <= error_of (/ IZR (2 ^ 24)) 1920 1080 [4; 4; 4; 2; 3; 5]%Z [4; 2; 3; 3; 3; 5]%Z 1 <= 600)%R.
Proof. exact scalar_accuracy_example. Qed.

(** C94.  So a coefficient that is larger than the bound has the right sign. *)
Theorem scalar_signs : forall L coeff load store u twiddle super shift al w h image g M lw lh m W t wd f wd',
  long_double L ->
  let S := kiss_scalar coeff in let C := format_of L coeff in
  conversions S C load store -> (/ IZR (2 ^ f_prec S) <= u <= / IZR (2 ^ 20))%R -> (forall k, al k = true) ->
  length_ok u w -> length_ok u h ->
  tables_within S u twiddle super shift w -> tables_within S u twiddle super shift h ->
  (1 <= M <= 1048576)%R -> kf_factor w = Ok lw -> kf_factor h = Ok lh -> has_samples w h image g M ->
  coefficients load store (number_ops S twiddle super shift) al w h image m W t wd = Ok (f, wd') ->
  forall y x, 0 <= y < h -> 0 <= x < w ->
    (error_of u w h (radices_of lw) (radices_of lh) M < Rabs (dct_2d w h g y x))%R ->
    same_sign C (at_ (n0 C) f (y * w + x)) (dct_2d w h g y x).
Proof. exact scalar_signs_claim. Qed.
Print Assumptions scalar_signs.

(** a coefficient of the 2x1 image 1 0 widened to 4x1 *)
Example scalar_signs_witness : has_samples 4 1 accuracy_image (widened 2 upscale_source) 1 /\
  (error_of (/ IZR (2 ^ 24)) 4 1 [4]%Z [1]%Z 1 < Rabs (dct_2d 4 1 (widened 2 upscale_source) 0 3))%R.
Proof. exact scalar_signs_example. Qed.

(** C94.  With long double coefficients the transform is the one with doubles, converted at
    the end: for all scalars and coefficients of which a stored scalar loads again, the
    conversions between the passes make no difference. *)
Theorem scalar_long : forall (T C : Type) (K : ops T) (load : C -> T) (store : T -> C) al w h f mirror F tmp0 tmp1 wd,
  (forall x, load (store x) = x) ->
  (forall f' wd', mixed_transform K load store al w h (map store f) mirror F tmp0 tmp1 wd = Ok (f', wd') <->
     exists d, kiss_transform K al w h f mirror F tmp0 tmp1 wd = Ok (d, wd') /\ f' = map store d) /\
  (forall e, mixed_transform K load store al w h (map store f) mirror F tmp0 tmp1 wd = Undef e <->
     kiss_transform K al w h f mirror F tmp0 tmp1 wd = Undef e).
Proof. exact scalar_long_claim. Qed.
Print Assumptions scalar_long.

(** the scalars of a build with long double coefficients are doubles, which are not those *)
Example scalar_long_witness : kiss_scalar PL = binary64_format /\ format_of x87_format PL = x87_format /\
  f_prec (kiss_scalar PL) = 53 /\ f_prec (format_of x87_format PL) = 64 /\
  (forall x, keeping x87_format binary64_format (keeping binary64_format x87_format x) = x) /\
  exists x : num x87_format, keeping binary64_format x87_format (keeping x87_format binary64_format x) <> x.
Proof. exact scalar_long_example. Qed.

(** C94.  With COEFF_PRECISION F this is the transform of C72 to C74, with their bound. *)
Theorem scalar_float : forall twiddle super shift c al qs m F t w h image,
  1 <= w <= INT_MAX / 3 -> 1 <= h <= INT_MAX / 3 -> w * h <= zlen image -> valid_image w h image ->
  (forall L, kiss_scalar PF = format_of L PF) /\
  (exists wd, coefficients (S := kiss_scalar PF) (C := num (kiss_scalar PF)) (fun x => x) (fun x => x) (number_ops (kiss_scalar PF) twiddle super shift) (fun _ => true)
     w h image m F t world0 = Ok (plane (kiss_env c al (float_ops twiddle super shift) qs m F t) w h image, wd)) /\
  (forall n, tables_within (kiss_scalar PF) (/ IZR (2 ^ 24)) twiddle super shift n <-> tables_close twiddle super shift n) /\
  (forall lw lh M, error_of (/ IZR (2 ^ 24)) w h lw lh M = coefficient_error w h lw lh M).
Proof. exact scalar_float_claim. Qed.
Print Assumptions scalar_float.

Example scalar_float_witness : 4 * 1 <= zlen accuracy_image /\ valid_image 4 1 accuracy_image.
Proof. exact scalar_float_example. Qed.

(** C94.  Smaller units give smaller bounds, and up to 2^-24 no smaller lengths: an upscale clear of the rounding errors of C74
    is clear of those of double and long double coefficients. *)
Theorem scalar_no_worse : forall u s N k range image, (0 <= u <= / IZR (2 ^ 24))%R -> 1 <= s * N <= 2^20 -> 1 <= k <= 2^20 ->
  length_ok u (s * N) /\ length_ok u k /\
  (upscale_x s N k range image -> clear_x u s N k range image) /\
  (upscale_y s N k range image -> clear_y u s N k range image).
Proof. exact scalar_no_worse_claim. Qed.
Print Assumptions scalar_no_worse.

Example scalar_no_worse_witness : upscale_x 2 2 1 1 accuracy_image.
Proof. exact scalar_no_worse_example. Qed.

(** C94.  Nearest-neighbour upscales get the confidence 1 in every precision: the images'
    coefficients computed by the KISS backend, given to the sign method, which is run in the
    precision of the intermediates. *)
Theorem scalar_upscale_width : forall L coeff inter c load store u twiddle super shift al m W t s N h range images fs,
  long_double L ->
  let S := kiss_scalar coeff in let C := format_of L coeff in let I := format_of L (inter_precision coeff inter) in
  conversions S C load store -> (/ IZR (2 ^ f_prec S) <= u <= / IZR (2 ^ 20))%R -> (forall k, al k = true) ->
  1 <= s -> length_ok u (s * N) -> length_ok u h -> 1 <= range -> range < N < s * N - range -> h * range < storage_mod c ->
  tables_within S u twiddle super shift (s * N) -> tables_within S u twiddle super shift h ->
  images <> [] -> zlen images <= 2 ^ f_prec I -> zlen images < 2^64 ->
  (forall image, In image images -> clear_x u s N h range image) ->
  Forall2 (fun image f => exists wd wd', coefficients load store (number_ops S twiddle super shift) al (s * N) h image m W t wd = Ok (f, wd')) images fs ->
  exists result, prun_all C I c Msign fs (s * N) h (s * N) 1 range (repeat (n0 I) (Z.to_nat (s * N - 2 * range))) = Ok result /\
    B2R 24 128 (pconfidence I (at_ (n0 I) result (N - range)) (zlen images)) = 1%R.
Proof. exact scalar_upscale_width_claim. Qed.
Print Assumptions scalar_upscale_width.

Theorem scalar_upscale_height : forall L coeff inter c load store u twiddle super shift al m W t s N w range images fs,
  long_double L ->
  let S := kiss_scalar coeff in let C := format_of L coeff in let I := format_of L (inter_precision coeff inter) in
  conversions S C load store -> (/ IZR (2 ^ f_prec S) <= u <= / IZR (2 ^ 20))%R -> (forall k, al k = true) ->
  1 <= s -> length_ok u (s * N) -> length_ok u w -> 1 <= range -> range < N < s * N - range -> w * range < storage_mod c ->
  tables_within S u twiddle super shift w -> tables_within S u twiddle super shift (s * N) ->
  images <> [] -> zlen images <= 2 ^ f_prec I -> zlen images < 2^64 ->
  (forall image, In image images -> clear_y u s N w range image) ->
  Forall2 (fun image f => exists wd wd', coefficients load store (number_ops S twiddle super shift) al w (s * N) image m W t wd = Ok (f, wd')) images fs ->
  exists result, prun_all C I c Msign fs (s * N) w 1 w range (repeat (n0 I) (Z.to_nat (s * N - 2 * range))) = Ok result /\
    B2R 24 128 (pconfidence I (at_ (n0 I) result (N - range)) (zlen images)) = 1%R.
Proof. exact scalar_upscale_height_claim. Qed.
Print Assumptions scalar_upscale_height.

(** two copies of the 2x1 image 1 0 widened to 4x1, with long double coefficients of the x87
    and any tables good to 2^-48 *)
Example scalar_upscale_width_witness :
  (forall image, In image [accuracy_image; accuracy_image] -> clear_x (/ IZR (2 ^ 48)) 2 2 1 1 image) /\ 1 * 1 < storage_mod default_config /\
  exists load store twiddle super shift fs, conversions (kiss_scalar PL) (format_of x87_format PL) load store /\
    (forall n, tables_within (kiss_scalar PL) (/ IZR (2 ^ 48)) twiddle super shift n) /\
    Forall2 (fun image f => exists wd wd', coefficients load store (number_ops (kiss_scalar PL) twiddle super shift) (fun _ => true) (2 * 2) 1 image
      (n0 (kiss_scalar PL)) (n0 (kiss_scalar PL), n0 (kiss_scalar PL)) (n0 (kiss_scalar PL), n0 (kiss_scalar PL)) wd = Ok (f, wd')) [accuracy_image; accuracy_image] fs.
Proof. exact scalar_upscale_width_example. Qed.

(** the 1x2 image heightened to 1x4 *)
Example scalar_upscale_height_witness : clear_y (/ IZR (2 ^ 48)) 2 2 1 1 accuracy_image.
Proof. exact scalar_upscale_height_example. Qed.
