(**     Properties C73-C74: rounding errors of the KISS transform. *)
From Coq Require Import Reals Lra Lia Psatz.
From Flocq Require Import Core IEEE754.Binary.
From Verif Require Import Base Flt Util Methods Analysis History Kiss Spec SpecAnalysis SpecUtil SpecReport SpecTransform SpecAccuracy.
From Verif Require Import BaseProofs FltProofs RoundProofs WorldProofs AnalysisProofs ResultsProofs ClientProofs CompareProofs.
From Verif Require Import KissProofs KissFactor KissTransform KissExact KissAccuracy AccuracyProofs AccuracyTables UpscaleProofs UpscaleDetect Demo AnalysisClaims KissClaims.
Open Scope list_scope.
Open Scope Z_scope.
From Verif Require Import AccuracyClaims.

(** C73.  In C floats, with trigonometric tables good to 2^-24: every coefficient of an
    image of up to 2^20 by 2^20 samples of magnitude at most M is finite and differs
    from that of the exact transform by at most the stated bound, which depends on the
    sizes, their radices and M only. *)
Theorem transform_accuracy : forall twiddle super shift al w h f mirror F tmp0 tmp1 wd M lw lh,
  (forall k, al k = true) -> 1 <= w <= 2^20 -> 1 <= h <= 2^20 ->
  tables_close twiddle super shift w -> tables_close twiddle super shift h ->
  zlen f = w * h -> zlen mirror = 2 * Z.max w h -> zlen F = Z.max w h + 1 -> zlen tmp0 = w -> zlen tmp1 = h ->
  (1 <= M <= 1048576)%R ->
  (forall i, 0 <= i < w * h -> ffinite (at_ f0 f i) = true /\ (Rabs (B2R 24 128 (at_ f0 f i)) <= M)%R) ->
  kf_factor w = Ok lw -> kf_factor h = Ok lh ->
  exists f' wd', kiss_transform (float_ops twiddle super shift) al w h f mirror F tmp0 tmp1 wd = Ok (f', wd') /\
    forall y x, 0 <= y < h -> 0 <= x < w ->
      ffinite (at_ f0 f' (y * w + x)) = true /\
      (Rabs (B2R 24 128 (at_ f0 f' (y * w + x)) - dct_2d w h (fun y x => B2R 24 128 (at_ f0 f (y * w + x)%Z)) y x)
         <= coefficient_error w h (radices_of lw) (radices_of lh) M)%R.
Proof. exact transform_accuracy_claim. Qed.
Print Assumptions transform_accuracy.

(** ... tables with the floats nearest to each sine and cosine qualify; a 3x2 image of
    samples 1 to 6 has errors of at most 1/400, one of 1920x1080 samples of magnitude
    at most 1 errors of at most 0.0072 % of 4 w h *)
Example transform_accuracy_witness :
  (exists twiddle super shift, forall n, 1 <= n -> tables_close twiddle super shift n) /\
  (forall i, 0 <= i < 3 * 2 -> ffinite (at_ f0 six_samples i) = true /\
     (Rabs (B2R 24 128 (at_ f0 six_samples i)) <= 6)%R) /\
  kf_factor 3 = Ok [3; 1] /\ kf_factor 2 = Ok [2; 1] /\ (coefficient_error 3 2 [3]%Z [2]%Z 6 <= 1 / 400)%R /\
  kf_factor 1920 = Ok [4; 480; 4; 120; 4; 30; 2; 15; 3; 5; 5; 1] /\ kf_factor 1080 = Ok [4; 270; 2; 135; 3; 45; 3; 15; 3; 5; 5; 1] /\
  (coefficient_error 1920 1080 [4; 4; 4; 2; 3; 5]%Z [4; 2; 3; 3; 3; 5]%Z 1 <= 4 * 1920 * 1080 * (72 / 1000000))%R.
Proof. exact transform_accuracy_example. Qed.

(** C73.  So a coefficient that is larger than the bound has the right sign. *)
Theorem kiss_signs : forall E twiddle super shift m F t w h image g M lw lh,
  1 <= w <= 2^20 -> 1 <= h <= 2^20 ->
  tables_close twiddle super shift w -> tables_close twiddle super shift h ->
  (1 <= M <= 1048576)%R -> kf_factor w = Ok lw -> kf_factor h = Ok lh -> has_samples w h image g M ->
  forall y x, 0 <= y < h -> 0 <= x < w ->
    (coefficient_error w h (radices_of lw) (radices_of lh) M < Rabs (dct_2d w h g y x))%R ->
    agrees (at_ f0 (plane (kiss_env (e_cfg E) (e_alloc E) (float_ops twiddle super shift) (e_qsort E) m F t) w h image) (y * w + x))
      (dct_2d w h g y x).
Proof. exact kiss_signs_claim. Qed.
Print Assumptions kiss_signs.

Example kiss_signs_witness : has_samples 4 1 accuracy_image (widened 2 upscale_source) 1 /\
  (coefficient_error 4 1 [4]%Z [1]%Z 1 < Rabs (dct_2d 4 1 (widened 2 upscale_source) 0 1))%R /\
  (coefficient_error 4 1 [4]%Z [1]%Z 1 < Rabs (dct_2d 4 1 (widened 2 upscale_source) 0 3))%R.
Proof. exact kiss_signs_example. Qed.

(** C74.  Nearest-neighbour upscales are detected with confidence 1 by the KISS build, in
    C floats: every frame is the s-fold widening of some frame whose exact coefficients
    around N exceed the rounding error bound.  Nothing is assumed of the computed ones. *)
Theorem kiss_upscale_width : forall E0 twiddle super shift t0 F t m s N h p images l,
  let E := kiss_env (e_cfg E0) (e_alloc E0) (float_ops twiddle super shift) (e_qsort E0) t0 F t in
  env_ok E0 -> client_params (e_cfg E0) p -> 1 <= s -> s * N <= 2^20 -> 1 <= h <= 2^20 ->
  tables_close twiddle super shift (s * N) -> tables_close twiddle super shift h ->
  zlen images <= 2^53 -> used_method m = Msign -> used_filter p = 0 ->
  used_range (e_cfg E0) m p < N < s * N - used_range (e_cfg E0) m p ->
  (forall image, In image images -> upscale_x s N h (used_range (e_cfg E0) m p) image) ->
  reported E m (s * N) h p images (seen_x E (s * N) h images) (s * N) l ->
  In (mkRes N (f32_of_Z 1)) l.
Proof. exact kiss_upscale_width_claim. Qed.
Print Assumptions kiss_upscale_width.

(** C74.  The same of the height. *)
Theorem kiss_upscale_height : forall E0 twiddle super shift t0 F t m s N w p images l,
  let E := kiss_env (e_cfg E0) (e_alloc E0) (float_ops twiddle super shift) (e_qsort E0) t0 F t in
  env_ok E0 -> client_params (e_cfg E0) p -> 1 <= s -> s * N <= 2^20 -> 1 <= w <= 2^20 ->
  tables_close twiddle super shift w -> tables_close twiddle super shift (s * N) ->
  zlen images <= 2^53 -> used_method m = Msign -> used_filter p = 0 ->
  used_range (e_cfg E0) m p < N < s * N - used_range (e_cfg E0) m p ->
  (forall image, In image images -> upscale_y s N w (used_range (e_cfg E0) m p) image) ->
  reported E m w (s * N) p images (seen_y E w (s * N) images) (s * N) l ->
  In (mkRes N (f32_of_Z 1)) l.
Proof. exact kiss_upscale_height_claim. Qed.
Print Assumptions kiss_upscale_height.

(** A concrete case: the 2x1 image 1 0 widened to 4x1 is reported, with any good tables. *)
Example kiss_upscale_width_witness :
  env_ok demo_env /\ client_params (e_cfg demo_env) upscale_params /\ used_filter upscale_params = 0 /\
  used_range (e_cfg demo_env) None upscale_params = 1 /\ upscale_x 2 2 1 1 accuracy_image /\
  exists twiddle super shift l l', tables_close twiddle super shift (2 * 2) /\ tables_close twiddle super shift 1 /\
    let E := kiss_env (e_cfg demo_env) (e_alloc demo_env) (float_ops twiddle super shift) (e_qsort demo_env) f0 (f0, f0) (f0, f0) in
    reported E None (2 * 2) 1 upscale_params [accuracy_image] (seen_x E (2 * 2) 1 [accuracy_image]) (2 * 2) l /\
    reported E None (2 * 2) 1 upscale_params [accuracy_image] (seen_y E (2 * 2) 1 [accuracy_image]) 1 l'.
Proof. exact kiss_upscale_width_example. Qed.
