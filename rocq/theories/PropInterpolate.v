(**     Property C79: images scaled up by interpolation. *)
From Coq Require Import Reals Lra Lia Psatz.
From Flocq Require Import Core IEEE754.Binary.
From Verif Require Import Base Flt Util Methods Analysis History Kiss Spec SpecAnalysis SpecUtil SpecReport SpecTransform SpecAccuracy SpecInterpolate.
From Verif Require Import BaseProofs FltProofs RoundProofs WorldProofs AnalysisProofs ResultsProofs ClientProofs CompareProofs.
From Verif Require Import KissProofs KissFactor KissTransform KissExact KissRound KissAccuracy AccuracyProofs AccuracyTables UpscaleProofs UpscaleDetect
  InterpolateProofs InterpolateKernels Demo AnalysisClaims KissClaims AccuracyClaims.
Open Scope list_scope.
Open Scope Z_scope.
From Verif Require Import InterpolateClaims.

(** C79.  Resampling a line of N samples, mirrored at its ends, to M >= N samples with
    symmetric weights multiplies coefficient k by the response, up to aliasing. *)
Theorem interpolation_coefficients : forall N M a K x k P leak G,
  1 <= N <= M -> kernel_ok a K -> (forall j, 0 <= j < N -> (Rabs (x j) <= G)%R) -> responds N M a K k P leak ->
  (Rabs (dct M (resampled N M a K x) k - P * dct N x k) <= 2 * IZR N * G * leak)%R.
Proof. exact interpolation_coefficients_claim. Qed.
Print Assumptions interpolation_coefficients.

(** ... linear interpolation makes 256 192 64 0 of it; 2 coefficients are those of the
    line times the response, which is positive *)
Example interpolation_coefficients_witness :
  kernel_ok 1 tent /\ (forall j, 0 <= j < 2 -> (Rabs (two_samples j) <= 256)%R) /\
  (forall i, 0 <= i < 4 -> resampled 2 4 1 tent two_samples i = nth (Z.to_nat i) [256; 192; 64; 0]%R 0%R) /\
  (forall k, 0 < k < 4 -> exists P, (0 < P)%R /\ responds 2 (2 * 2) 1 tent k P 0).
Proof. exact interpolation_coefficients_example. Qed.

(** C79.  For whole factors there is no aliasing ... *)
Theorem whole_factors : forall N s a K k, 1 <= N -> 1 <= s -> kernel_ok a K ->
  responds N (s * N) a K k (phase_cos N (s * N) a K k 0) 0.
Proof. exact whole_factors_claim. Qed.
Print Assumptions whole_factors.

(** ... repeating samples is interpolation with the box, and its response is positive ... *)
Theorem nearest_response : forall N s, 1 <= N -> 1 <= s -> kernel_ok 1 box /\
  (forall g y x, 0 <= x < s * N -> rows_resampled N (s * N) 1 box g y x = widened s g y x) /\
  (forall k, 0 < k < 2 * N -> (0 < phase_cos N (s * N) 1 box k 0)%R).
Proof. exact nearest_response_claim. Qed.
Print Assumptions nearest_response.

(** twice the size, at frequency N: the square root of 2, against 2 at frequency 0 *)
Example nearest_response_witness : forall N, 1 <= N -> (phase_cos N (2 * N) 1 box N 0 * sin (PI / 4) = 1)%R.
Proof. exact nearest_response_example. Qed.

(** ... as is that of linear interpolation ... *)
Theorem linear_response : forall N s k, 1 <= N -> 2 <= s -> 0 < k < 2 * N ->
  kernel_ok 1 tent /\ (0 < phase_cos N (s * N) 1 tent k 0)%R.
Proof. exact linear_response_claim. Qed.
Print Assumptions linear_response.

Example linear_response_witness : forall N, 1 <= N -> phase_cos N (2 * N) 1 tent N 0 = cos (PI / 4).
Proof. exact linear_response_example. Qed.

(** ... and that of Catmull and Rom's for twice the size. *)
Theorem cubic_response : forall N k, 1 <= N -> 0 < k < 2 * N ->
  kernel_ok 2 catmull_rom /\ (0 < phase_cos N (2 * N) 2 catmull_rom k 0)%R.
Proof. exact cubic_response_claim. Qed.
Print Assumptions cubic_response.

Example cubic_response_witness : forall N, 1 <= N -> phase_cos N (2 * N) 2 catmull_rom N 0 = (11/4 * cos (PI / 4) ^ 3)%R.
Proof. exact cubic_response_example. Qed.

(** C79.  Linear interpolation from 2p to 3p samples: positive, and little aliasing
    around coefficient 2p. *)
Theorem halves_response : forall p k range, 1 <= p -> 0 < range < 2 * p -> 2 * p - range <= k <= 2 * p + range ->
  exists P, (0 < P)%R /\ responds (2 * p) (3 * p) 1 tent k P (halves_leak (2 * p) range).
Proof. exact halves_response_claim. Qed.
Print Assumptions halves_response.

(** from 720 to 1080 lines, within a range of 12: less than 0.0008 *)
Example halves_response_witness : 0 < 12 < 2 * 360 /\ (halves_leak (2 * 360) 12 < 8 / 10000)%R.
Proof. exact halves_response_example. Qed.

(** C79.  The KISS build reports width N with confidence 1, in C floats, for frames whose
    rows were resampled from N samples with positive responses around N, even if every
    sample was changed by up to d afterwards.  Samples may have been rounded, say. *)
Theorem interpolated_width : forall E0 twiddle super shift t0 F t m N w h p images l,
  let E := kiss_env (e_cfg E0) (e_alloc E0) (float_ops twiddle super shift) (e_qsort E0) t0 F t in
  env_ok E0 -> client_params (e_cfg E0) p -> 1 <= w <= 2^20 -> 1 <= h <= 2^20 ->
  tables_close twiddle super shift w -> tables_close twiddle super shift h ->
  zlen images <= 2^53 -> used_method m = Msign -> used_filter p = 0 ->
  used_range (e_cfg E0) m p < N < w - used_range (e_cfg E0) m p ->
  (forall image, In image images -> interpolated_x N w h (used_range (e_cfg E0) m p) image) ->
  reported E m w h p images (seen_x E w h images) w l ->
  In (mkRes N (f32_of_Z 1)) l.
Proof. exact interpolated_width_claim. Qed.
Print Assumptions interpolated_width.

(** C79.  The same of the height. *)
Theorem interpolated_height : forall E0 twiddle super shift t0 F t m N w h p images l,
  let E := kiss_env (e_cfg E0) (e_alloc E0) (float_ops twiddle super shift) (e_qsort E0) t0 F t in
  env_ok E0 -> client_params (e_cfg E0) p -> 1 <= w <= 2^20 -> 1 <= h <= 2^20 ->
  tables_close twiddle super shift w -> tables_close twiddle super shift h ->
  zlen images <= 2^53 -> used_method m = Msign -> used_filter p = 0 ->
  used_range (e_cfg E0) m p < N < h - used_range (e_cfg E0) m p ->
  (forall image, In image images -> interpolated_y N w h (used_range (e_cfg E0) m p) image) ->
  reported E m w h p images (seen_y E w h images) h l ->
  In (mkRes N (f32_of_Z 1)) l.
Proof. exact interpolated_height_claim. Qed.
Print Assumptions interpolated_height.

(** C79.  So upscales by a whole factor are found that were made by repetition or linear
    interpolation, or of twice the size made with Catmull and Rom's cubic kernel, rounded or
    otherwise changed a little afterwards. *)
Theorem common_upscale_width : forall E0 twiddle super shift t0 F t m s N h p images l,
  let E := kiss_env (e_cfg E0) (e_alloc E0) (float_ops twiddle super shift) (e_qsort E0) t0 F t in
  env_ok E0 -> client_params (e_cfg E0) p -> s * N <= 2^20 -> 1 <= h <= 2^20 ->
  tables_close twiddle super shift (s * N) -> tables_close twiddle super shift h ->
  zlen images <= 2^53 -> used_method m = Msign -> used_filter p = 0 ->
  used_range (e_cfg E0) m p < N < s * N - used_range (e_cfg E0) m p ->
  (forall image, In image images -> common_upscale_x s N h (used_range (e_cfg E0) m p) image) ->
  reported E m (s * N) h p images (seen_x E (s * N) h images) (s * N) l ->
  In (mkRes N (f32_of_Z 1)) l.
Proof. exact common_upscale_width_claim. Qed.
Print Assumptions common_upscale_width.

(** C79.  The same of the height. *)
Theorem common_upscale_height : forall E0 twiddle super shift t0 F t m s N w p images l,
  let E := kiss_env (e_cfg E0) (e_alloc E0) (float_ops twiddle super shift) (e_qsort E0) t0 F t in
  env_ok E0 -> client_params (e_cfg E0) p -> s * N <= 2^20 -> 1 <= w <= 2^20 ->
  tables_close twiddle super shift w -> tables_close twiddle super shift (s * N) ->
  zlen images <= 2^53 -> used_method m = Msign -> used_filter p = 0 ->
  used_range (e_cfg E0) m p < N < s * N - used_range (e_cfg E0) m p ->
  (forall image, In image images -> common_upscale_y s N w (used_range (e_cfg E0) m p) image) ->
  reported E m w (s * N) p images (seen_y E w (s * N) images) (s * N) l ->
  In (mkRes N (f32_of_Z 1)) l.
Proof. exact common_upscale_height_claim. Qed.
Print Assumptions common_upscale_height.

(** C79.  And linear upscales from 2p to 3p samples, as from 720p to 1080p. *)
Theorem halves_upscale_width : forall E0 twiddle super shift t0 F t m q h p images l,
  let E := kiss_env (e_cfg E0) (e_alloc E0) (float_ops twiddle super shift) (e_qsort E0) t0 F t in
  env_ok E0 -> client_params (e_cfg E0) p -> 3 * q <= 2^20 -> 1 <= h <= 2^20 ->
  tables_close twiddle super shift (3 * q) -> tables_close twiddle super shift h ->
  zlen images <= 2^53 -> used_method m = Msign -> used_filter p = 0 ->
  used_range (e_cfg E0) m p < q ->
  (forall image, In image images -> halves_upscale_x q h (used_range (e_cfg E0) m p) image) ->
  reported E m (3 * q) h p images (seen_x E (3 * q) h images) (3 * q) l ->
  In (mkRes (2 * q) (f32_of_Z 1)) l.
Proof. exact halves_upscale_width_claim. Qed.
Print Assumptions halves_upscale_width.

Example common_upscale_width_witness :
  env_ok demo_env /\ client_params (e_cfg demo_env) upscale_params /\ used_filter upscale_params = 0 /\
  used_range (e_cfg demo_env) None upscale_params = 1 /\ common_upscale_x 2 2 1 1 four_samples /\
  exists twiddle super shift l l', tables_close twiddle super shift (2 * 2) /\ tables_close twiddle super shift 1 /\
    let E := kiss_env (e_cfg demo_env) (e_alloc demo_env) (float_ops twiddle super shift) (e_qsort demo_env) f0 (f0, f0) (f0, f0) in
    reported E None (2 * 2) 1 upscale_params [four_samples] (seen_x E (2 * 2) 1 [four_samples]) (2 * 2) l /\
    reported E None (2 * 2) 1 upscale_params [four_samples] (seen_y E (2 * 2) 1 [four_samples]) 1 l'.
Proof. exact common_upscale_width_example. Qed.

Example halves_upscale_width_witness : halves_upscale_x 2 1 1 six_line /\ used_range (e_cfg demo_env) None upscale_params = 1.
Proof. exact halves_upscale_width_example. Qed.

(** the same samples as a column *)
Example common_upscale_height_witness : common_upscale_y 2 2 1 1 four_samples /\ used_range (e_cfg demo_env) None upscale_params = 1.
Proof. exact common_upscale_height_example. Qed.

(** both are instances of the general theorems *)
Example interpolated_width_witness : interpolated_x 2 4 1 1 four_samples.
Proof. exact interpolated_width_example. Qed.

Example interpolated_height_witness : interpolated_y 2 1 4 1 four_samples.
Proof. exact interpolated_height_example. Qed.
