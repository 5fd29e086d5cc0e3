(**     Property C88: images scaled up with cubic kernels. *)
From Coq Require Import Reals Lra Lia Psatz.
From Flocq Require Import Core IEEE754.Binary.
From Verif Require Import Base Flt Util Methods Analysis History Kiss Spec SpecAnalysis SpecUtil SpecReport SpecTransform SpecAccuracy SpecInterpolate SpecCubic.
From Verif Require Import BaseProofs FltProofs RoundProofs WorldProofs AnalysisProofs ResultsProofs ClientProofs CompareProofs.
From Verif Require Import KissProofs KissFactor KissTransform KissExact KissAccuracy AccuracyProofs AccuracyTables UpscaleProofs UpscaleDetect
  InterpolateProofs InterpolateKernels CubicProofs Demo AnalysisClaims KissClaims AccuracyClaims InterpolateClaims.
Open Scope list_scope.
Open Scope Z_scope.
From Verif Require Import CubicClaims.

(** C88.  Mitchell and Netravali's kernels are symmetric and two samples wide; their weights
    add up to one; Catmull and Rom's is one of them. *)
Theorem cubic_kernels : forall B C,
  kernel_ok 2 (cubic B C) /\
  (forall u, (0 <= u < 1)%R -> (cubic B C (u + 1) + cubic B C u + cubic B C (u - 1) + cubic B C (u - 2) = 1)%R) /\
  (forall u, cubic 0 (1/2) u = catmull_rom u).
Proof. exact cubic_kernels_claim. Qed.
Print Assumptions cubic_kernels.

(** the cubic B-spline is always positive, others are not *)
Example cubic_kernels_witness : cubic 1 0 (3/2) = (1/48)%R /\ cubic 0 (1/2) (3/2) = (-1/16)%R /\ cubic 0 0 (1/2) = (1/2)%R.
Proof. exact cubic_kernels_example. Qed.

(** C88.  Whatever the whole factor, they keep the signs of the coefficients around the end
    of the old spectrum. *)
Theorem cubics_respond : forall B C N s k range, (0 <= B <= 1)%R -> (0 <= C <= 1)%R ->
  1 <= N -> 2 <= s -> 10 * range <= N -> N - range <= k <= N + range ->
  exists P, (0 < P)%R /\ responds N (s * N) 2 (cubic B C) k P 0.
Proof. exact cubics_respond_claim. Qed.
Print Assumptions cubics_respond.

(** at most 12 away from 240, with the kernel Mitchell and Netravali recommend *)
Example cubics_respond_witness : forall s, 2 <= s -> forall k, 228 <= k <= 252 ->
  exists P, (0 < P)%R /\ responds 240 (s * 240) 2 (cubic (1/3) (1/3)) k P 0.
Proof. exact cubics_respond_example. Qed.

(** C88.  From two to three samples there is a little aliasing. *)
Theorem cubics_halves : forall B C p k range, (0 <= B <= 1)%R -> (0 <= C <= 1)%R ->
  1 <= p -> 10 * range <= p -> 2 * p - range <= k <= 2 * p + range ->
  exists P, (9/100 <= P)%R /\ responds (2 * p) (3 * p) 2 (cubic B C) k P (cubic_leak B C (2 * p) range).
Proof. exact cubics_halves_claim. Qed.
Print Assumptions cubics_halves.

(** from 1280 to 1920 samples, within a range of 12: less than 0.0005 with Catmull and Rom's kernel *)
Example cubics_halves_witness : 10 * 12 <= 640 /\ (cubic_leak 0 (1/2) (2 * 640) 12 < 5 / 10000)%R.
Proof. exact cubics_halves_example. Qed.

(** C88.  So upscales by any whole factor are found that were made with such a kernel, and
    rounded or otherwise changed a little afterwards. *)
Theorem cubic_upscale_width : forall E0 twiddle super shift t0 F t m s N h p images l,
  let E := kiss_env (e_cfg E0) (e_alloc E0) (float_ops twiddle super shift) (e_qsort E0) t0 F t in
  env_ok E0 -> client_params (e_cfg E0) p -> s * N <= 2^20 -> 1 <= h <= 2^20 ->
  tables_close twiddle super shift (s * N) -> tables_close twiddle super shift h ->
  zlen images <= 2^53 -> used_method m = Msign -> used_filter p = 0 -> 2 <= s ->
  10 * used_range (e_cfg E0) m p <= N ->
  (forall image, In image images -> cubic_upscale_x s N h (used_range (e_cfg E0) m p) image) ->
  reported E m (s * N) h p images (seen_x E (s * N) h images) (s * N) l ->
  In (mkRes N (f32_of_Z 1)) l.
Proof. exact cubic_upscale_width_claim. Qed.
Print Assumptions cubic_upscale_width.

(** C88.  The same of the height. *)
Theorem cubic_upscale_height : forall E0 twiddle super shift t0 F t m s N w p images l,
  let E := kiss_env (e_cfg E0) (e_alloc E0) (float_ops twiddle super shift) (e_qsort E0) t0 F t in
  env_ok E0 -> client_params (e_cfg E0) p -> s * N <= 2^20 -> 1 <= w <= 2^20 ->
  tables_close twiddle super shift w -> tables_close twiddle super shift (s * N) ->
  zlen images <= 2^53 -> used_method m = Msign -> used_filter p = 0 -> 2 <= s ->
  10 * used_range (e_cfg E0) m p <= N ->
  (forall image, In image images -> cubic_upscale_y s N w (used_range (e_cfg E0) m p) image) ->
  reported E m w (s * N) p images (seen_y E w (s * N) images) (s * N) l ->
  In (mkRes N (f32_of_Z 1)) l.
Proof. exact cubic_upscale_height_claim. Qed.
Print Assumptions cubic_upscale_height.

(** C88.  And upscales from 2p to 3p samples, as from 720p to 1080p. *)
Theorem cubic_halves_width : forall E0 twiddle super shift t0 F t m q h p images l,
  let E := kiss_env (e_cfg E0) (e_alloc E0) (float_ops twiddle super shift) (e_qsort E0) t0 F t in
  env_ok E0 -> client_params (e_cfg E0) p -> 3 * q <= 2^20 -> 1 <= h <= 2^20 ->
  tables_close twiddle super shift (3 * q) -> tables_close twiddle super shift h ->
  zlen images <= 2^53 -> used_method m = Msign -> used_filter p = 0 ->
  10 * used_range (e_cfg E0) m p <= q ->
  (forall image, In image images -> cubic_halves_x q h (used_range (e_cfg E0) m p) image) ->
  reported E m (3 * q) h p images (seen_x E (3 * q) h images) (3 * q) l ->
  In (mkRes (2 * q) (f32_of_Z 1)) l.
Proof. exact cubic_halves_width_claim. Qed.
Print Assumptions cubic_halves_width.

(** C88.  The same of the height. *)
Theorem cubic_halves_height : forall E0 twiddle super shift t0 F t m q w p images l,
  let E := kiss_env (e_cfg E0) (e_alloc E0) (float_ops twiddle super shift) (e_qsort E0) t0 F t in
  env_ok E0 -> client_params (e_cfg E0) p -> 3 * q <= 2^20 -> 1 <= w <= 2^20 ->
  tables_close twiddle super shift w -> tables_close twiddle super shift (3 * q) ->
  zlen images <= 2^53 -> used_method m = Msign -> used_filter p = 0 ->
  10 * used_range (e_cfg E0) m p <= q ->
  (forall image, In image images -> cubic_halves_y q w (used_range (e_cfg E0) m p) image) ->
  reported E m w (3 * q) p images (seen_y E w (3 * q) images) (3 * q) l ->
  In (mkRes (2 * q) (f32_of_Z 1)) l.
Proof. exact cubic_halves_height_claim. Qed.
Print Assumptions cubic_halves_height.

Example cubic_upscale_width_witness :
  env_ok demo_env /\ client_params (e_cfg demo_env) upscale_params /\ used_filter upscale_params = 0 /\
  used_range (e_cfg demo_env) None upscale_params = 1 /\ cubic_upscale_x 2 10 1 1 spline_image /\
  exists twiddle super shift l l', tables_close twiddle super shift (2 * 10) /\ tables_close twiddle super shift 1 /\
    let E := kiss_env (e_cfg demo_env) (e_alloc demo_env) (float_ops twiddle super shift) (e_qsort demo_env) f0 (f0, f0) (f0, f0) in
    reported E None (2 * 10) 1 upscale_params [spline_image] (seen_x E (2 * 10) 1 [spline_image]) (2 * 10) l /\
    reported E None (2 * 10) 1 upscale_params [spline_image] (seen_y E (2 * 10) 1 [spline_image]) 1 l'.
Proof. exact cubic_upscale_width_example. Qed.

(** the same samples as a column *)
Example cubic_upscale_height_witness : cubic_upscale_y 2 10 1 1 spline_image /\ used_range (e_cfg demo_env) None upscale_params = 1.
Proof. exact cubic_upscale_height_example. Qed.

Example cubic_halves_width_witness : cubic_halves_x 10 1 1 stripe_image /\ used_range (e_cfg demo_env) None upscale_params = 1 /\
  stripe_line = [492; -54; -368; 368; 0; -368; 368; 0; -368; 368; 0; -368; 368; 0; -368; 368; 0; -368; 368; 0; -368; 368; 0; -368; 368; 0; -368; 368; 54; -492].
Proof. exact cubic_halves_width_example. Qed.

Example cubic_halves_height_witness : cubic_halves_y 10 1 1 stripe_image.
Proof. exact cubic_halves_height_example. Qed.
