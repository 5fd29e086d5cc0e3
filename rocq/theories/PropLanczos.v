(**     Property C96: images scaled up with Lanczos' kernels. *)
From Coq Require Import Reals Lra Lia Psatz.
From Flocq Require Import Core IEEE754.Binary.
From Verif Require Import Base Flt Util Methods Analysis History Kiss Spec SpecAnalysis SpecUtil SpecReport SpecTransform SpecAccuracy SpecInterpolate SpecLanczos.
From Verif Require Import BaseProofs FltProofs RoundProofs WorldProofs AnalysisProofs ResultsProofs ClientProofs CompareProofs.
From Verif Require Import KissProofs KissFactor KissTransform KissExact KissAccuracy AccuracyProofs AccuracyTables UpscaleProofs UpscaleDetect
  InterpolateProofs InterpolateKernels CubicProofs LanczosProofs Demo AnalysisClaims KissClaims AccuracyClaims InterpolateClaims CubicClaims.
Open Scope list_scope.
Open Scope Z_scope.
From Verif Require Import LanczosClaims.

(** C96.  Lanczos' kernels are symmetric, keep the old samples and are a samples wide; the sum
    of their weights is not far from one.  Divided by it, they keep images of one colour. *)
Theorem lanczos_kernels : forall a, 2 <= a ->
  kernel_ok a (lanczos a) /\ kernel_ok a (normalised a (lanczos a)) /\
  (forall n, lanczos a (IZR n) = if n =? 0 then 1%R else 0%R) /\
  (forall u, (59/100 <= total a (lanczos a) u <= 128/100)%R) /\
  (forall N M c i, 1 <= N <= M -> resampled N M a (normalised a (lanczos a)) (fun _ => c) i = c).
Proof. exact lanczos_kernels_claim. Qed.
Print Assumptions lanczos_kernels.

(** with two lobes, the weight half way between two samples is 4 sqrt 2 / pi^2 *)
Example lanczos_kernels_witness : lanczos 2 (1/2) = (4 * sqrt 2 / PI ^ 2)%R.
Proof. exact lanczos_kernels_example. Qed.

(** C96.  Whatever the whole factor and the number of lobes, they keep the signs of the
    coefficients around the end of the old spectrum. *)
Theorem lanczos_respond : forall lobe a K N s k range, lanczos_kernel lobe a K ->
  1 <= N -> 2 <= s -> lobe * a * range <= N -> N - range <= k <= N + range ->
  exists P, (0 < P)%R /\ responds N (s * N) a K k P 0.
Proof. exact lanczos_respond_claim. Qed.
Print Assumptions lanczos_respond.

(** at most 12 away from 1280, with three lobes and weights that add up to one *)
Example lanczos_respond_witness : forall s, 2 <= s -> forall k, 1268 <= k <= 1292 ->
  exists P, (0 < P)%R /\ responds 1280 (s * 1280) 3 (normalised 3 (lanczos 3)) k P 0.
Proof. exact lanczos_respond_example. Qed.

(** C96.  So upscales by any whole factor are found that were made with such a kernel, and
    rounded or otherwise changed a little afterwards. *)
Theorem lanczos_upscale_width : forall E0 twiddle super shift t0 F t m s N h p images l,
  let E := kiss_env (e_cfg E0) (e_alloc E0) (float_ops twiddle super shift) (e_qsort E0) t0 F t in
  env_ok E0 -> client_params (e_cfg E0) p -> 1 <= N -> s * N <= 2^20 -> 1 <= h <= 2^20 ->
  tables_close twiddle super shift (s * N) -> tables_close twiddle super shift h ->
  zlen images <= 2^53 -> used_method m = Msign -> used_filter p = 0 -> 2 <= s ->
  used_range (e_cfg E0) m p < N ->
  (forall image, In image images -> lanczos_upscale_x s N h (used_range (e_cfg E0) m p) image) ->
  reported E m (s * N) h p images (seen_x E (s * N) h images) (s * N) l ->
  In (mkRes N (f32_of_Z 1)) l.
Proof. exact lanczos_upscale_width_claim. Qed.
Print Assumptions lanczos_upscale_width.

(** C96.  The same of the height. *)
Theorem lanczos_upscale_height : forall E0 twiddle super shift t0 F t m s N w p images l,
  let E := kiss_env (e_cfg E0) (e_alloc E0) (float_ops twiddle super shift) (e_qsort E0) t0 F t in
  env_ok E0 -> client_params (e_cfg E0) p -> 1 <= N -> s * N <= 2^20 -> 1 <= w <= 2^20 ->
  tables_close twiddle super shift w -> tables_close twiddle super shift (s * N) ->
  zlen images <= 2^53 -> used_method m = Msign -> used_filter p = 0 -> 2 <= s ->
  used_range (e_cfg E0) m p < N ->
  (forall image, In image images -> lanczos_upscale_y s N w (used_range (e_cfg E0) m p) image) ->
  reported E m w (s * N) p images (seen_y E w (s * N) images) (s * N) l ->
  In (mkRes N (f32_of_Z 1)) l.
Proof. exact lanczos_upscale_height_claim. Qed.
Print Assumptions lanczos_upscale_height.

Example lanczos_upscale_width_witness :
  env_ok demo_env /\ client_params (e_cfg demo_env) upscale_params /\ used_filter upscale_params = 0 /\
  used_range (e_cfg demo_env) None upscale_params = 1 /\ lanczos_upscale_x 2 60 1 1 fine_image /\
  exists twiddle super shift l l', tables_close twiddle super shift (2 * 60) /\ tables_close twiddle super shift 1 /\
    let E := kiss_env (e_cfg demo_env) (e_alloc demo_env) (float_ops twiddle super shift) (e_qsort demo_env) f0 (f0, f0) (f0, f0) in
    reported E None (2 * 60) 1 upscale_params [fine_image] (seen_x E (2 * 60) 1 [fine_image]) (2 * 60) l /\
    reported E None (2 * 60) 1 upscale_params [fine_image] (seen_y E (2 * 60) 1 [fine_image]) 1 l'.
Proof. exact lanczos_upscale_width_example. Qed.

(** the same samples as a column *)
Example lanczos_upscale_height_witness : lanczos_upscale_y 2 60 1 1 fine_image /\ used_range (e_cfg demo_env) None upscale_params = 1.
Proof. exact lanczos_upscale_height_example. Qed.
