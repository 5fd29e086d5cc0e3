(**     Properties C25-C30: the KISS FFT transform. *)
From Coq Require Import Reals Znumtheory Permutation Lra Lia.
From Flocq Require Import Core IEEE754.Binary.
From Verif Require Import Base Flt Util Methods Analysis History Kiss Spec SpecAnalysis SpecUtil SpecReport SpecTransform.
From Verif Require Import BaseProofs FltProofs WorldProofs AnalysisProofs ResultsProofs ClientProofs CompareProofs.
From Verif Require Import KissProofs KissFactor KissTransform KissExact UpscaleProofs UpscaleDetect Demo AnalysisClaims.
Open Scope list_scope.
Open Scope Z_scope.
From Verif Require Import KissClaims.

(** C25.  Factoring finishes for every size and yields a factor table (each entry a
    radix with the remaining length beside it) that fits the 64 entries of the C
    array; the radices are 4 or prime. *)
Theorem factor_table : forall n, 1 <= n <= INT_MAX - 2 ->
  exists l, kf_factor n = Ok l /\ factor_table n l /\ zlen l <= 2 * MAXFACTORS /\
    fold_right Z.mul 1 (radices_of l) = n /\ (1 < n -> Forall (fun p => p = 4 \/ prime p) (radices_of l)).
Proof. exact factor_table_claim. Qed.
Print Assumptions factor_table.

Example factor_table_witness : kf_factor 2520 = Ok [4; 630; 2; 315; 3; 105; 3; 35; 5; 7; 7; 1] /\ kf_factor 1 = Ok [1; 1].
Proof. exact factor_table_example. Qed.

(** C26.  In exact arithmetic kiss_fft computes the discrete Fourier transform, for
    every size; whatever the output buffer held before. *)
Theorem fft_is_dft : forall al n fin fout wd,
  1 <= n <= INT_MAX / 3 -> n <= zlen fin -> zlen fout = n -> (forall k, al k = true) ->
  exists st out wd', kiss_fft_alloc exact_ops n = Ok st /\
    kiss_fft exact_ops al st fin fout wd = Ok (out, wd') /\ owns wd' wd [] /\ zlen out = n /\
    forall k, 0 <= k < n -> at_ (0, 0)%R out k = dft n (at_ (0, 0)%R fin) k.
Proof. exact fft_is_dft_claim. Qed.
Print Assumptions fft_is_dft.

Example fft_is_dft_witness : exists st out wd', kiss_fft_alloc exact_ops 2 = Ok st /\
  kiss_fft exact_ops (fun _ => true) st [(3, 1); (1, 2)]%R [(7, 7); (7, 7)]%R world0 = Ok (out, wd') /\
  at_ (0, 0)%R out 0 = (4, 3)%R /\ at_ (0, 0)%R out 1 = (2, -1)%R.
Proof. exact fft_is_dft_example. Qed.

(** C26, finding: when the scratch buffer of a radix above 5 cannot be allocated, the
    butterfly is left out silently and the outputs are wrong.  Size 7, input 1 0 0 ... *)
Theorem fft_out_of_memory_refuted : exists al n fin fout st out,
  1 <= n <= INT_MAX / 3 /\ n <= zlen fin /\ zlen fout = n /\ kiss_fft_alloc exact_ops n = Ok st /\
  kiss_fft exact_ops al st fin fout world0 = Ok (out, mkWorld 1 [] 0 []) /\
  exists k, 0 <= k < n /\ at_ (0, 0)%R out k <> dft n (at_ (0, 0)%R fin) k.
Proof. exact fft_out_of_memory_refuted_claim. Qed.
Print Assumptions fft_out_of_memory_refuted.

(** C27.  In exact arithmetic kiss_fftr computes outputs 0..n of the discrete Fourier
    transform of 2n real samples. *)
Theorem real_fft_is_dft : forall al n time tmp freq wd,
  1 <= n <= INT_MAX / 3 -> zlen time = 2 * n -> zlen tmp = n -> n + 1 <= zlen freq -> (forall k, al k = true) ->
  exists st freq' tmp' wd', kiss_fftr_alloc exact_ops (2 * n) = Ok (Some st) /\
    kiss_fftr exact_ops al st time tmp freq wd = Ok (freq', tmp', wd') /\ owns wd' wd [] /\ zlen freq' = zlen freq /\
    forall k, 0 <= k <= n -> at_ (0, 0)%R freq' k = dft (2 * n) (fun j => (at_ 0%R time j, 0%R)) k.
Proof. exact real_fft_is_dft_claim. Qed.
Print Assumptions real_fft_is_dft.

Example real_fft_is_dft_witness : exists st freq' tmp' wd', kiss_fftr_alloc exact_ops 2 = Ok (Some st) /\
  kiss_fftr exact_ops (fun _ => true) st [3; 1]%R [(7, 7)]%R [(7, 7); (7, 7)]%R world0 = Ok (freq', tmp', wd') /\
  at_ (0, 0)%R freq' 0 = (4, 0)%R /\ at_ (0, 0)%R freq' 1 = (2, 0)%R.
Proof. exact real_fft_is_dft_example. Qed.

(** C28.  In exact arithmetic the KISS backend maps an image to its unnormalised
    two-dimensional DCT-II (FFTW's REDFT10 in both dimensions), whatever the working
    memory held. *)
Theorem transform_is_dct : forall al w h f mirror F tmp0 tmp1 wd,
  1 <= w <= INT_MAX / 3 -> 1 <= h <= INT_MAX / 3 -> zlen f = w * h ->
  zlen mirror = 2 * Z.max w h -> zlen F = Z.max w h + 1 -> zlen tmp0 = w -> zlen tmp1 = h -> (forall k, al k = true) ->
  exists f' wd', kiss_transform exact_ops al w h f mirror F tmp0 tmp1 wd = Ok (f', wd') /\ zlen f' = w * h /\
    forall y x, 0 <= y < h -> 0 <= x < w ->
      at_ 0%R f' (y * w + x) = dct_2d w h (fun y x => at_ 0%R f (y * w + x)) y x.
Proof. exact transform_is_dct_claim. Qed.
Print Assumptions transform_is_dct.

Example transform_is_dct_witness : exists f' wd',
  kiss_transform exact_ops (fun _ => true) 2 1 [3; 5]%R [7; 7; 7; 7]%R [(7, 7); (7, 7); (7, 7)]%R [(7, 7); (7, 7)]%R [(7, 7)]%R world0
  = Ok (f', wd') /\ at_ 0%R f' 0 = 32%R.
Proof. exact transform_is_dct_example. Qed.

(** C29.  With any arithmetic, any tables, any allocation failures and any prior
    contents of the working memory the KISS transform of an accepted size stays inside
    its buffers, overflows no int, and releases what it allocated. *)
Theorem transform_safe : forall T (K : ops T) al w h f mirror F tmp0 tmp1 wd,
  1 <= w <= INT_MAX / 3 -> 1 <= h <= INT_MAX / 3 -> zlen f = w * h ->
  zlen mirror = 2 * Z.max w h -> zlen F = Z.max w h + 1 -> zlen tmp0 = w -> zlen tmp1 = h ->
  exists f' wd', kiss_transform K al w h f mirror F tmp0 tmp1 wd = Ok (f', wd') /\ owns wd' wd [] /\ zlen f' = w * h.
Proof. exact transform_safe_claim. Qed.
Print Assumptions transform_safe.

(** C29.  While memory lasts the result is a function of the image alone. *)
Theorem transform_deterministic : forall T (K : ops T) al al' w h f mirror F tmp0 tmp1 mirror' F' tmp0' tmp1' wd wd',
  1 <= w <= INT_MAX / 3 -> 1 <= h <= INT_MAX / 3 -> zlen f = w * h ->
  zlen mirror = 2 * Z.max w h -> zlen F = Z.max w h + 1 -> zlen tmp0 = w -> zlen tmp1 = h ->
  zlen mirror' = 2 * Z.max w h -> zlen F' = Z.max w h + 1 -> zlen tmp0' = w -> zlen tmp1' = h ->
  (forall k, al k = true) -> (forall k, al' k = true) ->
  exists f1 w1 w2, kiss_transform K al w h f mirror F tmp0 tmp1 wd = Ok (f1, w1) /\
                   kiss_transform K al' w h f mirror' F' tmp0' tmp1' wd' = Ok (f1, w2).
Proof. exact transform_deterministic_claim. Qed.
Print Assumptions transform_deterministic.

(** C29.  With C floats: the KISS backend meets what the theorems on analyses ask of
    the transform, for any contents of the trigonometric tables. *)
Theorem kiss_env : forall E twiddle super shift m F t,
  env_ok E -> env_ok (kiss_env (e_cfg E) (e_alloc E) (float_ops twiddle super shift) (e_qsort E) m F t).
Proof. exact kiss_env_claim. Qed.
Print Assumptions kiss_env.

(** ... a 3x2 image (radix 3 and 2) goes through *)
Example transform_witness :
  match kiss_transform (float_ops (fun _ _ => (f0, f0)) (fun _ _ => (f0, f0)) (fun _ _ => (f32_of_Z 1, f0)))
     (fun _ => true) 3 2 (map f32_of_Z [1; 2; 3; 4; 5; 6])
          (repeat f0 6) (repeat (f0, f0) 4) (repeat (f0, f0) 3) (repeat (f0, f0) 2) world0 with
  | Ok (v, wd) => zlen v = 6 /\ fgt (at_ f0 v 0) f0 = true /\ wd = world0
  | Undef _ => False
  end.
Proof. exact transform_example. Qed.

(** C30.  In exact arithmetic: coefficients of an image whose columns (rows) were
    repeated s times, mirrored around the original width (height), have opposite signs. *)
Theorem upscale_signs : forall s n g,
  1 <= s -> 1 <= n ->
  (forall h row i, 1 <= h -> 0 <= i < n -> exists c, (0 < c)%R /\
     dct_2d (s * n) h (widened s g) row (n + i) = (- c * dct_2d (s * n) h (widened s g) row (n - i))%R) /\
  (forall w i col, 1 <= w -> 0 <= i < n -> exists c, (0 < c)%R /\
     dct_2d w (s * n) (heightened s g) (n + i) col = (- c * dct_2d w (s * n) (heightened s g) (n - i) col)%R).
Proof. exact upscale_signs_claim. Qed.
Print Assumptions upscale_signs.

(** C30.  Nearest-neighbour upscales are detected with confidence 1: every image is the
    s-fold widening of some image, and the computed coefficients around N have the
    signs of the exact ones (none being zero).  Any transform, any frames. *)
Theorem upscale_width : forall E m s N h p images l,
  client_ok E (s * N) h p -> zlen images <= 2^53 -> used_method m = Msign -> used_filter p = 0 ->
  used_range (e_cfg E) m p < N < s * N - used_range (e_cfg E) m p -> 1 <= h ->
  (forall image, In image images -> exists g,
     signs_exact_x (s * N) h N (used_range (e_cfg E) m p) (plane E (s * N) h image) (widened s g)) ->
  reported E m (s * N) h p images (seen_x E (s * N) h images) (s * N) l ->
  In (mkRes N (f32_of_Z 1)) l.
Proof. exact upscale_width_claim. Qed.
Print Assumptions upscale_width.

(** C30.  The same of the height. *)
Theorem upscale_height : forall E m s N w p images l,
  client_ok E w (s * N) p -> zlen images <= 2^53 -> used_method m = Msign -> used_filter p = 0 ->
  used_range (e_cfg E) m p < N < s * N - used_range (e_cfg E) m p -> 1 <= w ->
  (forall image, In image images -> exists g,
     signs_exact_y w (s * N) N (used_range (e_cfg E) m p) (plane E w (s * N) image) (heightened s g)) ->
  reported E m w (s * N) p images (seen_y E w (s * N) images) (s * N) l ->
  In (mkRes N (f32_of_Z 1)) l.
Proof. exact upscale_height_claim. Qed.
Print Assumptions upscale_height.

Example upscale_width_witness :
  client_ok demo_env (2 * 2) 1 upscale_params /\ used_filter upscale_params = 0 /\
  used_range (e_cfg demo_env) None upscale_params = 1 /\
  signs_exact_x (2 * 2) 1 2 1 (plane demo_env (2 * 2) 1 upscale_image) (widened 2 upscale_source) /\
  exists l l', reported demo_env None (2 * 2) 1 upscale_params [upscale_image] (seen_x demo_env (2 * 2) 1 [upscale_image]) (2 * 2) l /\
    reported demo_env None (2 * 2) 1 upscale_params [upscale_image] (seen_y demo_env (2 * 2) 1 [upscale_image]) 1 l'.
Proof. exact upscale_width_example. Qed.
