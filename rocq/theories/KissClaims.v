(** @header
    Properties C25-C30: the KISS FFT transform. *)
From Coq Require Import Reals Znumtheory Permutation Lra Lia.
From Flocq Require Import Core IEEE754.Binary.
From Verif Require Import Base Flt Util Methods Analysis History Kiss Spec SpecAnalysis SpecUtil SpecReport SpecTransform.
From Verif Require Import BaseProofs FltProofs WorldProofs AnalysisProofs ResultsProofs ClientProofs CompareProofs.
From Verif Require Import KissProofs KissFactor KissTransform KissExact UpscaleProofs UpscaleDetect Demo AnalysisClaims.
Open Scope list_scope.
Open Scope Z_scope.

(** C25.  Factoring finishes for every size and yields a factor table (each entry a
    radix with the remaining length beside it) that fits the 64 entries of the C
    array; the radices are 4 or prime. *)
Lemma factor_table_claim : forall n, 1 <= n <= INT_MAX - 2 ->
  exists l, kf_factor n = Ok l /\ factor_table n l /\ zlen l <= 2 * MAXFACTORS /\
    fold_right Z.mul 1 (radices_of l) = n /\ (1 < n -> Forall (fun p => p = 4 \/ prime p) (radices_of l)).
Proof.
  intros n Hn. destruct (kf_factor_ok n Hn) as (l & E & _ & L & P & G & T).
  exists l. split; [exact E|]. split; [exact T|]. split; [change (2 * MAXFACTORS) with 64; lia|]. split; [exact P|exact G].
Qed.

Example factor_table_example : kf_factor 2520 = Ok [4; 630; 2; 315; 3; 105; 3; 35; 5; 7; 7; 1] /\ kf_factor 1 = Ok [1; 1].
Proof. split; vm_compute; reflexivity. Qed.

(** C26.  In exact arithmetic kiss_fft computes the discrete Fourier transform, for
    every size; whatever the output buffer held before. *)
Lemma fft_is_dft_claim : forall al n fin fout wd,
  1 <= n <= INT_MAX / 3 -> n <= zlen fin -> zlen fout = n -> (forall k, al k = true) ->
  exists st out wd', kiss_fft_alloc exact_ops n = Ok st /\
    kiss_fft exact_ops al st fin fout wd = Ok (out, wd') /\ owns wd' wd [] /\ zlen out = n /\
    forall k, 0 <= k < n -> at_ (0, 0)%R out k = dft n (at_ (0, 0)%R fin) k.
Proof.
  intros al n fin fout wd Hn Li Lo Hal.
  destruct (kiss_fft_alloc_ok exact_ops n Hn) as (st & E & S).
  destruct (kiss_fft_ok exact_ops al n st fin fout wd Hn S Li Lo) as (out & wd' & E2 & O & L & V).
  exists st, out, wd'. split; [exact E|]. split; [exact E2|]. split; [exact O|]. split; [exact L|].
  intros k Hk. etransitivity; [exact (V Hal k Hk)|]. apply fft_exact; [exact S|lia|exact Hk].
Qed.

Example fft_is_dft_example : exists st out wd', kiss_fft_alloc exact_ops 2 = Ok st /\
  kiss_fft exact_ops (fun _ => true) st [(3, 1); (1, 2)]%R [(7, 7); (7, 7)]%R world0 = Ok (out, wd') /\
  at_ (0, 0)%R out 0 = (4, 3)%R /\ at_ (0, 0)%R out 1 = (2, -1)%R.
Proof.
  destruct (fft_is_dft_claim (fun _ => true) 2 [(3, 1); (1, 2)]%R [(7, 7); (7, 7)]%R world0
    ltac:(vm_compute; intuition discriminate) ltac:(vm_compute; discriminate) eq_refl (fun _ => eq_refl)) as (st & out & wd' & A & B & _ & _ & V).
  exists st, out, wd'. split; [exact A|]. split; [exact B|].
  rewrite !V by lia. unfold dft, csum. change (zrange 0 2) with [0; 1]. cbn [fold_right].
  change (at_ (0, 0)%R [(3, 1); (1, 2)]%R 0) with (3, 1)%R. change (at_ (0, 0)%R [(3, 1); (1, 2)]%R 1) with (1, 2)%R.
  change (0 * 0) with 0. change (1 * 0) with 0. change (0 * 1) with 0. change (1 * 1) with 1.
  replace (- (2 * PI * 0 / 2))%R with 0%R by field. replace (- (2 * PI * 1 / 2))%R with (- PI)%R by field.
  unfold cis. rewrite cos_0, sin_0, cos_neg, sin_neg, cos_PI, sin_PI.
  split; apply injective_projections; cbn [fst snd cadd cmul]; lra.
Qed.

(** C26, finding: when the scratch buffer of a radix above 5 cannot be allocated, the
    butterfly is left out silently and the outputs are wrong.  Size 7, input 1 0 0 ... *)
Lemma fft_out_of_memory_refuted_claim : exists al n fin fout st out,
  1 <= n <= INT_MAX / 3 /\ n <= zlen fin /\ zlen fout = n /\ kiss_fft_alloc exact_ops n = Ok st /\
  kiss_fft exact_ops al st fin fout world0 = Ok (out, mkWorld 1 [] 0 []) /\
  exists k, 0 <= k < n /\ at_ (0, 0)%R out k <> dft n (at_ (0, 0)%R fin) k.
Proof.
  set (x := [(1, 0); (0, 0); (0, 0); (0, 0); (0, 0); (0, 0); (0, 0)]%R).
  destruct (kiss_fft_alloc_ok exact_ops 7) as (st & E & S); [vm_compute; intuition discriminate|].
  assert (F : ft_factors st = [7; 1] /\ ft_nfft st = 7).
  { unfold kiss_fft_alloc in E. destruct (cint (7 - 1)); [|discriminate]. cbn [bind] in E.
    destruct (fill_table _ _ _ _) as [t|]; [|discriminate]. cbn [bind] in E.
    change (kf_factor 7) with (Ok [7; 1]) in E. cbn [bind] in E. inversion E. split; reflexivity. }
  destruct F as (F & N).
  exists (fun _ => false), 7, x, x, st, x. split; [vm_compute; intuition discriminate|]. split; [vm_compute; discriminate|].
  split; [reflexivity|]. split; [exact E|]. split.
  - unfold kiss_fft. rewrite F, N. reflexivity.
  - exists 1. split; [lia|]. unfold dft, csum. change (zrange 0 7) with [0; 1; 2; 3; 4; 5; 6]. cbn [fold_right].
    change (at_ (0, 0)%R x 0) with (1, 0)%R. change (at_ (0, 0)%R x 1) with (0, 0)%R.
    change (at_ (0, 0)%R x 2) with (0, 0)%R. change (at_ (0, 0)%R x 3) with (0, 0)%R.
    change (at_ (0, 0)%R x 4) with (0, 0)%R. change (at_ (0, 0)%R x 5) with (0, 0)%R.
    change (at_ (0, 0)%R x 6) with (0, 0)%R.
    intros X. apply (f_equal fst) in X. cbn [fst snd cadd cmul cis] in X.
    change (0 * 1) with 0 in X.
    replace (- (2 * PI * 0 / 7))%R with 0%R in X by field. rewrite cos_0 in X. lra.
Qed.

(** C27.  In exact arithmetic kiss_fftr computes outputs 0..n of the discrete Fourier
    transform of 2n real samples. *)
Lemma real_fft_is_dft_claim : forall al n time tmp freq wd,
  1 <= n <= INT_MAX / 3 -> zlen time = 2 * n -> zlen tmp = n -> n + 1 <= zlen freq -> (forall k, al k = true) ->
  exists st freq' tmp' wd', kiss_fftr_alloc exact_ops (2 * n) = Ok (Some st) /\
    kiss_fftr exact_ops al st time tmp freq wd = Ok (freq', tmp', wd') /\ owns wd' wd [] /\ zlen freq' = zlen freq /\
    forall k, 0 <= k <= n -> at_ (0, 0)%R freq' k = dft (2 * n) (fun j => (at_ 0%R time j, 0%R)) k.
Proof.
  intros al n time tmp freq wd Hn Lt Lm Lf Hal.
  destruct (kiss_fftr_alloc_ok exact_ops n Hn) as (st & E & S).
  destruct (kiss_fftr_ok exact_ops al n n st time tmp freq wd Hn S Lt ltac:(lia) Lm Lf) as (f' & t' & wd' & E2 & O & L & _ & V).
  exists st, f', t', wd'. split; [rewrite Z.mul_comm; exact E|]. split; [exact E2|]. split; [exact O|]. split; [exact L|].
  intros k Hk. etransitivity; [exact (V Hal k Hk)|]. apply real_fft_exact; [exact S|lia|exact Hk].
Qed.

Example real_fft_is_dft_example : exists st freq' tmp' wd', kiss_fftr_alloc exact_ops 2 = Ok (Some st) /\
  kiss_fftr exact_ops (fun _ => true) st [3; 1]%R [(7, 7)]%R [(7, 7); (7, 7)]%R world0 = Ok (freq', tmp', wd') /\
  at_ (0, 0)%R freq' 0 = (4, 0)%R /\ at_ (0, 0)%R freq' 1 = (2, 0)%R.
Proof.
  destruct (real_fft_is_dft_claim (fun _ => true) 1 [3; 1]%R [(7, 7)]%R [(7, 7); (7, 7)]%R world0
    ltac:(vm_compute; intuition discriminate) eq_refl eq_refl ltac:(vm_compute; discriminate) (fun _ => eq_refl)) as (st & out & t' & wd' & A & B & _ & _ & V).
  exists st, out, t', wd'. split; [exact A|]. split; [exact B|].
  rewrite !V by lia. unfold dft, csum. change (zrange 0 (2 * 1)) with [0; 1]. cbn [fold_right].
  change (at_ 0%R [3; 1]%R 0) with 3%R. change (at_ 0%R [3; 1]%R 1) with 1%R.
  change (0 * 0) with 0. change (1 * 0) with 0. change (0 * 1) with 0. change (1 * 1) with 1. change (2 * 1) with 2.
  replace (- (2 * PI * 0 / 2))%R with 0%R by field. replace (- (2 * PI * 1 / 2))%R with (- PI)%R by field.
  unfold cis. rewrite cos_0, sin_0, cos_neg, sin_neg, cos_PI, sin_PI.
  split; apply injective_projections; cbn [fst snd cadd cmul]; lra.
Qed.

(** C28.  In exact arithmetic the KISS backend maps an image to its unnormalised
    two-dimensional DCT-II (FFTW's REDFT10 in both dimensions), whatever the working
    memory held. *)
Lemma transform_is_dct_claim : forall al w h f mirror F tmp0 tmp1 wd,
  1 <= w <= INT_MAX / 3 -> 1 <= h <= INT_MAX / 3 -> zlen f = w * h ->
  zlen mirror = 2 * Z.max w h -> zlen F = Z.max w h + 1 -> zlen tmp0 = w -> zlen tmp1 = h -> (forall k, al k = true) ->
  exists f' wd', kiss_transform exact_ops al w h f mirror F tmp0 tmp1 wd = Ok (f', wd') /\ zlen f' = w * h /\
    forall y x, 0 <= y < h -> 0 <= x < w ->
      at_ 0%R f' (y * w + x) = dct_2d w h (fun y x => at_ 0%R f (y * w + x)) y x.
Proof.
  intros al w h f mirror F tmp0 tmp1 wd Hw Hh Lf Lm LF L0 L1 Hal.
  destruct (kiss_transform_ok exact_ops al w h f mirror F tmp0 tmp1 wd Hw Hh Lf Lm LF L0 L1)
    as (f' & wd' & E & O & L & d0 & d1 & _ & _ & D0 & D1 & V).
  exists f', wd'. split; [exact E|]. split; [exact L|]. intros y x Hy Hx.
  etransitivity; [exact (V Hal y x Hy Hx)|]. rewrite <- dct_dct by lia.
  etransitivity; [apply dct_val_exact; [exact D1|lia|exact Hy]|].
  apply dct_ext. intros y' Hy'. apply dct_val_exact; [exact D0|lia|exact Hx].
Qed.

Example transform_is_dct_example : exists f' wd',
  kiss_transform exact_ops (fun _ => true) 2 1 [3; 5]%R [7; 7; 7; 7]%R [(7, 7); (7, 7); (7, 7)]%R [(7, 7); (7, 7)]%R [(7, 7)]%R world0
  = Ok (f', wd') /\ at_ 0%R f' 0 = 32%R.
Proof.
  destruct (transform_is_dct_claim (fun _ => true) 2 1 [3; 5]%R [7; 7; 7; 7]%R [(7, 7); (7, 7); (7, 7)]%R [(7, 7); (7, 7)]%R [(7, 7)]%R world0
    ltac:(vm_compute; intuition discriminate) ltac:(vm_compute; intuition discriminate) eq_refl eq_refl eq_refl eq_refl eq_refl (fun _ => eq_refl))
    as (f' & wd' & A & _ & V).
  exists f', wd'. split; [exact A|]. specialize (V 0 0 ltac:(lia) ltac:(lia)). change (0 * 2 + 0) with 0 in V.
  etransitivity; [exact V|]. unfold dct_2d, rsum. change (zrange 0 1) with [0]. change (zrange 0 2) with [0; 1]. cbn [fold_right].
  change (at_ 0%R [3; 5]%R (0 * 2 + 0)) with 3%R. change (at_ 0%R [3; 5]%R (0 * 2 + 1)) with 5%R.
  replace (PI * 0 * (0 + 1 / 2) / 1)%R with 0%R by field. replace (PI * 0 * (0 + 1 / 2) / 2)%R with 0%R by field.
  replace (PI * 0 * (1 + 1 / 2) / 2)%R with 0%R by field. rewrite cos_0. lra.
Qed.

(** C29.  With any arithmetic, any tables, any allocation failures and any prior
    contents of the working memory the KISS transform of an accepted size stays inside
    its buffers, overflows no int, and releases what it allocated. *)
Lemma transform_safe_claim : forall T (K : ops T) al w h f mirror F tmp0 tmp1 wd,
  1 <= w <= INT_MAX / 3 -> 1 <= h <= INT_MAX / 3 -> zlen f = w * h ->
  zlen mirror = 2 * Z.max w h -> zlen F = Z.max w h + 1 -> zlen tmp0 = w -> zlen tmp1 = h ->
  exists f' wd', kiss_transform K al w h f mirror F tmp0 tmp1 wd = Ok (f', wd') /\ owns wd' wd [] /\ zlen f' = w * h.
Proof.
  intros T K al w h f mirror F tmp0 tmp1 wd Hw Hh Lf Lm LF L0 L1.
  destruct (kiss_transform_ok K al w h f mirror F tmp0 tmp1 wd Hw Hh Lf Lm LF L0 L1) as (f' & wd' & E & O & L & _).
  exists f', wd'. auto.
Qed.

(** C29.  While memory lasts the result is a function of the image alone. *)
Lemma transform_deterministic_claim : forall T (K : ops T) al al' w h f mirror F tmp0 tmp1 mirror' F' tmp0' tmp1' wd wd',
  1 <= w <= INT_MAX / 3 -> 1 <= h <= INT_MAX / 3 -> zlen f = w * h ->
  zlen mirror = 2 * Z.max w h -> zlen F = Z.max w h + 1 -> zlen tmp0 = w -> zlen tmp1 = h ->
  zlen mirror' = 2 * Z.max w h -> zlen F' = Z.max w h + 1 -> zlen tmp0' = w -> zlen tmp1' = h ->
  (forall k, al k = true) -> (forall k, al' k = true) ->
  exists f1 w1 w2, kiss_transform K al w h f mirror F tmp0 tmp1 wd = Ok (f1, w1) /\
                   kiss_transform K al' w h f mirror' F' tmp0' tmp1' wd' = Ok (f1, w2).
Proof.
  intros T K al al' w h f mirror F tmp0 tmp1 mirror' F' tmp0' tmp1' wd wd' Hw Hh Lf Lm LF L0 L1 Lm' LF' L0' L1' A A'.
  destruct (kiss_transform_ok K al w h f mirror F tmp0 tmp1 wd Hw Hh Lf Lm LF L0 L1)
    as (f1 & w1 & E & _ & L & d0 & d1 & M0 & M1 & _ & _ & V).
  destruct (kiss_transform_ok K al' w h f mirror' F' tmp0' tmp1' wd' Hw Hh Lf Lm' LF' L0' L1')
    as (f2 & w2 & E2 & _ & L2 & d0' & d1' & M0' & M1' & _ & _ & V').
  rewrite M0 in M0'. inversion M0'; subst d0'. rewrite M1 in M1'. inversion M1'; subst d1'.
  assert (f1 = f2).
  { apply (list_ext_at (o_zero K)); [unfold zlen in *; lia|]. intros k Hk. rewrite L in Hk.
    assert (DV : k = k / w * w + k mod w) by (pose proof (Z.div_mod k w ltac:(lia)); lia).
    pose proof (Z.mod_pos_bound k w ltac:(lia)).
    assert (0 <= k / w < h) by (split; [apply Z.div_pos; lia|apply Z.div_lt_upper_bound; lia]).
    rewrite DV. rewrite (V A), (V' A') by assumption. reflexivity. }
  subst f2. exists f1, w1, w2. split; assumption.
Qed.

(** C29.  With C floats: the KISS backend meets what the theorems on analyses ask of
    the transform, for any contents of the trigonometric tables. *)
Lemma kiss_env_claim : forall E twiddle super shift m F t,
  env_ok E -> env_ok (kiss_env (e_cfg E) (e_alloc E) (float_ops twiddle super shift) (e_qsort E) m F t).
Proof.
  intros E twiddle super shift m F t HE. constructor; cbn [kiss_env e_cfg e_transform e_qsort].
  - apply (eo_config _ HE).
  - intros w h v L. destruct (_ && _) eqn:B; [|exact L].
    assert (1 <= w <= INT_MAX / 3 /\ 1 <= h <= INT_MAX / 3) as (Hw & Hh) by (rewrite !andb_true_iff in B; lia).
    destruct (kiss_transform_ok (float_ops twiddle super shift) (fun _ => true) w h v (repeat m (Z.to_nat (2 * Z.max w h)))
      (repeat F (Z.to_nat (Z.max w h + 1))) (repeat t (Z.to_nat w)) (repeat t (Z.to_nat h)) world0 Hw Hh L) as (f' & wd' & -> & _ & L' & _).
    1-4: unfold zlen; rewrite repeat_length; lia.
    exact L'.
  - apply (eo_qsort _ HE).
Qed.

(** ... a 3x2 image (radix 3 and 2) goes through *)
Example transform_example :
  match kiss_transform (float_ops (fun _ _ => (f0, f0)) (fun _ _ => (f0, f0)) (fun _ _ => (f32_of_Z 1, f0)))
     (fun _ => true) 3 2 (map f32_of_Z [1; 2; 3; 4; 5; 6])
          (repeat f0 6) (repeat (f0, f0) 4) (repeat (f0, f0) 3) (repeat (f0, f0) 2) world0 with
  | Ok (v, wd) => zlen v = 6 /\ fgt (at_ f0 v 0) f0 = true /\ wd = world0
  | Undef _ => False
  end.
Proof. vm_compute. repeat split. Qed.

(** C30.  In exact arithmetic: coefficients of an image whose columns (rows) were
    repeated s times, mirrored around the original width (height), have opposite signs. *)
Lemma upscale_signs_claim : forall s n g,
  1 <= s -> 1 <= n ->
  (forall h row i, 1 <= h -> 0 <= i < n -> exists c, (0 < c)%R /\
     dct_2d (s * n) h (widened s g) row (n + i) = (- c * dct_2d (s * n) h (widened s g) row (n - i))%R) /\
  (forall w i col, 1 <= w -> 0 <= i < n -> exists c, (0 < c)%R /\
     dct_2d w (s * n) (heightened s g) (n + i) col = (- c * dct_2d w (s * n) (heightened s g) (n - i) col)%R).
Proof.
  intros s n g Hs Hn. split; intros.
  - apply widened_mirror; assumption.
  - apply heightened_mirror; assumption.
Qed.

(** C30.  Nearest-neighbour upscales are detected with confidence 1: every image is the
    s-fold widening of some image, and the computed coefficients around N have the
    signs of the exact ones (none being zero).  Any transform, any frames. *)
Lemma upscale_width_claim : forall E m s N h p images l,
  client_ok E (s * N) h p -> zlen images <= 2^53 -> used_method m = Msign -> used_filter p = 0 ->
  used_range (e_cfg E) m p < N < s * N - used_range (e_cfg E) m p -> 1 <= h ->
  (forall image, In image images -> exists g,
     signs_exact_x (s * N) h N (used_range (e_cfg E) m p) (plane E (s * N) h image) (widened s g)) ->
  reported E m (s * N) h p images (seen_x E (s * N) h images) (s * N) l ->
  In (mkRes N (f32_of_Z 1)) l.
Proof.
  intros E m s N h p imgs l HC HN HM HF HR Hh HI R.
  pose proof (used_range_pos E (s * N) h m p HC) as RP.
  eapply all_inverted_reported; try eassumption; [lia|].
  intros D I y i Hy Hi. apply in_map_iff in I. destruct I as (im & <- & I). cbn [dim_x d_coef d_lines] in *.
  destruct (HI im I) as (g & G). destruct (G y i Hy Hi) as (A & B).
  destruct (widened_mirror s N h g y i) as (c & C & EQ); try nia.
  eapply opposite_signs; eassumption.
Qed.

(** C30.  The same of the height. *)
Lemma upscale_height_claim : forall E m s N w p images l,
  client_ok E w (s * N) p -> zlen images <= 2^53 -> used_method m = Msign -> used_filter p = 0 ->
  used_range (e_cfg E) m p < N < s * N - used_range (e_cfg E) m p -> 1 <= w ->
  (forall image, In image images -> exists g,
     signs_exact_y w (s * N) N (used_range (e_cfg E) m p) (plane E w (s * N) image) (heightened s g)) ->
  reported E m w (s * N) p images (seen_y E w (s * N) images) (s * N) l ->
  In (mkRes N (f32_of_Z 1)) l.
Proof.
  intros E m s N w p imgs l HC HN HM HF HR Hw HI R.
  pose proof (used_range_pos E w (s * N) m p HC) as RP.
  eapply all_inverted_reported; try eassumption; [lia|].
  intros D I x i Hx Hi. apply in_map_iff in I. destruct I as (im & <- & I). cbn [dim_y d_coef d_lines] in *.
  destruct (HI im I) as (g & G). destruct (G x i Hx Hi) as (A & B).
  destruct (heightened_mirror s N w g i x) as (c & C & EQ); try nia.
  eapply opposite_signs; eassumption.
Qed.

(** A concrete case: the 2x1 image 1 0 widened to 4x1; the coefficients handed in are 5 1 0 -1. *)
Definition upscale_params : option params :=
  snd (set_all (Some (default_params default_config)) [Range 1]).
Definition upscale_image : list f32 := map f32_of_Z [5; 1; 0] ++ [fopp (f32_of_Z 1)].
Definition upscale_source (y x : Z) : R := if x =? 0 then 1%R else 0%R.

Lemma upscale_coefficient : (0 < dct_2d (2 * 2) 1 (widened 2 upscale_source) 0 1)%R.
Proof.
  unfold dct_2d, rsum. change (zrange 0 1) with [0]. change (zrange 0 (2 * 2)) with [0; 1; 2; 3]. cbn [fold_right].
  change (widened 2 upscale_source 0 0) with 1%R. change (widened 2 upscale_source 0 1) with 1%R.
  change (widened 2 upscale_source 0 2) with 0%R. change (widened 2 upscale_source 0 3) with 0%R.
  replace (PI * 0 * (0 + 1 / 2) / 1)%R with 0%R by field. rewrite cos_0.
  change (IZR (2 * 2)) with 4%R. pose proof PI_RGT_0.
  pose proof (cos_gt_0 (PI * 1 * (0 + 1 / 2) / 4) ltac:(lra) ltac:(lra)).
  pose proof (cos_gt_0 (PI * 1 * (1 + 1 / 2) / 4) ltac:(lra) ltac:(lra)). lra.
Qed.

Lemma upscale_agrees a k : ffinite a = true -> (0 < B2R 24 128 a * k)%R -> agrees a k.
Proof. intros; split; assumption. Qed.

Example upscale_width_example :
  client_ok demo_env (2 * 2) 1 upscale_params /\ used_filter upscale_params = 0 /\
  used_range (e_cfg demo_env) None upscale_params = 1 /\
  signs_exact_x (2 * 2) 1 2 1 (plane demo_env (2 * 2) 1 upscale_image) (widened 2 upscale_source) /\
  exists l l', reported demo_env None (2 * 2) 1 upscale_params [upscale_image] (seen_x demo_env (2 * 2) 1 [upscale_image]) (2 * 2) l /\
    reported demo_env None (2 * 2) 1 upscale_params [upscale_image] (seen_y demo_env (2 * 2) 1 [upscale_image]) 1 l'.
Proof.
  assert (HC : client_ok demo_env (2 * 2) 1 upscale_params).
  { split; [exact demo_env_ok|]. split; [lia|]. split; [lia|]. right. exists [Range 1], [RDEOK].
    split; [repeat constructor; simpl; lia|reflexivity]. }
  split; [exact HC|]. split; [reflexivity|]. split; [reflexivity|]. split.
  - intros y i Hy Hi. assert (y = 0) by lia. assert (i = 1) by lia. subst y i.
    destruct (widened_mirror 2 2 1 upscale_source 0 1) as (c & C & EQ); try lia.
    pose proof upscale_coefficient as P. change (2 + 1) with 3 in *. change (2 - 1) with 1 in *.
    destruct (f32_of_Z_exact 1 ltac:(lia)) as (F1 & _ & V1).
    assert (VM : ffinite (fopp (f32_of_Z 1)) = true /\ B2R 24 128 (fopp (f32_of_Z 1)) = (-1)%R).
    { unfold ffinite, fopp, Bits.b32_opp. rewrite is_finite_Bopp, B2R_Bopp. split; [exact F1|].
      replace (B2R 24 128 (f32_of_Z 1)) with 1%R by (symmetry; exact V1). reflexivity. }
    destruct VM as (FM & VM).
    split; apply upscale_agrees.
    + exact F1.
    + change (at_ f0 (plane demo_env (2 * 2) 1 upscale_image) (0 * (2 * 2) + 1)) with (f32_of_Z 1).
      replace (B2R 24 128 (f32_of_Z 1)) with 1%R by (symmetry; exact V1). lra.
    + exact FM.
    + change (at_ f0 (plane demo_env (2 * 2) 1 upscale_image) (0 * (2 * 2) + 3)) with (fopp (f32_of_Z 1)).
      rewrite VM, EQ. nra.
  - apply reported_all; [exact HC|reflexivity| | |unfold countable; simpl; lia|discriminate].
    + unfold plan_fits. vm_compute. intuition discriminate.
    + constructor; [|constructor]. split; [|vm_compute; discriminate].
      apply valid_forallb. vm_compute. reflexivity.
Qed.
