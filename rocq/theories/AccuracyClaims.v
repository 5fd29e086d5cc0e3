(** @header
    Properties C73-C74: rounding errors of the KISS transform. *)
From Coq Require Import Reals Lra Lia Psatz.
From Flocq Require Import Core IEEE754.Binary.
From Verif Require Import Base Flt Util Methods Analysis History Kiss Spec SpecAnalysis SpecUtil SpecReport SpecTransform SpecAccuracy.
From Verif Require Import BaseProofs FltProofs RoundProofs WorldProofs AnalysisProofs ResultsProofs ClientProofs CompareProofs.
From Verif Require Import KissProofs KissFactor KissTransform KissExact KissAccuracy AccuracyProofs AccuracyTables UpscaleProofs UpscaleDetect Demo AnalysisClaims KissClaims.
Open Scope list_scope.
Open Scope Z_scope.

(** C73.  In C floats, with trigonometric tables good to 2^-24: every coefficient of an
    image of up to 2^20 by 2^20 samples of magnitude at most M is finite and differs
    from that of the exact transform by at most the stated bound, which depends on the
    sizes, their radices and M only. *)
Lemma transform_accuracy_claim : forall twiddle super shift al w h f mirror F tmp0 tmp1 wd M lw lh,
  (forall k, al k = true) -> 1 <= w <= 2^20 -> 1 <= h <= 2^20 ->
  tables_close twiddle super shift w -> tables_close twiddle super shift h ->
  zlen f = w * h -> zlen mirror = 2 * Z.max w h -> zlen F = Z.max w h + 1 -> zlen tmp0 = w -> zlen tmp1 = h ->
  (1 <= M <= 1048576)%R ->
  (forall i, 0 <= i < w * h -> ffinite (at_ f0 f i) = true /\ (Rabs (B2R 24 128 (at_ f0 f i)) <= M)%R) ->
  kf_factor w = Ok lw -> kf_factor h = Ok lh ->
  exists f' wd', kiss_transform (float_ops twiddle super shift) al w h f mirror F tmp0 tmp1 wd = Ok (f', wd') /\
    forall y x, 0 <= y < h -> 0 <= x < w ->
      ffinite (at_ f0 f' (y * w + x)) = true /\
      (Rabs (B2R 24 128 (at_ f0 f' (y * w + x)) - dct_2d w h (fun y x => B2R 24 128 (at_ f0 f (y * w + x)%Z)) y x)
         <= coefficient_error w h (radices_of lw) (radices_of lh) M)%R.
Proof.
  intros twiddle super shift al w h f mirror F tmp0 tmp1 wd M lw lh Hal Hw Hh Tw Th L1 L2 L3 L4 L5 HM Hf Ew Eh.
  destruct (transform_near twiddle super shift al w h f mirror F tmp0 tmp1 wd M lw lh Hal Hw Hh Tw Th L1 L2 L3 L4 L5 HM Hf Ew Eh)
    as (f' & wd' & E & _ & H).
  exists f', wd'. split; [exact E|exact H].
Qed.

Definition six_samples : list f32 := map f32_of_Z [1; 2; 3; 4; 5; 6].
(** ... tables with the floats nearest to each sine and cosine qualify; a 3x2 image of
    samples 1 to 6 has errors of at most 1/400, one of 1920x1080 samples of magnitude
    at most 1 errors of at most 0.0072 % of 4 w h *)
Example transform_accuracy_example :
  (exists twiddle super shift, forall n, 1 <= n -> tables_close twiddle super shift n) /\
  (forall i, 0 <= i < 3 * 2 -> ffinite (at_ f0 six_samples i) = true /\
     (Rabs (B2R 24 128 (at_ f0 six_samples i)) <= 6)%R) /\
  kf_factor 3 = Ok [3; 1] /\ kf_factor 2 = Ok [2; 1] /\ (coefficient_error 3 2 [3]%Z [2]%Z 6 <= 1 / 400)%R /\
  kf_factor 1920 = Ok [4; 480; 4; 120; 4; 30; 2; 15; 3; 5; 5; 1] /\ kf_factor 1080 = Ok [4; 270; 2; 135; 3; 45; 3; 15; 3; 5; 5; 1] /\
  (coefficient_error 1920 1080 [4; 4; 4; 2; 3; 5]%Z [4; 2; 3; 3; 3; 5]%Z 1 <= 4 * 1920 * 1080 * (72 / 1000000))%R.
Proof.
  split; [exact tables_exist|]. split.
  { intros i Hi. assert (C : i = 0 \/ i = 1 \/ i = 2 \/ i = 3 \/ i = 4 \/ i = 5) by lia.
    assert (G : forall z, 1 <= z <= 6 -> ffinite (f32_of_Z z) = true /\ (Rabs (B2R 24 128 (f32_of_Z z)) <= 6)%R).
    { intros z Hz. destruct (f32_of_Z_exact z ltac:(lia)) as (F1 & _ & V1). split; [exact F1|]. rewrite V1.
      rewrite Rabs_pos_eq; [apply (IZR_le _ 6)|apply (IZR_le 0)]; lia. }
    destruct C as [->|[->|[->|[->|[->| ->]]]]]; apply G; lia. }
  split; [reflexivity|]. split; [reflexivity|]. split.
  { unfold coefficient_error, loss, passes, pass_error. cbn. lra. }
  split; [vm_compute; reflexivity|]. split; [vm_compute; reflexivity|].
  unfold coefficient_error, loss, passes, pass_error. cbn. lra.
Qed.

(** the 2x1 image 1 0 widened to 4x1 *)
Definition accuracy_image : list f32 := map f32_of_Z [1; 1; 0; 0].
Lemma accuracy_holds : has_samples 4 1 accuracy_image (widened 2 upscale_source) 1.
Proof.
  split; [reflexivity|]. intros y x Hy Hx. assert (y = 0) by lia. subst y.
  destruct (f32_of_Z_exact 1 ltac:(lia)) as (F1 & _ & V1). destruct (f32_of_Z_exact 0 ltac:(lia)) as (F0 & _ & V0).
  assert (C : x = 0 \/ x = 1 \/ x = 2 \/ x = 3) by lia. destruct C as [->|[->|[->| ->]]]; cbn [Z.mul Z.add];
  (split; [assumption|]); (split; [assumption|]); cbn; first [rewrite Rabs_R1|rewrite Rabs_R0]; lra.
Qed.
Lemma demo_large :
  (1/2 < Rabs (dct_2d 4 1 (widened 2 upscale_source) 0 1))%R /\
  (1/2 < Rabs (dct_2d 4 1 (widened 2 upscale_source) 0 3))%R.
Proof.
  assert (D : forall k, dct_2d 4 1 (widened 2 upscale_source) 0 k = (4 * (cos (PI * IZR k / 8) + cos (3 * (PI * IZR k / 8))))%R).
  { intros k. unfold dct_2d, rsum. change (zrange 0 1) with [0]. change (zrange 0 4) with [0; 1; 2; 3]. cbn [fold_right].
    change (widened 2 upscale_source 0 0) with 1%R. change (widened 2 upscale_source 0 1) with 1%R.
    change (widened 2 upscale_source 0 2) with 0%R. change (widened 2 upscale_source 0 3) with 0%R.
    replace (PI * 0 * (0 + 1 / 2) / 1)%R with 0%R by field. rewrite cos_0.
    replace (PI * IZR k * (0 + 1 / 2) / 4)%R with (PI * IZR k / 8)%R by field.
    replace (PI * IZR k * (1 + 1 / 2) / 4)%R with (3 * (PI * IZR k / 8))%R by field. ring. }
  rewrite !D. clear D.
  set (t := (PI / 8)%R).
  replace (PI * 1 / 8)%R with t by (unfold t; field). replace (PI * 3 / 8)%R with (3 * t)%R by (unfold t; field).
  assert (S3 : cos (3 * t) = sin t) by (replace (3 * t)%R with (PI / 2 - t)%R by (unfold t; field); apply cos_shift).
  assert (S9 : cos (3 * (3 * t)) = (- cos t)%R) by (replace (3 * (3 * t))%R with (t + PI)%R by (unfold t; field); apply neg_cos).
  rewrite S9, S3.
  assert (Q : (cos t * cos t + sin t * sin t = 1)%R) by (pose proof (sin2_cos2 t) as Q; unfold Rsqr in Q; lra).
  assert (P2 : (2 * sin t * cos t = sqrt 2 / 2)%R).
  { rewrite <- sin_2a. replace (2 * t)%R with (PI / 4)%R by (unfold t; field). rewrite sin_PI4. pose proof (sqrt_sqrt 2 ltac:(lra)) as H. pose proof sqrt2_neq_0 as NZ.
    replace (1 / sqrt 2)%R with (sqrt 2 * sqrt 2 / 2 / sqrt 2)%R by (rewrite H; field; exact NZ). field. exact NZ. }
  assert (SQ : (1 <= sqrt 2 <= 15/10)%R).
  { pose proof (sqrt_sqrt 2 ltac:(lra)). pose proof (sqrt_pos 2). split; nra. }
  set (a := cos t) in *. set (b := sin t) in *.
  split.
  - assert (H : (1 <= (a + b) * (a + b))%R) by nra. unfold Rabs. destruct (Rcase_abs _); nra.
  - assert (H : (1/4 <= (b - a) * (b - a))%R) by nra. unfold Rabs. destruct (Rcase_abs _); nra.
Qed.
Lemma accuracy_above :
  (coefficient_error 4 1 [4]%Z [1]%Z 1 < Rabs (dct_2d 4 1 (widened 2 upscale_source) 0 1))%R /\
  (coefficient_error 4 1 [4]%Z [1]%Z 1 < Rabs (dct_2d 4 1 (widened 2 upscale_source) 0 3))%R.
Proof.
  assert (CE : (coefficient_error 4 1 [4]%Z [1]%Z 1 < 1/2)%R) by (unfold coefficient_error, loss, passes, pass_error; cbn; lra).
  destruct demo_large as (A & B). split; lra.
Qed.

(** the coefficients of an image in the environment with the KISS transform *)
Lemma kiss_plane_close E twiddle super shift m F t w h image g M lw lh :
  1 <= w <= 2^20 -> 1 <= h <= 2^20 ->
  tables_close twiddle super shift w -> tables_close twiddle super shift h ->
  (1 <= M <= 1048576)%R -> kf_factor w = Ok lw -> kf_factor h = Ok lh -> has_samples w h image g M ->
  forall y x, 0 <= y < h -> 0 <= x < w ->
    let v := at_ f0 (plane (kiss_env (e_cfg E) (e_alloc E) (float_ops twiddle super shift) (e_qsort E) m F t) w h image) (y * w + x) in
    ffinite v = true /\ (Rabs (B2R 24 128 v - dct_2d w h g y x) <= coefficient_error w h (radices_of lw) (radices_of lh) M)%R.
Proof.
  intros Hw Hh Tw Th HM Ew Eh (HL & Hg) y x Hy Hx. cbn zeta.
  unfold plane, kiss_env. cbn [e_transform].
  replace ((1 <=? w) && (w <=? INT_MAX / 3) && (1 <=? h) && (h <=? INT_MAX / 3)) with true
    by (change (INT_MAX / 3) with 715827882; symmetry; rewrite !andb_true_iff; lia).
  set (f := firstn (Z.to_nat (w * h)) image).
  assert (LF : zlen f = w * h) by (unfold f, zlen in *; rewrite firstn_length; lia).
  assert (AF : forall i, 0 <= i < w * h -> at_ f0 f i = at_ f0 image i).
  { intros i Hi. unfold f, at_. rewrite <- (firstn_skipn (Z.to_nat (w * h)) image) at 2. rewrite app_nth1; [reflexivity|].
    unfold zlen in LF. fold f. lia. }
  assert (HG : forall y x, 0 <= y < h -> 0 <= x < w -> at_ f0 f (y * w + x) = at_ f0 image (y * w + x)) by (intros; apply AF; nia).
  destruct (transform_near twiddle super shift (fun _ => true) w h f (repeat m (Z.to_nat (2 * Z.max w h))) (repeat F (Z.to_nat (Z.max w h + 1)))
     (repeat t (Z.to_nat w)) (repeat t (Z.to_nat h)) world0 M lw lh (fun _ => eq_refl) Hw Hh Tw Th LF) as (f' & wd' & -> & _ & H).
  1-4: unfold zlen; rewrite repeat_length; lia.
  - exact HM.
  - intros i Hi. pose proof (Z.mod_pos_bound i w ltac:(lia)). pose proof (Z.div_mod i w ltac:(lia)).
    assert (0 <= i / w < h) by (split; [apply Z.div_pos; lia|apply Z.div_lt_upper_bound; lia]).
    destruct (Hg (i / w) (i mod w)) as (A & B & C); try assumption. rewrite <- HG in A, B by assumption.
    replace (i / w * w + i mod w) with i in A, B by lia. split; [exact A|]. rewrite B. exact C.
  - exact Ew.
  - exact Eh.
  - destruct (H y x Hy Hx) as (A & B). split; [exact A|].
    replace (dct_2d w h g y x) with (dct_2d w h (fun y x => B2R 24 128 (at_ f0 f (y * w + x))) y x); [exact B|].
    unfold dct_2d. f_equal. apply rsum_ext. intros y' Hy'. apply rsum_ext. intros x' Hx'. rewrite HG by assumption.
    destruct (Hg y' x' Hy' Hx') as (_ & -> & _). reflexivity.
Qed.

(** C73.  So a coefficient that is larger than the bound has the right sign. *)
Lemma kiss_signs_claim : forall E twiddle super shift m F t w h image g M lw lh,
  1 <= w <= 2^20 -> 1 <= h <= 2^20 ->
  tables_close twiddle super shift w -> tables_close twiddle super shift h ->
  (1 <= M <= 1048576)%R -> kf_factor w = Ok lw -> kf_factor h = Ok lh -> has_samples w h image g M ->
  forall y x, 0 <= y < h -> 0 <= x < w ->
    (coefficient_error w h (radices_of lw) (radices_of lh) M < Rabs (dct_2d w h g y x))%R ->
    agrees (at_ f0 (plane (kiss_env (e_cfg E) (e_alloc E) (float_ops twiddle super shift) (e_qsort E) m F t) w h image) (y * w + x))
      (dct_2d w h g y x).
Proof.
  intros E twiddle super shift m F t w h image g M lw lh Hw Hh Tw Th HM Ew Eh HS y x Hy Hx HB.
  destruct (kiss_plane_close E twiddle super shift m F t w h image g M lw lh Hw Hh Tw Th HM Ew Eh HS y x Hy Hx) as (A & B).
  eapply agrees_close; [exact A|exact B|exact HB].
Qed.

Example kiss_signs_example : has_samples 4 1 accuracy_image (widened 2 upscale_source) 1 /\
  (coefficient_error 4 1 [4]%Z [1]%Z 1 < Rabs (dct_2d 4 1 (widened 2 upscale_source) 0 1))%R /\
  (coefficient_error 4 1 [4]%Z [1]%Z 1 < Rabs (dct_2d 4 1 (widened 2 upscale_source) 0 3))%R.
Proof. split; [exact accuracy_holds|]. exact accuracy_above. Qed.

(** C74.  Nearest-neighbour upscales are detected with confidence 1 by the KISS build, in
    C floats: every frame is the s-fold widening of some frame whose exact coefficients
    around N exceed the rounding error bound.  Nothing is assumed of the computed ones. *)
Lemma kiss_upscale_width_claim : forall E0 twiddle super shift t0 F t m s N h p images l,
  let E := kiss_env (e_cfg E0) (e_alloc E0) (float_ops twiddle super shift) (e_qsort E0) t0 F t in
  env_ok E0 -> client_params (e_cfg E0) p -> 1 <= s -> s * N <= 2^20 -> 1 <= h <= 2^20 ->
  tables_close twiddle super shift (s * N) -> tables_close twiddle super shift h ->
  zlen images <= 2^53 -> used_method m = Msign -> used_filter p = 0 ->
  used_range (e_cfg E0) m p < N < s * N - used_range (e_cfg E0) m p ->
  (forall image, In image images -> upscale_x s N h (used_range (e_cfg E0) m p) image) ->
  reported E m (s * N) h p images (seen_x E (s * N) h images) (s * N) l ->
  In (mkRes N (f32_of_Z 1)) l.
Proof.
  intros E0 twiddle super shift t0 F t m s N h p images l E HE HP Hs Hw Hh Tw Th HN HM HF HR HI R.
  assert (HEE : env_ok E) by (apply kiss_env_claim; exact HE).
  assert (N0 : 1 <= used_range (e_cfg E0) m p) by (apply (used_range_pos E 0 0 m p); split; [exact HEE|]; split; [lia|]; split; [lia|exact HP]).
  assert (HC : client_ok E (s * N) h p) by (split; [exact HEE|]; split; [nia|]; split; [lia|exact HP]).
  apply (upscale_width_claim E m s N h p images l); try assumption; [lia|].
  intros image I. destruct (HI image I) as (g & M & lw & lh & M1 & Ew & Eh & Hg & A).
  exists g. intros y i Hy Hi. destruct (A y i Hy Hi) as (A1 & A2).
  change (used_range (e_cfg E) m p) with (used_range (e_cfg E0) m p) in Hi.
  assert (1 <= s * N) by nia.
  split; apply (kiss_signs_claim E0 twiddle super shift t0 F t (s * N) h image (widened s g) M lw lh); try assumption; lia.
Qed.

(** C74.  The same of the height. *)
Lemma kiss_upscale_height_claim : forall E0 twiddle super shift t0 F t m s N w p images l,
  let E := kiss_env (e_cfg E0) (e_alloc E0) (float_ops twiddle super shift) (e_qsort E0) t0 F t in
  env_ok E0 -> client_params (e_cfg E0) p -> 1 <= s -> s * N <= 2^20 -> 1 <= w <= 2^20 ->
  tables_close twiddle super shift w -> tables_close twiddle super shift (s * N) ->
  zlen images <= 2^53 -> used_method m = Msign -> used_filter p = 0 ->
  used_range (e_cfg E0) m p < N < s * N - used_range (e_cfg E0) m p ->
  (forall image, In image images -> upscale_y s N w (used_range (e_cfg E0) m p) image) ->
  reported E m w (s * N) p images (seen_y E w (s * N) images) (s * N) l ->
  In (mkRes N (f32_of_Z 1)) l.
Proof.
  intros E0 twiddle super shift t0 F t m s N w p images l E HE HP Hs Hh Hw Tw Th HN HM HF HR HI R.
  assert (HEE : env_ok E) by (apply kiss_env_claim; exact HE).
  assert (N0 : 1 <= used_range (e_cfg E0) m p) by (apply (used_range_pos E 0 0 m p); split; [exact HEE|]; split; [lia|]; split; [lia|exact HP]).
  assert (HC : client_ok E w (s * N) p) by (split; [exact HEE|]; split; [lia|]; split; [nia|exact HP]).
  apply (upscale_height_claim E m s N w p images l); try assumption; [lia|].
  intros image I. destruct (HI image I) as (g & M & lw & lh & M1 & Ew & Eh & Hg & A).
  exists g. intros x i Hx Hi. destruct (A x i Hx Hi) as (A1 & A2).
  change (used_range (e_cfg E) m p) with (used_range (e_cfg E0) m p) in Hi.
  assert (1 <= s * N) by nia.
  split; apply (kiss_signs_claim E0 twiddle super shift t0 F t w (s * N) image (heightened s g) M lw lh); try assumption; lia.
Qed.

(** A concrete case: the 2x1 image 1 0 widened to 4x1 is reported, with any good tables. *)
Example kiss_upscale_width_example :
  env_ok demo_env /\ client_params (e_cfg demo_env) upscale_params /\ used_filter upscale_params = 0 /\
  used_range (e_cfg demo_env) None upscale_params = 1 /\ upscale_x 2 2 1 1 accuracy_image /\
  exists twiddle super shift l l', tables_close twiddle super shift (2 * 2) /\ tables_close twiddle super shift 1 /\
    let E := kiss_env (e_cfg demo_env) (e_alloc demo_env) (float_ops twiddle super shift) (e_qsort demo_env) f0 (f0, f0) (f0, f0) in
    reported E None (2 * 2) 1 upscale_params [accuracy_image] (seen_x E (2 * 2) 1 [accuracy_image]) (2 * 2) l /\
    reported E None (2 * 2) 1 upscale_params [accuracy_image] (seen_y E (2 * 2) 1 [accuracy_image]) 1 l'.
Proof.
  split; [exact demo_env_ok|].
  assert (HP : client_params (e_cfg demo_env) upscale_params).
  { right. exists [Range 1], [RDEOK]. split; [repeat constructor; simpl; lia|reflexivity]. }
  split; [exact HP|]. split; [reflexivity|]. split; [reflexivity|]. split.
  { exists upscale_source, 1%R, [4; 1], [1; 1]. split; [lra|]. split; [reflexivity|]. split; [reflexivity|]. split; [exact accuracy_holds|].
    intros y i Hy Hi. assert (y = 0) by lia. assert (i = 1) by lia. subst y i. exact accuracy_above. }
  destruct tables_exist as (tw & su & sh & T). exists tw, su, sh.
  set (E := kiss_env (e_cfg demo_env) (e_alloc demo_env) (float_ops tw su sh) (e_qsort demo_env) f0 (f0, f0) (f0, f0)).
  assert (HC : client_ok E (2 * 2) 1 upscale_params).
  { split; [apply kiss_env_claim, demo_env_ok|]. split; [lia|]. split; [lia|]. exact HP. }
  destruct (reported_all E None (2 * 2) 1 upscale_params [accuracy_image] HC) as (l & l' & R1 & R2).
  - reflexivity.
  - unfold plan_fits. vm_compute. intuition discriminate.
  - constructor; [|constructor]. split; [|vm_compute; discriminate]. apply valid_forallb. vm_compute. reflexivity.
  - unfold countable; simpl; lia.
  - discriminate.
  - exists l, l'. split; [apply T; lia|]. split; [apply T; lia|]. split; [exact R1|exact R2].
Qed.
