(** @header
    Property C88: images scaled up with cubic kernels. *)
From Coq Require Import Reals Lra Lia Psatz.
From Flocq Require Import Core IEEE754.Binary.
From Verif Require Import Base Flt Util Methods Analysis History Kiss Spec SpecAnalysis SpecUtil SpecReport SpecTransform SpecAccuracy SpecInterpolate SpecCubic.
From Verif Require Import BaseProofs FltProofs RoundProofs WorldProofs AnalysisProofs ResultsProofs ClientProofs CompareProofs.
From Verif Require Import KissProofs KissFactor KissTransform KissExact KissAccuracy AccuracyProofs AccuracyTables UpscaleProofs UpscaleDetect
  InterpolateProofs InterpolateKernels CubicProofs Demo AnalysisClaims KissClaims AccuracyClaims InterpolateClaims.
Open Scope list_scope.
Open Scope Z_scope.

(** C88.  Mitchell and Netravali's kernels are symmetric and two samples wide; their weights
    add up to one; Catmull and Rom's is one of them. *)
Lemma cubic_kernels_claim : forall B C,
  kernel_ok 2 (cubic B C) /\
  (forall u, (0 <= u < 1)%R -> (cubic B C (u + 1) + cubic B C u + cubic B C (u - 1) + cubic B C (u - 2) = 1)%R) /\
  (forall u, cubic 0 (1/2) u = catmull_rom u).
Proof.
  intros B C. split; [apply cubic_ok|]. split.
  - intros u Hu. unfold cubic. rewrite (Rabs_pos_eq (u + 1)), (Rabs_pos_eq u), (Rabs_left1 (u - 1)), (Rabs_left (u - 2)) by lra.
    destruct (Rlt_dec (u + 1) 1); [lra|]. destruct (Rlt_dec (u + 1) 2); [|lra]. destruct (Rlt_dec u 1); [|lra].
    destruct (Rlt_dec (- (u - 2)) 1); [lra|].
    destruct (Rlt_dec (- (u - 1)) 1).
    + destruct (Rlt_dec (- (u - 2)) 2); [field|lra].
    + assert (u = 0)%R by lra. subst u. destruct (Rlt_dec (- (0 - 1)) 2); [|lra]. destruct (Rlt_dec (- (0 - 2)) 2); [lra|]. field.
  - intros u. unfold cubic, catmull_rom. destruct (Rlt_dec (Rabs u) 1); [field|]. destruct (Rlt_dec (Rabs u) 2); [field|reflexivity].
Qed.
(** the cubic B-spline is always positive, others are not *)
Example cubic_kernels_example : cubic 1 0 (3/2) = (1/48)%R /\ cubic 0 (1/2) (3/2) = (-1/16)%R /\ cubic 0 0 (1/2) = (1/2)%R.
Proof. unfold cubic. rewrite !Rabs_pos_eq by lra. repeat split; repeat (destruct (Rlt_dec _ _); try (exfalso; lra)); field. Qed.

(** C88.  Whatever the whole factor, they keep the signs of the coefficients around the end
    of the old spectrum. *)
Lemma cubics_respond_claim : forall B C N s k range, (0 <= B <= 1)%R -> (0 <= C <= 1)%R ->
  1 <= N -> 2 <= s -> 10 * range <= N -> N - range <= k <= N + range ->
  exists P, (0 < P)%R /\ responds N (s * N) 2 (cubic B C) k P 0.
Proof. intros. eapply cubic_responds; eassumption. Qed.
(** at most 12 away from 240, with the kernel Mitchell and Netravali recommend *)
Example cubics_respond_example : forall s, 2 <= s -> forall k, 228 <= k <= 252 ->
  exists P, (0 < P)%R /\ responds 240 (s * 240) 2 (cubic (1/3) (1/3)) k P 0.
Proof. intros s Hs k Hk. apply (cubics_respond_claim _ _ _ _ _ 12); lra || lia. Qed.

(** C88.  From two to three samples there is a little aliasing. *)
Lemma cubics_halves_claim : forall B C p k range, (0 <= B <= 1)%R -> (0 <= C <= 1)%R ->
  1 <= p -> 10 * range <= p -> 2 * p - range <= k <= 2 * p + range ->
  exists P, (9/100 <= P)%R /\ responds (2 * p) (3 * p) 2 (cubic B C) k P (cubic_leak B C (2 * p) range).
Proof. intros. apply cubic_halves_responds; lra || lia. Qed.
(** from 1280 to 1920 samples, within a range of 12: less than 0.0005 with Catmull and Rom's kernel *)
Example cubics_halves_example : 10 * 12 <= 640 /\ (cubic_leak 0 (1/2) (2 * 640) 12 < 5 / 10000)%R.
Proof.
  split; [lia|]. unfold cubic_leak. change (2 * 640) with 1280. pose proof pi_near.
  replace (PI * 12 / 1280)%R with (PI * (3/320))%R by field. replace (0 + 2 * (1 / 2) - 1)%R with 0%R by field. rewrite Rabs_R0. nra.
Qed.

(** C88.  So upscales by any whole factor are found that were made with such a kernel, and
    rounded or otherwise changed a little afterwards. *)
Lemma cubic_upscale_width_claim : forall E0 twiddle super shift t0 F t m s N h p images l,
  let E := kiss_env (e_cfg E0) (e_alloc E0) (float_ops twiddle super shift) (e_qsort E0) t0 F t in
  env_ok E0 -> client_params (e_cfg E0) p -> s * N <= 2^20 -> 1 <= h <= 2^20 ->
  tables_close twiddle super shift (s * N) -> tables_close twiddle super shift h ->
  zlen images <= 2^53 -> used_method m = Msign -> used_filter p = 0 -> 2 <= s ->
  10 * used_range (e_cfg E0) m p <= N ->
  (forall image, In image images -> cubic_upscale_x s N h (used_range (e_cfg E0) m p) image) ->
  reported E m (s * N) h p images (seen_x E (s * N) h images) (s * N) l ->
  In (mkRes N (f32_of_Z 1)) l.
Proof.
  intros E0 twiddle super shift t0 F t m s N h p images l E HE HP Hw Hh Tw Th HN HM HF S2 HR HI R.
  assert (RP : 1 <= used_range (e_cfg E0) m p) by (apply (used_range_pos E0 0 0 m p); split; [exact HE|]; split; [lia|]; split; [lia|exact HP]).
  eapply (interpolated_width_claim E0 twiddle super shift t0 F t m N (s * N) h p images l); try eassumption; [nia|nia|].
  intros image I. destruct (HI image I) as (g & B & C & M & d & lw & lh & HB & HC & HMM & Ew & Eh & NS & AB).
  destruct (image_bounded g N h ltac:(lia) ltac:(lia)) as (G & HG).
  exists g, 2, (cubic B C), G, M, d, 0%R, lw, lh.
  split; [apply cubic_ok|]. split; [exact HG|].
  split; [intros k Hk; apply (cubic_responds B C N s k (used_range (e_cfg E0) m p)); try assumption; lia|].
  split; [exact HMM|]. split; [exact Ew|]. split; [exact Eh|]. split; [exact NS|].
  eapply above_more_x; [|exact AB]. ring.
Qed.

(** C88.  The same of the height. *)
Lemma cubic_upscale_height_claim : forall E0 twiddle super shift t0 F t m s N w p images l,
  let E := kiss_env (e_cfg E0) (e_alloc E0) (float_ops twiddle super shift) (e_qsort E0) t0 F t in
  env_ok E0 -> client_params (e_cfg E0) p -> s * N <= 2^20 -> 1 <= w <= 2^20 ->
  tables_close twiddle super shift w -> tables_close twiddle super shift (s * N) ->
  zlen images <= 2^53 -> used_method m = Msign -> used_filter p = 0 -> 2 <= s ->
  10 * used_range (e_cfg E0) m p <= N ->
  (forall image, In image images -> cubic_upscale_y s N w (used_range (e_cfg E0) m p) image) ->
  reported E m w (s * N) p images (seen_y E w (s * N) images) (s * N) l ->
  In (mkRes N (f32_of_Z 1)) l.
Proof.
  intros E0 twiddle super shift t0 F t m s N w p images l E HE HP Hh Hw Tw Th HN HM HF S2 HR HI R.
  assert (RP : 1 <= used_range (e_cfg E0) m p) by (apply (used_range_pos E0 0 0 m p); split; [exact HE|]; split; [lia|]; split; [lia|exact HP]).
  eapply (interpolated_height_claim E0 twiddle super shift t0 F t m N w (s * N) p images l); try eassumption; [nia|nia|].
  intros image I. destruct (HI image I) as (g & B & C & M & d & lw & lh & HB & HC & HMM & Ew & Eh & NS & AB).
  destruct (image_bounded g w N ltac:(lia) ltac:(lia)) as (G & HG).
  exists g, 2, (cubic B C), G, M, d, 0%R, lw, lh.
  split; [apply cubic_ok|]. split; [exact HG|].
  split; [intros k Hk; apply (cubic_responds B C N s k (used_range (e_cfg E0) m p)); try assumption; lia|].
  split; [exact HMM|]. split; [exact Ew|]. split; [exact Eh|]. split; [exact NS|].
  intros x i Hx Hi. destruct (AB x i Hx Hi) as (A1 & A2). rewrite Rmult_0_r, Rplus_0_r. split; assumption.
Qed.

(** C88.  And upscales from 2p to 3p samples, as from 720p to 1080p. *)
Lemma cubic_halves_width_claim : forall E0 twiddle super shift t0 F t m q h p images l,
  let E := kiss_env (e_cfg E0) (e_alloc E0) (float_ops twiddle super shift) (e_qsort E0) t0 F t in
  env_ok E0 -> client_params (e_cfg E0) p -> 3 * q <= 2^20 -> 1 <= h <= 2^20 ->
  tables_close twiddle super shift (3 * q) -> tables_close twiddle super shift h ->
  zlen images <= 2^53 -> used_method m = Msign -> used_filter p = 0 ->
  10 * used_range (e_cfg E0) m p <= q ->
  (forall image, In image images -> cubic_halves_x q h (used_range (e_cfg E0) m p) image) ->
  reported E m (3 * q) h p images (seen_x E (3 * q) h images) (3 * q) l ->
  In (mkRes (2 * q) (f32_of_Z 1)) l.
Proof.
  intros E0 twiddle super shift t0 F t m q h p images l E HE HP Hw Hh Tw Th HN HM HF HR HI R.
  assert (RP : 1 <= used_range (e_cfg E0) m p) by (apply (used_range_pos E0 0 0 m p); split; [exact HE|]; split; [lia|]; split; [lia|exact HP]).
  eapply (interpolated_width_claim E0 twiddle super shift t0 F t m (2 * q) (3 * q) h p images l); try eassumption; [lia|lia|].
  intros image I. destruct (HI image I) as (g & G & B & C & M & d & lw & lh & HB & HC & HG & HMM & Ew & Eh & NS & AB).
  exists g, 2, (cubic B C), G, M, d, (cubic_leak B C (2 * q) (used_range (e_cfg E0) m p)), lw, lh.
  split; [apply cubic_ok|]. split; [exact HG|].
  split. { intros k Hk. destruct (cubics_halves_claim B C q k (used_range (e_cfg E0) m p) HB HC ltac:(lia) HR Hk) as (P & P0 & RS). exists P. split; [lra|exact RS]. }
  split; [exact HMM|]. split; [exact Ew|]. split; [exact Eh|]. split; [exact NS|]. exact AB.
Qed.

(** C88.  The same of the height. *)
Lemma cubic_halves_height_claim : forall E0 twiddle super shift t0 F t m q w p images l,
  let E := kiss_env (e_cfg E0) (e_alloc E0) (float_ops twiddle super shift) (e_qsort E0) t0 F t in
  env_ok E0 -> client_params (e_cfg E0) p -> 3 * q <= 2^20 -> 1 <= w <= 2^20 ->
  tables_close twiddle super shift w -> tables_close twiddle super shift (3 * q) ->
  zlen images <= 2^53 -> used_method m = Msign -> used_filter p = 0 ->
  10 * used_range (e_cfg E0) m p <= q ->
  (forall image, In image images -> cubic_halves_y q w (used_range (e_cfg E0) m p) image) ->
  reported E m w (3 * q) p images (seen_y E w (3 * q) images) (3 * q) l ->
  In (mkRes (2 * q) (f32_of_Z 1)) l.
Proof.
  intros E0 twiddle super shift t0 F t m q w p images l E HE HP Hw Hh Tw Th HN HM HF HR HI R.
  assert (RP : 1 <= used_range (e_cfg E0) m p) by (apply (used_range_pos E0 0 0 m p); split; [exact HE|]; split; [lia|]; split; [lia|exact HP]).
  eapply (interpolated_height_claim E0 twiddle super shift t0 F t m (2 * q) w (3 * q) p images l); try eassumption; [lia|lia|].
  intros image I. destruct (HI image I) as (g & G & B & C & M & d & lw & lh & HB & HC & HG & HMM & Ew & Eh & NS & AB).
  exists g, 2, (cubic B C), G, M, d, (cubic_leak B C (2 * q) (used_range (e_cfg E0) m p)), lw, lh.
  split; [apply cubic_ok|]. split; [exact HG|].
  split. { intros k Hk. destruct (cubics_halves_claim B C q k (used_range (e_cfg E0) m p) HB HC ltac:(lia) HR Hk) as (P & P0 & RS). exists P. split; [lra|exact RS]. }
  split; [exact HMM|]. split; [exact Ew|]. split; [exact Eh|]. split; [exact NS|]. exact AB.
Qed.

(** ** Concrete cases *)
Definition signed (z : Z) : f32 := if z <? 0 then fopp (f32_of_Z (- z)) else f32_of_Z z.
Lemma signed_val z : - 2^24 < z < 2^24 -> ffinite (signed z) = true /\ B2R 24 128 (signed z) = IZR z.
Proof.
  intros Hz. unfold signed. destruct (Z.ltb_spec z 0) as [L|L].
  - destruct (f32_of_Z_exact (- z) ltac:(lia)) as (F & _ & V). unfold ffinite, fopp, Bits.b32_opp. rewrite is_finite_Bopp, B2R_Bopp. split; [exact F|].
    replace (B2R 24 128 (f32_of_Z (- z))) with (IZR (- z)) by (symmetry; exact V). rewrite opp_IZR. ring.
  - destruct (f32_of_Z_exact z ltac:(lia)) as (F & _ & V). split; [exact F|exact V].
Qed.
(** a line of whole numbers *)
Lemma line_samples (l : list Z) (b : Z) : b < 2^24 -> Forall (fun z => Z.abs z <= b) l ->
  has_samples (zlen l) 1 (map signed l) (fun y x => IZR (at_ 0 l x)) (IZR b).
Proof.
  intros Hb HF. split; [unfold zlen; rewrite map_length; lia|]. intros y x Hy Hx. assert (y = 0) by lia. subst y. replace (0 * zlen l + x) with x by lia.
  assert (I : Z.abs (at_ 0 l x) <= b).
  { rewrite Forall_forall in HF. apply HF. unfold at_, zlen in *. apply nth_In. lia. }
  replace (at_ f0 (map signed l) x) with (signed (at_ 0 l x)).
  - destruct (signed_val (at_ 0 l x)) as (F & V); [lia|]. split; [exact F|]. split; [exact V|]. rewrite <- abs_IZR. apply IZR_le. exact I.
  - unfold at_. rewrite <- (map_nth signed). apply nth_indep. rewrite map_length. unfold zlen in Hx. lia.
Qed.
(** resampling whole numbers with weights that are whole numbers over c *)
Definition whole_resampled (N M a : Z) (z : Z -> Z) (t : Z -> Z -> Z) (i : Z) : Z :=
  fold_right (fun m s => (let r := m mod (2 * N) in z (if r <? N then r else 2 * N - 1 - r)) * t i m + s) 0 (zrange (i * N / M - a) (i * N / M + a + 1)).
Lemma resampled_whole N M a K z t c i : (0 < c)%R -> (forall m, (K (offset N M i m) = IZR (t i m) / c)%R) ->
  (resampled N M a K (fun x => IZR (z x)) i = IZR (whole_resampled N M a z t i) / c)%R.
Proof.
  intros Hc HK. unfold resampled, rsum, whole_resampled. induction (zrange (i * N / M - a) (i * N / M + a + 1)) as [|m l IH]; cbn [fold_right].
  - unfold Rdiv. ring.
  - rewrite IH, HK. cbv zeta. unfold reflected. rewrite plus_IZR, mult_IZR. field. lra.
Qed.
Lemma dct_2d_line w g k : 1 <= w -> dct_2d w 1 g 0 k = (2 * dct w (g 0%Z) k)%R.
Proof.
  intros Hw. rewrite <- dct_dct by lia. unfold dct at 1, rsum. change (zrange 0 1) with [0]. cbn [fold_right].
  replace (PI * 0 * (0 + 1 / 2) / 1)%R with 0%R by field. rewrite cos_0. change (fun x => g 0 x) with (g 0). ring.
Qed.

(** 384 and nine zeroes, twice as wide with the cubic B-spline *)
Definition spline_weight (j : Z) : Z := at_ 0 [0; 235; 0; 121; 0; 27; 0; 1] (Z.abs j).
Definition spline_line : list Z := [356; 262; 122; 27; 1] ++ repeat 0 15.
Definition spline_image : list f32 := map signed spline_line.
Definition impulse (z x : Z) : Z := if x =? 0 then z else 0.
Lemma spline_quarter j : Z.odd j = true -> (cubic 1 0 (IZR j / (2 * 2)) = IZR (spline_weight j) / 384)%R.
Proof.
  intros O. pose proof (cubic_sampled 1 0 2 j ltac:(lia)) as E. rewrite E. replace (48 * 2 ^ 3)%R with 384%R by ring. unfold Rdiv. f_equal.
  destruct (Z_lt_le_dec (Z.abs j) 8) as [L|L].
  - assert (C : j = -7 \/ j = -5 \/ j = -3 \/ j = -1 \/ j = 1 \/ j = 3 \/ j = 5 \/ j = 7).
    { assert (j <> -6 /\ j <> -4 /\ j <> -2 /\ j <> 0 /\ j <> 2 /\ j <> 4 /\ j <> 6) by (repeat split; intros ->; discriminate O). lia. }
    destruct C as [->|[->|[->|[->|[->|[->|[->| ->]]]]]]]; unfold sampled, ramp;
      match goal with |- _ = IZR (spline_weight ?x) => let v := eval vm_compute in (spline_weight x) in change (spline_weight x) with v end;
      repeat match goal with |- context [Z.max 0 ?x] => let v := eval vm_compute in (Z.max 0 x) in change (Z.max 0 x) with v end; ring.
  - rewrite sampled_zero by lia. unfold spline_weight, at_. rewrite nth_overflow; [reflexivity|]. cbn [length]. lia.
Qed.
Lemma spline_resampled y x : 0 <= x < 20 -> rows_resampled 10 (2 * 10) 2 (cubic 1 0) (fun _ x => IZR (impulse 384 x)) y x = IZR (at_ 0 spline_line x).
Proof.
  intros Hx. unfold rows_resampled.
  rewrite (resampled_whole _ _ _ _ (impulse 384) (fun i m => spline_weight (2 * i + 1 - 2 - 4 * m)) 384); [|lra|].
  - assert (A : forallb (fun x => whole_resampled 10 (2 * 10) 2 (impulse 384) (fun i m => spline_weight (2 * i + 1 - 2 - 4 * m)) x =? 384 * at_ 0 spline_line x) (zrange 0 20) = true) by (vm_compute; reflexivity).
    rewrite forallb_forall in A. specialize (A x ltac:(apply in_zrange; lia)). apply Z.eqb_eq in A. rewrite A, mult_IZR. field.
  - intros m. rewrite offset_whole by lia. replace (IZR (2 * x + 1 - 2) / (2 * 2) - IZR m)%R with (IZR (2 * x + 1 - 2 - 4 * m) / (2 * 2))%R by (rewrite (minus_IZR _ (4 * m)), mult_IZR; field).
    apply spline_quarter. replace (2 * x + 1 - 2 - 4 * m) with (2 * (x - 1 - 2 * m) + 1) by lia. rewrite Z.odd_add, Z.odd_mul. reflexivity.
Qed.
Lemma spline_gain N k : 1 <= N -> 0 < k < 2 * N -> let c := cos (PI * IZR k / IZR N / 4) in
  (phase_cos N (2 * N) 2 (cubic 1 0) k 0 * 3 = c ^ 5 * (5 + c ^ 2))%R.
Proof.
  intros HN Hk c. pose proof (cubic_gain 1 0 N 2 k HN ltac:(lia)) as E. cbv zeta in E.
  assert (NR : (0 < IZR N)%R) by (apply IZR_lt; lia).
  set (p := (PI * IZR k / IZR (2 * N) / 2)%R) in *.
  assert (CP : cos p = c) by (unfold c, p; f_equal; rewrite mult_IZR; field; lra).
  replace (PI * IZR k / IZR N)%R with (2 * (2 * p))%R in E by (unfold p; rewrite mult_IZR; field; lra).
  assert (P1 : (cos (2 * p) < 1)%R).
  { apply cos_below_1. pose proof PI_RGT_0. assert (KR : (0 < IZR k)%R) by (apply IZR_lt; lia).
    assert (KN : (IZR k < 2 * IZR N)%R) by (rewrite <- mult_IZR; apply IZR_lt; lia).
    replace (2 * p)%R with (PI * (IZR k / IZR N) / 2)%R by (unfold p; rewrite mult_IZR; field; lra).
    assert (0 < IZR k / IZR N < 2)%R.
    { split; [apply Rdiv_lt_0_compat; lra|]. apply Rmult_lt_reg_r with (IZR N); [exact NR|]. unfold Rdiv. rewrite Rmult_assoc, Rinv_l by lra. lra. }
    split; nra. }
  unfold cube_gain in E. change (Z.even 2) with true in E. cbv iota in E.
  rewrite (cos_2a_cos (2 * (2 * p))), (cos_2a_cos (2 * p)) in E. rewrite (cos_3 p) in E. rewrite (cos_2a_cos p) in E, P1. rewrite CP in E, P1.
  set (P := phase_cos N (2 * N) 2 (cubic 1 0) k 0) in *.
  apply Rmult_eq_reg_r with (128 * (2 - 2 * (2 * c * c - 1)) ^ 2)%R; [|assert (0 < (2 - 2 * (2 * c * c - 1)) ^ 2)%R by (apply pow_lt; lra); lra].
  transitivity (P * (48 * 2 ^ 3) * (2 - 2 * (2 * c * c - 1)) ^ 2)%R; [ring|]. rewrite E. ring.
Qed.
Lemma cosines_40 : (759/1000 <= cos (9 * (PI / 40)) <= 8/10)%R /\ (62/100 <= cos (11 * (PI / 40)) <= 654/1000)%R.
Proof.
  pose proof pi_near as PN. set (z := (PI / 40)%R) in *. assert (Z0 : (785/10000 <= z <= 79/1000)%R) by (unfold z; lra).
  replace (9 * z)%R with (PI / 4 - z)%R by (unfold z; field). replace (11 * z)%R with (PI / 4 + z)%R by (unfold z; field).
  rewrite cos_minus, cos_plus, cos_PI4, sin_PI4.
  assert (SQ : (7071/10000 <= 1 / sqrt 2 <= 7072/10000)%R).
  { pose proof (sqrt_sqrt 2 ltac:(lra)) as SS. assert (0 < sqrt 2)%R by (apply sqrt_lt_R0; lra).
    assert (Q1 : (1 / sqrt 2 * sqrt 2 = 1)%R) by (field; lra). split; apply Rmult_le_reg_r with (sqrt 2); try assumption; rewrite Q1; nra. }
  set (q := (1 / sqrt 2)%R) in *.
  pose proof (sine_remainder z ltac:(rewrite Rabs_pos_eq; lra)) as SR. apply Rabs_le_inv in SR.
  pose proof (cos_low z) as CL. pose proof (COS_bound z) as CB.
  assert (S : (775/10000 <= sin z <= 80/1000)%R) by (split; nra). assert (C : (996/1000 <= cos z <= 1)%R) by (split; nra).
  split; split; nra.
Qed.
Lemma spline_above : above_x (2 * 10) 1 10 1 (rows_resampled 10 (2 * 10) 2 (cubic 1 0) (fun _ x => IZR (impulse 384 x))) 30.
Proof.
  intros y i Hy Hi. assert (y = 0) by lia. assert (i = 1) by lia. subst y i.
  assert (D : forall k, 0 < k < 20 -> let c := cos (IZR k * (PI / 40)) in
    dct_2d (2 * 10) 1 (rows_resampled 10 (2 * 10) 2 (cubic 1 0) (fun _ x => IZR (impulse 384 x))) 0 k = (512 * (2 * c * c - 1) * (c ^ 5 * (5 + c ^ 2)))%R).
  { intros k Hk c. rewrite dct_2d_line by lia.
    change (dct (2 * 10) (rows_resampled 10 (2 * 10) 2 (cubic 1 0) (fun _ x => IZR (impulse 384 x)) 0) k) with
      (dct (2 * 10) (resampled 10 (2 * 10) 2 (cubic 1 0) (fun x => IZR (impulse 384 x))) k).
    pose proof (resampled_dct 10 (2 * 10) 2 (cubic 1 0) (fun x => IZR (impulse 384 x)) k ltac:(lia) (cubic_ok 1 0)
      (phase_cos 10 (2 * 10) 2 (cubic 1 0) k 0) 0 384) as RD.
    assert (RB : (Rabs (dct (2 * 10) (resampled 10 (2 * 10) 2 (cubic 1 0) (fun x => IZR (impulse 384 x))) k
      - phase_cos 10 (2 * 10) 2 (cubic 1 0) k 0 * dct 10 (fun x => IZR (impulse 384 x)) k) <= 0)%R).
    { eapply Rle_trans; [apply RD|].
      - intros j Hj. unfold impulse. destruct (j =? 0); rewrite Rabs_pos_eq; lra.
      - apply responds_whole; [lia|lia|exact (cubic_ok 1 0)].
      - right. ring. }
    assert (EQ : dct (2 * 10) (resampled 10 (2 * 10) 2 (cubic 1 0) (fun x => IZR (impulse 384 x))) k =
      (phase_cos 10 (2 * 10) 2 (cubic 1 0) k 0 * dct 10 (fun x => IZR (impulse 384 x)) k)%R) by (apply Rabs_le_inv in RB; lra).
    rewrite EQ. pose proof (spline_gain 10 k ltac:(lia) ltac:(lia)) as SG. cbv zeta in SG.
    replace (PI * IZR k / 10 / 4)%R with (IZR k * (PI / 40))%R in SG by field. fold c in SG.
    assert (DI : (dct 10 (fun x => IZR (impulse 384 x)) k = 768 * (2 * c * c - 1))%R).
    { unfold dct, rsum. change (zrange 0 10) with [0; 1; 2; 3; 4; 5; 6; 7; 8; 9]. cbn [fold_right]. unfold impulse. cbn [Z.eqb].
      replace (PI * IZR k * (0 + 1 / 2) / 10)%R with (2 * (IZR k * (PI / 40)))%R by field. rewrite cos_2a_cos. fold c. ring. }
    rewrite DI. set (P := phase_cos 10 (2 * 10) 2 (cubic 1 0) k 0) in *. replace P with (c ^ 5 * (5 + c ^ 2) / 3)%R by lra. field. }
  change (10 - 1) with 9. change (10 + 1) with 11. rewrite (D 9), (D 11) by lia. cbv zeta.
  destruct cosines_40 as (C9 & C11). split.
  - set (c := cos (9 * (PI / 40))) in *.
    assert (Q : (15/100 <= 2 * c * c - 1)%R) by nra. assert (C4 : (33/100 <= (c * c) * (c * c))%R) by (assert (576/1000 <= c * c)%R by nra; nra).
    assert (C5 : (25/100 <= c ^ 5)%R) by (replace (c ^ 5)%R with (c * c * (c * c) * c)%R by ring; nra).
    assert (X : (125/100 <= c ^ 5 * (5 + c ^ 2))%R) by nra. set (a := (2 * c * c - 1)%R) in *. set (b := (c ^ 5 * (5 + c ^ 2))%R) in *.
    rewrite Rabs_pos_eq by nra. nra.
  - set (c := cos (11 * (PI / 40))) in *.
    assert (Q : (14/100 <= 1 - 2 * c * c)%R) by nra. assert (C4 : (147/1000 <= (c * c) * (c * c))%R) by (assert (384/1000 <= c * c)%R by nra; nra).
    assert (C5 : (9/100 <= c ^ 5)%R) by (replace (c ^ 5)%R with (c * c * (c * c) * c)%R by ring; nra).
    assert (C5U : (0 <= c ^ 2)%R) by nra.
    assert (X : (45/100 <= c ^ 5 * (5 + c ^ 2))%R) by nra. replace (2 * c * c - 1)%R with (- (1 - 2 * c * c))%R by ring.
    set (a := (1 - 2 * c * c)%R) in *. set (b := (c ^ 5 * (5 + c ^ 2))%R) in *.
    replace (512 * - a * b)%R with (- (512 * a * b))%R by ring. rewrite Rabs_Ropp, Rabs_pos_eq by nra. nra.
Qed.
Lemma spline_upscaled : cubic_upscale_x 2 10 1 1 spline_image.
Proof.
  exists (fun _ x => IZR (impulse 384 x)), 1%R, 0%R, 356%R, 0%R, [4; 5; 5; 1], [1; 1].
  split; [lra|]. split; [lra|]. split; [lra|]. split; [reflexivity|]. split; [reflexivity|]. split.
  - exists (fun y x => IZR (at_ 0 spline_line x)). split.
    + apply (line_samples spline_line 356); [lia|]. repeat constructor; vm_compute; discriminate.
    + intros y x Hy Hx. rewrite spline_resampled by lia. rewrite Rminus_diag_eq by reflexivity. rewrite Rabs_R0. lra.
  - intros y i Hy Hi. destruct (spline_above y i Hy Hi) as (A1 & A2).
    assert (CE : (coefficient_error (2 * 10) 1 [4; 5]%Z [1]%Z 356 <= 30)%R) by (unfold coefficient_error, loss, passes, pass_error; cbn; lra).
    change (radices_of [4; 5; 5; 1]) with [4; 5]. change (radices_of [1; 1]) with [1]. rewrite Rmult_0_r, Rplus_0_r.
    split; eapply Rle_lt_trans; eassumption.
Qed.
Example cubic_upscale_width_example :
  env_ok demo_env /\ client_params (e_cfg demo_env) upscale_params /\ used_filter upscale_params = 0 /\
  used_range (e_cfg demo_env) None upscale_params = 1 /\ cubic_upscale_x 2 10 1 1 spline_image /\
  exists twiddle super shift l l', tables_close twiddle super shift (2 * 10) /\ tables_close twiddle super shift 1 /\
    let E := kiss_env (e_cfg demo_env) (e_alloc demo_env) (float_ops twiddle super shift) (e_qsort demo_env) f0 (f0, f0) (f0, f0) in
    reported E None (2 * 10) 1 upscale_params [spline_image] (seen_x E (2 * 10) 1 [spline_image]) (2 * 10) l /\
    reported E None (2 * 10) 1 upscale_params [spline_image] (seen_y E (2 * 10) 1 [spline_image]) 1 l'.
Proof.
  split; [exact demo_env_ok|].
  assert (HP : client_params (e_cfg demo_env) upscale_params).
  { right. exists [Range 1], [RDEOK]. split; [repeat constructor; simpl; lia|reflexivity]. }
  split; [exact HP|]. split; [reflexivity|]. split; [reflexivity|]. split; [exact spline_upscaled|].
  destruct tables_exist as (tw & su & sh & T). exists tw, su, sh.
  set (E := kiss_env (e_cfg demo_env) (e_alloc demo_env) (float_ops tw su sh) (e_qsort demo_env) f0 (f0, f0) (f0, f0)).
  assert (HC : client_ok E (2 * 10) 1 upscale_params).
  { split; [apply kiss_env_claim, demo_env_ok|]. split; [lia|]. split; [lia|]. exact HP. }
  destruct (reported_all E None (2 * 10) 1 upscale_params [spline_image] HC) as (l & l' & R1 & R2).
  - reflexivity.
  - unfold plan_fits. vm_compute. intuition discriminate.
  - constructor; [|constructor]. split; [|vm_compute; discriminate]. apply valid_forallb. vm_compute. reflexivity.
  - unfold countable; simpl; lia.
  - discriminate.
  - exists l, l'. split; [apply T; lia|]. split; [apply T; lia|]. split; [exact R1|exact R2].
Qed.
(** the same samples as a column *)
Example cubic_upscale_height_example : cubic_upscale_y 2 10 1 1 spline_image /\ used_range (e_cfg demo_env) None upscale_params = 1.
Proof.
  split; [|reflexivity].
  destruct spline_upscaled as (g & B & C & M & d & lw & lh & HB & HC & HM & Ew & Eh & (f & (L & HS) & ND) & AB).
  exists (fun y x => g x y), B, C, M, d, lh, lw. split; [exact HB|]. split; [exact HC|]. split; [exact HM|]. split; [exact Eh|]. split; [exact Ew|]. split.
  - exists (fun y x => f x y). split.
    + split; [exact L|]. intros y x Hy Hx. assert (x = 0) by lia. subst x. destruct (HS 0 y) as (A & V & R); [lia|exact Hy|].
      replace (y * 1 + 0) with (0 * (2 * 10) + y) by lia. split; [exact A|]. split; [exact V|exact R].
    + intros y x Hy Hx. apply (ND x y Hx Hy).
  - intros x i Hx Hi. destruct (AB x i Hx Hi) as (A1 & A2).
    rewrite (dct_2d_flip (2 * 10) 1) in A1, A2 by lia.
    replace (coefficient_error 1 (2 * 10) (radices_of lh) (radices_of lw) M + 4 * 1 * IZR (2 * 10) * d)%R
      with (coefficient_error (2 * 10) 1 (radices_of lw) (radices_of lh) M + 4 * IZR (2 * 10) * 1 * d)%R by (unfold coefficient_error; ring).
    split; [exact A1|exact A2].
Qed.

(** 432 -432 432 ..., twenty samples, made thirty with Catmull and Rom's kernel *)
Definition stripe (x : Z) : Z := if Z.even x then 432 else -432.
Definition sixth_weight (j : Z) : Z := at_ 0 [432; 405; 0; 243; 0; 57; 0; -25; 0; -27; 0; -5] (Z.abs j).
Definition stripe_line : list Z := map (fun x => whole_resampled 20 30 2 stripe (fun i m => sixth_weight (4 * i - 6 * m - 1)) x / 432) (zrange 0 30).
Definition stripe_image : list f32 := map signed stripe_line.
Lemma weight_sixth j : Z.odd j = true -> (cubic 0 (1/2) (IZR j / 6) = IZR (sixth_weight j) / 432)%R.
Proof.
  intros O. destruct (cubic_ok 0 (1/2)) as (_ & EV & KZ).
  assert (AB : cubic 0 (1/2) (IZR j / 6) = cubic 0 (1/2) (IZR (Z.abs j) / 6)).
  { destruct (Z_le_gt_dec 0 j) as [G|G]; [rewrite Z.abs_eq by lia; reflexivity|]. rewrite Z.abs_neq by lia. rewrite opp_IZR, <- (EV (IZR j / 6)%R). f_equal. field. }
  rewrite AB. unfold sixth_weight. assert (OA : Z.odd (Z.abs j) = true) by (destruct j as [|[q|q|]|[q|q|]]; exact O). clear O. rename OA into O. set (a := Z.abs j) in *. assert (A0 : 0 <= a) by (unfold a; lia). clearbody a.
  destruct (Z_lt_le_dec a 12) as [L|L].
  - destruct (cubic_sixths 0 (1/2)) as (K9 & K5 & K1 & K3 & K7 & K11).
    assert (C : a = 1 \/ a = 3 \/ a = 5 \/ a = 7 \/ a = 9 \/ a = 11).
    { assert (a <> 0 /\ a <> 2 /\ a <> 4 /\ a <> 6 /\ a <> 8 /\ a <> 10) by (repeat split; intros ->; discriminate O). lia. }
    destruct C as [->|[->|[->|[->|[->| ->]]]]]; match goal with |- _ = (IZR ?w / 432)%R => let v := eval vm_compute in w in change w with v end;
      rewrite ?K9, ?K5, ?K1, ?K3, ?K7, ?K11; field.
  - rewrite KZ.
    + unfold at_. rewrite nth_overflow; [unfold Rdiv; ring|]. cbn [length]. lia.
    + rewrite Rabs_pos_eq; [|apply IZR_le in L; lra]. apply IZR_le in L. change (IZR 2) with 2%R. lra.
Qed.
Lemma stripe_resampled y x : 0 <= x < 30 -> rows_resampled (2 * 10) (3 * 10) 2 (cubic 0 (1/2)) (fun _ x => IZR (stripe x)) y x = IZR (at_ 0 stripe_line x).
Proof.
  intros Hx. unfold rows_resampled.
  rewrite (resampled_whole _ _ _ _ stripe (fun i m => sixth_weight (4 * i - 6 * m - 1)) 432); [|lra|].
  - assert (A : forallb (fun x => whole_resampled (2 * 10) (3 * 10) 2 stripe (fun i m => sixth_weight (4 * i - 6 * m - 1)) x =? 432 * at_ 0 stripe_line x) (zrange 0 30) = true) by (vm_compute; reflexivity).
    rewrite forallb_forall in A. specialize (A x ltac:(apply in_zrange; lia)). apply Z.eqb_eq in A. rewrite A, mult_IZR. field.
  - intros m. rewrite offset_halves by lia. apply weight_sixth.
    replace (4 * x - 6 * m - 1) with (2 * (2 * x - 3 * m - 1) + 1) by lia. rewrite Z.odd_add, Z.odd_mul. reflexivity.
Qed.
(** an alternating sum of cosines *)
Lemma alternating_sum a n : 0 <= n -> (rsum (fun j => (if Z.even j then 1 else -1) * cos (a * (IZR j + 1/2))) 0 n * (2 * cos (a / 2)) =
  1 - (if Z.even n then 1 else -1) * cos (a * IZR n))%R.
Proof.
  intros Hn. pattern n. apply natlike_ind; [| |exact Hn].
  - rewrite rsum_empty by lia. rewrite Rmult_0_r, cos_0. cbn [Z.even]. ring.
  - intros x Hx IH. rewrite <- Z.add_1_r, rsum_last by lia. rewrite Rmult_plus_distr_r, IH. rewrite Z.even_add. change (Z.even 1) with false.
    rewrite plus_IZR. replace (a * (IZR x + 1 / 2))%R with (a * IZR x + a / 2)%R by field.
    replace (a * (IZR x + 1))%R with (a * IZR x + a / 2 + a / 2)%R by field.
    assert (T : (cos (a * IZR x) = cos (a * IZR x + a / 2 - a / 2))%R) by (f_equal; ring). rewrite T.
    set (u := (a * IZR x + a / 2)%R). rewrite cos_minus, cos_plus. destruct (Z.even x); cbn [Bool.eqb]; ring.
Qed.
Lemma stripe_dct k : Z.odd k = true -> (dct 20 (fun x => IZR (stripe x)) k * cos (PI * IZR k / 20 / 2) = 864)%R.
Proof.
  intros O. unfold dct. rewrite (rsum_ext _ (fun j => (if Z.even j then 1 else -1) * cos (PI * IZR k / 20 * (IZR j + 1/2)) * 432)%R).
  - rewrite rsum_mul by lia. pose proof (alternating_sum (PI * IZR k / 20) 20 ltac:(lia)) as A. change (Z.even 20) with true in A. cbv iota in A.
    assert (C1 : (cos (PI * IZR k / 20 * IZR 20) = -1)%R).
    { replace (PI * IZR k / 20 * IZR 20)%R with (PI * IZR k)%R by (change (IZR 20) with 20%R; field).
      apply Z.odd_spec in O. destruct O as (q & ->). rewrite plus_IZR, mult_IZR. replace (PI * (2 * IZR q + 1))%R with (PI + 2 * IZR q * PI)%R by ring.
      rewrite cos_2kPI. apply cos_PI. }
    rewrite C1 in A. set (s := rsum _ 0 20) in *. nra.
  - intros j Hj. unfold stripe. replace (PI * IZR k * (IZR j + 1 / 2) / 20)%R with (PI * IZR k / 20 * (IZR j + 1 / 2))%R by field.
    destruct (Z.even j); ring.
Qed.
Lemma stripe_upscaled : cubic_halves_x 10 1 1 stripe_image.
Proof.
  exists (fun _ x => IZR (stripe x)), 432%R, 0%R, (1/2)%R, 492%R, 0%R, [2; 15; 3; 5; 5; 1], [1; 1].
  split; [lra|]. split; [lra|].
  assert (GB : forall x, (Rabs (IZR (stripe x)) <= 432)%R) by (intros x; unfold stripe; destruct (Z.even x); [rewrite Rabs_pos_eq|rewrite Rabs_left]; lra).
  split; [intros; apply GB|]. split; [lra|]. split; [reflexivity|]. split; [reflexivity|]. split.
  - exists (fun y x => IZR (at_ 0 stripe_line x)). split.
    + apply (line_samples stripe_line 492); [lia|]. repeat constructor; vm_compute; discriminate.
    + intros y x Hy Hx. rewrite stripe_resampled by lia. rewrite Rminus_diag_eq by reflexivity. rewrite Rabs_R0. lra.
  - change (radices_of [2; 15; 3; 5; 5; 1]) with [2; 3; 5]. change (radices_of [1; 1]) with [1].
    assert (CE : (coefficient_error (3 * 10) 1 [2; 3; 5]%Z [1]%Z 492 <= 30)%R) by (unfold coefficient_error, loss, passes, pass_error; cbn; lra).
    pose proof pi_near as PN.
    assert (LK : (0 <= cubic_leak 0 (1/2) (2 * 10) 1 <= 125/10000)%R).
    { unfold cubic_leak. replace (0 + 2 * (1 / 2) - 1)%R with 0%R by field. rewrite Rabs_R0. change (IZR (2 * 10)) with 20%R. split; nra. }
    assert (BIG : forall k, k = 19 \/ k = 21 -> (1100 < Rabs (dct_2d (3 * 10) 1 (rows_resampled (2 * 10) (3 * 10) 2 (cubic 0 (1/2)) (fun _ x => IZR (stripe x))) 0 k))%R).
    { intros k Hk. rewrite dct_2d_line by lia.
      change (dct (3 * 10) (rows_resampled (2 * 10) (3 * 10) 2 (cubic 0 (1 / 2)) (fun _ x => IZR (stripe x)) 0) k) with
        (dct (3 * 10) (resampled (2 * 10) (3 * 10) 2 (cubic 0 (1 / 2)) (fun x => IZR (stripe x))) k).
      destruct (cubics_halves_claim 0 (1/2) 10 k 1) as (P & P0 & RS); [lra|lra|lia|lia|lia|].
      pose proof (resampled_dct (2 * 10) (3 * 10) 2 (cubic 0 (1/2)) (fun x => IZR (stripe x)) k ltac:(lia) (cubic_ok 0 (1/2)) P _ 432 (fun j _ => GB j) RS) as RD.
      set (X := dct (3 * 10) _ k) in *. change (2 * 10) with 20 in RD.
      assert (SD := stripe_dct k ltac:(destruct Hk as [->| ->]; reflexivity)). set (A := dct 20 (fun x => IZR (stripe x)) k) in *.
      assert (CS : (Rabs (cos (PI * IZR k / 20 / 2)) <= 79/1000)%R).
      { destruct Hk as [->| ->].
        - replace (PI * 19 / 20 / 2)%R with (PI / 2 - PI / 40)%R by field. rewrite cos_shift. pose proof (sin_close (PI / 40) 0) as S. rewrite sin_0, !Rminus_0_r in S.
          eapply Rle_trans; [exact S|]. rewrite Rabs_pos_eq; lra.
        - replace (PI * 21 / 20 / 2)%R with (PI / 2 - - (PI / 40))%R by field. rewrite cos_shift. pose proof (sin_close (- (PI / 40)) 0) as S. rewrite sin_0, !Rminus_0_r in S.
          eapply Rle_trans; [exact S|]. rewrite Rabs_Ropp, Rabs_pos_eq; lra. }
      assert (AB : (10000 <= Rabs A)%R).
      { assert (E : (Rabs A * Rabs (cos (PI * IZR k / 20 / 2)) = 864)%R) by (rewrite <- Rabs_mult, SD; apply Rabs_pos_eq; lra).
        pose proof (Rabs_pos A). nra. }
      assert (PA : (900 <= Rabs (P * A))%R) by (rewrite Rabs_mult, (Rabs_pos_eq P) by lra; nra).
      assert (LE : (2 * IZR 20 * 432 * cubic_leak 0 (1/2) 20 1 <= 220)%R) by (change (IZR 20) with 20%R; change (2 * 10) with 20 in LK; lra).
      assert (XB : (680 <= Rabs X)%R) by (pose proof (Rabs_triang_inv (P * A) (P * A - X)) as TR; replace (P * A - (P * A - X))%R with X in TR by ring; rewrite (Rabs_minus_sym (P * A) X) in TR; lra).
      rewrite Rabs_mult, (Rabs_pos_eq 2) by lra. lra. }
    assert (BND : (coefficient_error (3 * 10) 1 [2; 3; 5]%Z [1]%Z 492 + 4 * IZR (3 * 10) * 1 * 0 + 4 * IZR (2 * 10) * 1 * 432 * cubic_leak 0 (1 / 2) (2 * 10) 1 <= 1000)%R)
      by (change (IZR (2 * 10)) with 20%R; lra).
    intros y i Hy Hi. assert (y = 0) by lia. assert (i = 1) by lia. subst y i. change (2 * 10 - 1) with 19. change (2 * 10 + 1) with 21.
    split; (eapply Rle_lt_trans; [exact BND|]); (eapply Rlt_trans; [|apply BIG; lia]); lra.
Qed.
Example cubic_halves_width_example : cubic_halves_x 10 1 1 stripe_image /\ used_range (e_cfg demo_env) None upscale_params = 1 /\
  stripe_line = [492; -54; -368; 368; 0; -368; 368; 0; -368; 368; 0; -368; 368; 0; -368; 368; 0; -368; 368; 0; -368; 368; 0; -368; 368; 0; -368; 368; 54; -492].
Proof. split; [exact stripe_upscaled|]. split; [reflexivity|vm_compute; reflexivity]. Qed.
Example cubic_halves_height_example : cubic_halves_y 10 1 1 stripe_image.
Proof.
  destruct stripe_upscaled as (g & G & B & C & M & d & lw & lh & HB & HC & HG & HM & Ew & Eh & (f & (L & HS) & ND) & AB).
  exists (fun y x => g x y), G, B, C, M, d, lh, lw. split; [exact HB|]. split; [exact HC|]. split; [intros y x Hy Hx; apply HG; assumption|].
  split; [exact HM|]. split; [exact Eh|]. split; [exact Ew|]. split.
  - exists (fun y x => f x y). split.
    + split; [exact L|]. intros y x Hy Hx. assert (x = 0) by lia. subst x. destruct (HS 0 y) as (A & V & R); [lia|exact Hy|].
      replace (y * 1 + 0) with (0 * (3 * 10) + y) by lia. split; [exact A|]. split; [exact V|exact R].
    + intros y x Hy Hx. apply (ND x y Hx Hy).
  - intros x i Hx Hi. destruct (AB x i Hx Hi) as (A1 & A2).
    rewrite (dct_2d_flip (3 * 10) 1) in A1, A2 by lia.
    replace (coefficient_error 1 (3 * 10) (radices_of lh) (radices_of lw) M + 4 * 1 * IZR (3 * 10) * d)%R
      with (coefficient_error (3 * 10) 1 (radices_of lw) (radices_of lh) M + 4 * IZR (3 * 10) * 1 * d)%R by (unfold coefficient_error; ring).
    split; [exact A1|exact A2].
Qed.
