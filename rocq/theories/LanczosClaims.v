(** @header
    Property C96: images scaled up with Lanczos' kernels. *)
From Coq Require Import Reals Lra Lia Psatz.
From Flocq Require Import Core IEEE754.Binary.
From Verif Require Import Base Flt Util Methods Analysis History Kiss Spec SpecAnalysis SpecUtil SpecReport SpecTransform SpecAccuracy SpecInterpolate SpecLanczos.
From Verif Require Import BaseProofs FltProofs RoundProofs WorldProofs AnalysisProofs ResultsProofs ClientProofs CompareProofs.
From Verif Require Import KissProofs KissFactor KissTransform KissExact KissAccuracy AccuracyProofs AccuracyTables UpscaleProofs UpscaleDetect
  InterpolateProofs InterpolateKernels CubicProofs LanczosProofs Demo AnalysisClaims KissClaims AccuracyClaims InterpolateClaims CubicClaims.
Open Scope list_scope.
Open Scope Z_scope.

Lemma normalised_total a K u : kernel_ok a K -> total a K u <> 0%R -> total a (normalised a K) u = 1%R.
Proof.
  intros KO T. assert (A := KO). destruct A as (A & _).
  assert (E : (total a (normalised a K) u = total a K u * / total a K u)%R); [|rewrite E; apply Rinv_r; exact T].
  unfold total at 1 2. rewrite <- rsum_mul by lia. apply rsum_ext. intros m _. unfold normalised, Rdiv. f_equal. f_equal.
  replace (u - IZR m)%R with (IZR (- m) + u)%R by (rewrite opp_IZR; ring). apply total_shift. exact KO.
Qed.
Lemma resampled_total N M a K c i : 1 <= N <= M -> kernel_ok a K ->
  resampled N M a K (fun _ => c) i = (c * total a K ((IZR i + 1/2) * IZR N / IZR M - 1/2))%R.
Proof.
  intros HN KO. assert (A := KO). destruct A as (A & _).
  assert (NR : (1 <= IZR N)%R) by (apply (IZR_le 1); lia). assert (NM : (IZR N <= IZR M)%R) by (apply IZR_le; lia).
  set (u := ((IZR i + 1/2) * IZR N / IZR M - 1/2)%R). set (q := i * N / M).
  assert (F : Zfloor u = q \/ Zfloor u = q - 1).
  { pose proof (Z.div_mod (i * N) M ltac:(lia)) as DM. pose proof (Z.mod_pos_bound (i * N) M ltac:(lia)) as MB. fold q in DM.
    assert (E : (IZR i * IZR N = IZR M * IZR q + IZR ((i * N) mod M))%R) by (rewrite <- !mult_IZR, <- plus_IZR; f_equal; exact DM).
    destruct MB as (R0 & R1). apply IZR_le in R0. apply IZR_lt in R1. change (IZR 0) with 0%R in R0.
    assert (U : (u * IZR M = IZR M * IZR q + IZR ((i * N) mod M) + (IZR N - IZR M) / 2)%R) by (unfold u; rewrite <- E; field; lra).
    set (r := IZR ((i * N) mod M)) in *.
    assert (L : (IZR q - 1/2 <= u)%R) by (apply Rmult_le_reg_r with (IZR M); [lra|]; lra).
    assert (H : (u < IZR q + 1)%R) by (apply Rmult_lt_reg_r with (IZR M); [lra|]; lra).
    destruct (Rle_or_lt (IZR q) u) as [G|G]; [left|right]; apply Zfloor_imp; rewrite plus_IZR, ?minus_IZR; change (IZR 1) with 1%R; lra. }
  rewrite (total_wide a K KO u (q - a) (q + a + 1)) by (destruct F as [F|F]; rewrite F; lia).
  unfold resampled. fold q. rewrite Rmult_comm, <- rsum_mul by lia. apply rsum_ext. intros m _.
  replace (reflected N (fun _ => c) m) with c by reflexivity. rewrite Rmult_comm. f_equal. f_equal. unfold offset, u. ring.
Qed.

(** C96.  Lanczos' kernels are symmetric, keep the old samples and are a samples wide; the sum
    of their weights is not far from one.  Divided by it, they keep images of one colour. *)
Lemma lanczos_kernels_claim : forall a, 2 <= a ->
  kernel_ok a (lanczos a) /\ kernel_ok a (normalised a (lanczos a)) /\
  (forall n, lanczos a (IZR n) = if n =? 0 then 1%R else 0%R) /\
  (forall u, (59/100 <= total a (lanczos a) u <= 128/100)%R) /\
  (forall N M c i, 1 <= N <= M -> resampled N M a (normalised a (lanczos a)) (fun _ => c) i = c).
Proof.
  intros a A. pose proof (lanczos_ok a ltac:(lia)) as KO. split; [exact KO|]. split; [apply normalised_ok; exact KO|].
  split; [intros; apply lanczos_int; lia|]. split; [intros; apply total_range; exact A|].
  intros N M c i H. rewrite resampled_total by (exact H || (apply normalised_ok; exact KO)). rewrite normalised_total; [ring|exact KO|].
  pose proof (total_range a ((IZR i + 1/2) * IZR N / IZR M - 1/2) A). lra.
Qed.
(** with two lobes, the weight half way between two samples is 4 sqrt 2 / pi^2 *)
Example lanczos_kernels_example : lanczos 2 (1/2) = (4 * sqrt 2 / PI ^ 2)%R.
Proof.
  pose proof pi_pos. unfold lanczos. rewrite Rabs_pos_eq by lra. destruct (Rlt_dec (1/2) 2) as [_|F]; [|exfalso; apply F; lra].
  replace (1 / 2 / 2)%R with (1/4)%R by field. rewrite !sinc_div by lra. replace (PI * (1/2))%R with (PI / 2)%R by field. replace (PI * (1/4))%R with (PI / 4)%R by field.
  rewrite sin_PI2, sin_PI4. assert (S : (0 < sqrt 2)%R) by (apply sqrt_lt_R0; lra). pose proof (sqrt_sqrt 2 ltac:(lra)) as SS.
  replace (1 / sqrt 2)%R with (sqrt 2 / 2)%R; [field; lra|]. rewrite <- SS at 2. field. lra.
Qed.

(** C96.  Whatever the whole factor and the number of lobes, they keep the signs of the
    coefficients around the end of the old spectrum. *)
Lemma lanczos_respond_claim : forall lobe a K N s k range, lanczos_kernel lobe a K ->
  1 <= N -> 2 <= s -> lobe * a * range <= N -> N - range <= k <= N + range ->
  exists P, (0 < P)%R /\ responds N (s * N) a K k P 0.
Proof. intros. eapply lanczos_responds; eassumption. Qed.
(** at most 12 away from 1280, with three lobes and weights that add up to one *)
Example lanczos_respond_example : forall s, 2 <= s -> forall k, 1268 <= k <= 1292 ->
  exists P, (0 < P)%R /\ responds 1280 (s * 1280) 3 (normalised 3 (lanczos 3)) k P 0.
Proof.
  intros s Hs k Hk. apply (lanczos_respond_claim 15 3 _ 1280 s k 12); try lia. split; [lia|]. right. split; reflexivity.
Qed.

(** C96.  So upscales by any whole factor are found that were made with such a kernel, and
    rounded or otherwise changed a little afterwards. *)
Lemma lanczos_upscale_width_claim : forall E0 twiddle super shift t0 F t m s N h p images l,
  let E := kiss_env (e_cfg E0) (e_alloc E0) (float_ops twiddle super shift) (e_qsort E0) t0 F t in
  env_ok E0 -> client_params (e_cfg E0) p -> 1 <= N -> s * N <= 2^20 -> 1 <= h <= 2^20 ->
  tables_close twiddle super shift (s * N) -> tables_close twiddle super shift h ->
  zlen images <= 2^53 -> used_method m = Msign -> used_filter p = 0 -> 2 <= s ->
  used_range (e_cfg E0) m p < N ->
  (forall image, In image images -> lanczos_upscale_x s N h (used_range (e_cfg E0) m p) image) ->
  reported E m (s * N) h p images (seen_x E (s * N) h images) (s * N) l ->
  In (mkRes N (f32_of_Z 1)) l.
Proof.
  intros E0 twiddle super shift t0 F t m s N h p images l E HE HP N1 Hw Hh Tw Th HN HM HF S2 HR HI R.
  assert (RP : 1 <= used_range (e_cfg E0) m p) by (apply (used_range_pos E0 0 0 m p); split; [exact HE|]; split; [lia|]; split; [lia|exact HP]).
  eapply (interpolated_width_claim E0 twiddle super shift t0 F t m N (s * N) h p images l); try eassumption; [nia|nia|].
  intros image I. destruct (HI image I) as (g & lobe & a & K & M & d & lw & lh & HK & HL & HMM & Ew & Eh & NS & AB).
  destruct (image_bounded g N h ltac:(lia) ltac:(lia)) as (G & HG).
  exists g, a, K, G, M, d, 0%R, lw, lh.
  split; [apply (lanczos_responds lobe a K N s N (used_range (e_cfg E0) m p)); try assumption; lia|]. split; [exact HG|].
  split; [intros k Hk; apply (lanczos_responds lobe a K N s k (used_range (e_cfg E0) m p)); try assumption; lia|].
  split; [exact HMM|]. split; [exact Ew|]. split; [exact Eh|]. split; [exact NS|].
  eapply above_more_x; [|exact AB]. ring.
Qed.

(** C96.  The same of the height. *)
Lemma lanczos_upscale_height_claim : forall E0 twiddle super shift t0 F t m s N w p images l,
  let E := kiss_env (e_cfg E0) (e_alloc E0) (float_ops twiddle super shift) (e_qsort E0) t0 F t in
  env_ok E0 -> client_params (e_cfg E0) p -> 1 <= N -> s * N <= 2^20 -> 1 <= w <= 2^20 ->
  tables_close twiddle super shift w -> tables_close twiddle super shift (s * N) ->
  zlen images <= 2^53 -> used_method m = Msign -> used_filter p = 0 -> 2 <= s ->
  used_range (e_cfg E0) m p < N ->
  (forall image, In image images -> lanczos_upscale_y s N w (used_range (e_cfg E0) m p) image) ->
  reported E m w (s * N) p images (seen_y E w (s * N) images) (s * N) l ->
  In (mkRes N (f32_of_Z 1)) l.
Proof.
  intros E0 twiddle super shift t0 F t m s N w p images l E HE HP N1 Hh Hw Tw Th HN HM HF S2 HR HI R.
  assert (RP : 1 <= used_range (e_cfg E0) m p) by (apply (used_range_pos E0 0 0 m p); split; [exact HE|]; split; [lia|]; split; [lia|exact HP]).
  eapply (interpolated_height_claim E0 twiddle super shift t0 F t m N w (s * N) p images l); try eassumption; [nia|nia|].
  intros image I. destruct (HI image I) as (g & lobe & a & K & M & d & lw & lh & HK & HL & HMM & Ew & Eh & NS & AB).
  destruct (image_bounded g w N ltac:(lia) ltac:(lia)) as (G & HG).
  exists g, a, K, G, M, d, 0%R, lw, lh.
  split; [apply (lanczos_responds lobe a K N s N (used_range (e_cfg E0) m p)); try assumption; lia|]. split; [exact HG|].
  split; [intros k Hk; apply (lanczos_responds lobe a K N s k (used_range (e_cfg E0) m p)); try assumption; lia|].
  split; [exact HMM|]. split; [exact Ew|]. split; [exact Eh|]. split; [exact NS|].
  intros x i Hx Hi. destruct (AB x i Hx Hi) as (A1 & A2). rewrite Rmult_0_r, Rplus_0_r. split; assumption.
Qed.

(** ** A concrete case *)
(** 1000 -1000 1000 ..., sixty samples, twice as wide with two lobes and rounded down *)
Definition fine_stripe (x : Z) : R := if Z.even x then 1000%R else (-1000)%R.
Definition fine_value (x : Z) : R := resampled 60 (2 * 60) 2 (normalised 2 (lanczos 2)) fine_stripe x.
Definition fine_line : list Z := map (fun x => Zfloor (fine_value x)) (zrange 0 120).
Definition fine_image : list f32 := map signed fine_line.
Lemma fine_bound x : (Rabs (fine_value x) <= 9000)%R.
Proof.
  unfold fine_value, resampled.
  eapply Rle_trans; [apply (rsum_bounded _ _ _ 1800); [lia|]|replace (x * 60 / (2 * 60) + 2 + 1 - (x * 60 / (2 * 60) - 2)) with 5 by lia; lra].
  intros m _. rewrite Rabs_mult. set (u := offset 60 (2 * 60) x m).
  assert (S : (Rabs (reflected 60 fine_stripe m) <= 1000)%R) by (unfold reflected, fine_stripe; destruct (Z.even _); [rewrite Rabs_pos_eq|rewrite Rabs_left]; lra).
  pose proof (total_range 2 u ltac:(lia)) as T.
  assert (L : (Rabs (lanczos 2 u) <= 1)%R).
  { unfold lanczos. destruct (Rlt_dec (Rabs u) 2) as [U|U]; [|rewrite Rabs_R0; lra].
    assert (W : forall v, (Rabs (sinc v) <= 1)%R).
    { intros v. destruct (Req_dec v 0) as [->|V]; [rewrite sinc_0, Rabs_R1; lra|]. pose proof pi_pos. rewrite sinc_div by exact V. unfold Rdiv. rewrite Rabs_mult, Rabs_inv.
      assert (P : (0 < Rabs (PI * v))%R) by (apply Rabs_pos_lt; nra). apply Rmult_le_reg_r with (Rabs (PI * v)); [exact P|]. rewrite Rmult_assoc, Rinv_l, Rmult_1_l, Rmult_1_r by lra.
      pose proof (sin_close (PI * v) 0) as S0. rewrite sin_0, !Rminus_0_r in S0. exact S0. }
    rewrite Rabs_mult. pose proof (W u). pose proof (W (u / 2)%R). pose proof (Rabs_pos (sinc u)). pose proof (Rabs_pos (sinc (u / 2))). nra. }
  assert (Q : (Rabs (normalised 2 (lanczos 2) u) <= 18/10)%R).
  { unfold normalised, Rdiv. rewrite Rabs_mult, (Rabs_pos_eq (/ _)) by (left; apply Rinv_0_lt_compat; lra).
    assert (I : (0 < / total 2 (lanczos 2) u <= 100/59)%R) by (split; [apply Rinv_0_lt_compat; lra|]; replace (100/59)%R with (/ (59/100))%R by field; apply Rinv_le_contravar; lra).
    pose proof (Rabs_pos (lanczos 2 u)). nra. }
  pose proof (Rabs_pos (reflected 60 fine_stripe m)). pose proof (Rabs_pos (normalised 2 (lanczos 2) u)). nra.
Qed.
Lemma fine_dct k : Z.odd k = true -> (dct 60 fine_stripe k * cos (PI * IZR k / 60 / 2) = 2000)%R.
Proof.
  intros O. unfold dct. rewrite (rsum_ext _ (fun j => (if Z.even j then 1 else -1) * cos (PI * IZR k / 60 * (IZR j + 1/2)) * 1000)%R).
  - rewrite rsum_mul by lia. pose proof (alternating_sum (PI * IZR k / 60) 60 ltac:(lia)) as A. change (Z.even 60) with true in A. cbv iota in A.
    assert (C1 : (cos (PI * IZR k / 60 * IZR 60) = -1)%R).
    { replace (PI * IZR k / 60 * IZR 60)%R with (PI * IZR k)%R by (change (IZR 60) with 60%R; field).
      apply Z.odd_spec in O. destruct O as (q & ->). rewrite plus_IZR, mult_IZR. replace (PI * (2 * IZR q + 1))%R with (PI + 2 * IZR q * PI)%R by ring.
      rewrite cos_2kPI. apply cos_PI. }
    rewrite C1 in A. set (s := rsum _ 0 60) in *. nra.
  - intros j Hj. unfold fine_stripe. replace (PI * IZR k * (IZR j + 1 / 2) / 60)%R with (PI * IZR k / 60 * (IZR j + 1 / 2))%R by field.
    destruct (Z.even j); ring.
Qed.
Lemma fine_response k : k = 59 \/ k = 61 -> (1/10 <= phase_cos 60 (2 * 60) 2 (normalised 2 (lanczos 2)) k 0)%R.
Proof.
  intros Hk. pose proof (lanczos_ok 2 ltac:(lia)) as KO. change (normalised 2 (lanczos 2)) with (kern 2 (total 2 (lanczos 2))).
  assert (DB : forall u, (59/100 <= total 2 (lanczos 2) u <= 128/100)%R) by (intros; apply total_range; lia).
  pose proof (edge_low 2 2 (total 2 (lanczos 2)) (59/100) (128/100) ltac:(lia) ltac:(lia) ltac:(lra) DB (total_opp 2 _ KO) (total_shift 2 _ KO) 60 ltac:(lia)) as L.
  pose proof (edge_near 2 2 (total 2 (lanczos 2)) (59/100) (128/100) ltac:(lia) ltac:(lia) ltac:(lra) DB (total_opp 2 _ KO) 60 k ltac:(lia)) as E.
  apply Rabs_le_inv in E. assert (A : (Rabs (IZR (k - 60)) = 1)%R) by (rewrite <- abs_IZR; destruct Hk as [->| ->]; reflexivity). rewrite A in E.
  set (P := phase_cos 60 (2 * 60) 2 (kern 2 (total 2 (lanczos 2))) k 0) in *. lra.
Qed.
Lemma fine_large k : k = 59 \/ k = 61 -> (1000 < Rabs (dct_2d (2 * 60) 1 (rows_resampled 60 (2 * 60) 2 (normalised 2 (lanczos 2)) (fun _ => fine_stripe)) 0 k))%R.
Proof.
  intros Hk. pose proof (normalised_ok 2 _ (lanczos_ok 2 ltac:(lia))) as KO. rewrite dct_2d_line by lia.
  change (dct (2 * 60) (rows_resampled 60 (2 * 60) 2 (normalised 2 (lanczos 2)) (fun _ => fine_stripe) 0) k) with
    (dct (2 * 60) (resampled 60 (2 * 60) 2 (normalised 2 (lanczos 2)) fine_stripe) k).
  pose proof (fine_response k Hk) as P0. set (P := phase_cos 60 (2 * 60) 2 (normalised 2 (lanczos 2)) k 0) in *.
  assert (RS : responds 60 (2 * 60) 2 (normalised 2 (lanczos 2)) k P 0) by (apply responds_whole; [lia|lia|exact KO]).
  assert (GB : forall j, 0 <= j < 60 -> (Rabs (fine_stripe j) <= 1000)%R) by (intros j _; unfold fine_stripe; destruct (Z.even j); [rewrite Rabs_pos_eq|rewrite Rabs_left]; lra).
  pose proof (resampled_dct 60 (2 * 60) 2 (normalised 2 (lanczos 2)) fine_stripe k ltac:(lia) KO P 0 1000 GB RS) as RD. rewrite Rmult_0_r in RD.
  set (X := dct (2 * 60) _ k) in *. set (A := dct 60 fine_stripe k) in *. apply Rabs_le_inv in RD. replace X with (P * A)%R by lra.
  pose proof (fine_dct k ltac:(destruct Hk as [->| ->]; reflexivity)) as SD. fold A in SD. pose proof pi_near as PN.
  assert (CS : (Rabs (cos (PI * IZR k / 60 / 2)) <= 3/100)%R).
  { destruct Hk as [->| ->].
    - replace (PI * 59 / 60 / 2)%R with (PI / 2 - PI / 120)%R by field. rewrite cos_shift. pose proof (sin_close (PI / 120) 0) as S. rewrite sin_0, !Rminus_0_r in S.
      eapply Rle_trans; [exact S|]. rewrite Rabs_pos_eq; lra.
    - replace (PI * 61 / 60 / 2)%R with (PI / 2 - - (PI / 120))%R by field. rewrite cos_shift. pose proof (sin_close (- (PI / 120)) 0) as S. rewrite sin_0, !Rminus_0_r in S.
      eapply Rle_trans; [exact S|]. rewrite Rabs_Ropp, Rabs_pos_eq; lra. }
  assert (AB : (60000 <= Rabs A)%R).
  { assert (E : (Rabs A * Rabs (cos (PI * IZR k / 60 / 2)) = 2000)%R) by (rewrite <- Rabs_mult, SD; apply Rabs_pos_eq; lra).
    pose proof (Rabs_pos A). nra. }
  rewrite !Rabs_mult, (Rabs_pos_eq 2), (Rabs_pos_eq P) by lra. nra.
Qed.
Lemma fine_floor x : Z.abs (Zfloor (fine_value x)) <= 9001.
Proof.
  pose proof (fine_bound x) as B. apply Rabs_le_inv in B. pose proof (Zfloor_lb (fine_value x)) as L. pose proof (Zfloor_ub (fine_value x)) as U.
  assert ((-9001 < IZR (Zfloor (fine_value x)) < 9001)%R) as (A1 & A2) by lra. apply lt_IZR in A1, A2. lia.
Qed.
Lemma fine_length : zlen fine_line = 2 * 60.
Proof. unfold fine_line. pose proof (zlen_zrange 0 120 ltac:(lia)) as Z. unfold zlen in *. rewrite map_length. lia. Qed.
Lemma fine_upscaled : lanczos_upscale_x 2 60 1 1 fine_image.
Proof.
  exists (fun _ => fine_stripe), 15, 2, (normalised 2 (lanczos 2)), 9001%R, 1%R, [4; 30; 2; 15; 3; 5; 5; 1], [1; 1].
  split; [split; [lia|right; split; reflexivity]|]. split; [lia|]. split; [lra|]. split; [reflexivity|]. split; [reflexivity|]. split.
  - exists (fun y x => IZR (at_ 0 fine_line x)). split.
    + pose proof (line_samples fine_line 9001 ltac:(lia)) as H. rewrite fine_length in H. apply H.
      apply Forall_forall. intros z Hz. unfold fine_line in Hz. apply in_map_iff in Hz. destruct Hz as (x & <- & _). apply fine_floor.
    + intros y x Hy Hx. replace (at_ 0 fine_line x) with (Zfloor (fine_value x)).
      * change (rows_resampled 60 (2 * 60) 2 (normalised 2 (lanczos 2)) (fun _ => fine_stripe) y x) with (fine_value x).
        pose proof (Zfloor_lb (fine_value x)). pose proof (Zfloor_ub (fine_value x)). apply Rabs_le. lra.
      * unfold fine_line. rewrite (at_map 0) by (rewrite zlen_zrange; lia). rewrite at_zrange by lia. reflexivity.
  - change (radices_of [4; 30; 2; 15; 3; 5; 5; 1]) with [4; 2; 3; 5]. change (radices_of [1; 1]) with [1].
    assert (CE : (coefficient_error (2 * 60) 1 [4; 2; 3; 5]%Z [1]%Z 9001 <= 200)%R) by (unfold coefficient_error, loss, passes, pass_error; cbn; lra).
    intros y i Hy Hi. assert (y = 0) by lia. assert (i = 1) by lia. subst y i. change (60 - 1) with 59. change (60 + 1) with 61. change (IZR (2 * 60)) with 120%R.
    pose proof (fine_large 59 ltac:(left; reflexivity)). pose proof (fine_large 61 ltac:(right; reflexivity)). split; lra.
Qed.
Example lanczos_upscale_width_example :
  env_ok demo_env /\ client_params (e_cfg demo_env) upscale_params /\ used_filter upscale_params = 0 /\
  used_range (e_cfg demo_env) None upscale_params = 1 /\ lanczos_upscale_x 2 60 1 1 fine_image /\
  exists twiddle super shift l l', tables_close twiddle super shift (2 * 60) /\ tables_close twiddle super shift 1 /\
    let E := kiss_env (e_cfg demo_env) (e_alloc demo_env) (float_ops twiddle super shift) (e_qsort demo_env) f0 (f0, f0) (f0, f0) in
    reported E None (2 * 60) 1 upscale_params [fine_image] (seen_x E (2 * 60) 1 [fine_image]) (2 * 60) l /\
    reported E None (2 * 60) 1 upscale_params [fine_image] (seen_y E (2 * 60) 1 [fine_image]) 1 l'.
Proof.
  split; [exact demo_env_ok|].
  assert (HP : client_params (e_cfg demo_env) upscale_params).
  { right. exists [Range 1], [RDEOK]. split; [repeat constructor; simpl; lia|reflexivity]. }
  split; [exact HP|]. split; [reflexivity|]. split; [reflexivity|]. split; [exact fine_upscaled|].
  destruct tables_exist as (tw & su & sh & T). exists tw, su, sh.
  set (E := kiss_env (e_cfg demo_env) (e_alloc demo_env) (float_ops tw su sh) (e_qsort demo_env) f0 (f0, f0) (f0, f0)).
  assert (HC : client_ok E (2 * 60) 1 upscale_params).
  { split; [apply kiss_env_claim, demo_env_ok|]. split; [lia|]. split; [lia|]. exact HP. }
  assert (LF : zlen fine_image = 2 * 60) by (unfold fine_image, zlen; rewrite map_length; exact fine_length).
  destruct (reported_all E None (2 * 60) 1 upscale_params [fine_image] HC) as (l & l' & R1 & R2).
  - reflexivity.
  - unfold plan_fits. vm_compute. intuition discriminate.
  - constructor; [|constructor]. split; [|rewrite LF; lia]. unfold valid_image. rewrite firstn_all2 by (unfold zlen in LF; lia).
    apply Forall_forall. intros v Hv. unfold fine_image, fine_line in Hv. rewrite map_map in Hv. apply in_map_iff in Hv. destruct Hv as (x & <- & _).
    pose proof (fine_floor x). apply signed_val. lia.
  - unfold countable; simpl; lia.
  - discriminate.
  - exists l, l'. split; [apply T; lia|]. split; [apply T; lia|]. split; [exact R1|exact R2].
Qed.
(** the same samples as a column *)
Example lanczos_upscale_height_example : lanczos_upscale_y 2 60 1 1 fine_image /\ used_range (e_cfg demo_env) None upscale_params = 1.
Proof.
  split; [|reflexivity].
  destruct fine_upscaled as (g & lobe & a & K & M & d & lw & lh & HK & HL & HM & Ew & Eh & (f & (L & HS) & ND) & AB).
  exists (fun y x => g x y), lobe, a, K, M, d, lh, lw. split; [exact HK|]. split; [exact HL|]. split; [exact HM|]. split; [exact Eh|]. split; [exact Ew|]. split.
  - exists (fun y x => f x y). split.
    + split; [exact L|]. intros y x Hy Hx. assert (x = 0) by lia. subst x. destruct (HS 0 y) as (A & V & R); [lia|exact Hy|].
      replace (y * 1 + 0) with (0 * (2 * 60) + y) by lia. split; [exact A|]. split; [exact V|exact R].
    + intros y x Hy Hx. apply (ND x y Hx Hy).
  - intros x i Hx Hi. destruct (AB x i Hx Hi) as (A1 & A2).
    rewrite (dct_2d_flip (2 * 60) 1) in A1, A2 by lia.
    replace (coefficient_error 1 (2 * 60) (radices_of lh) (radices_of lw) M + 4 * 1 * IZR (2 * 60) * d)%R
      with (coefficient_error (2 * 60) 1 (radices_of lw) (radices_of lh) M + 4 * IZR (2 * 60) * 1 * d)%R by (unfold coefficient_error; ring).
    split; [exact A1|exact A2].
Qed.
