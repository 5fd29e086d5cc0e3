(** @header
    Property C79: images scaled up by interpolation. *)
From Coq Require Import Reals Lra Lia Psatz.
From Flocq Require Import Core IEEE754.Binary.
From Verif Require Import Base Flt Util Methods Analysis History Kiss Spec SpecAnalysis SpecUtil SpecReport SpecTransform SpecAccuracy SpecInterpolate.
From Verif Require Import BaseProofs FltProofs RoundProofs WorldProofs AnalysisProofs ResultsProofs ClientProofs CompareProofs.
From Verif Require Import KissProofs KissFactor KissTransform KissExact KissRound KissAccuracy AccuracyProofs AccuracyTables UpscaleProofs UpscaleDetect
  InterpolateProofs InterpolateKernels Demo AnalysisClaims KissClaims AccuracyClaims.
Open Scope list_scope.
Open Scope Z_scope.

(** C79.  Resampling a line of N samples, mirrored at its ends, to M >= N samples with
    symmetric weights multiplies coefficient k by the response, up to aliasing. *)
Lemma interpolation_coefficients_claim : forall N M a K x k P leak G,
  1 <= N <= M -> kernel_ok a K -> (forall j, 0 <= j < N -> (Rabs (x j) <= G)%R) -> responds N M a K k P leak ->
  (Rabs (dct M (resampled N M a K x) k - P * dct N x k) <= 2 * IZR N * G * leak)%R.
Proof. intros. apply resampled_dct; assumption. Qed.

(** the line 256 0 *)
Definition two_samples (j : Z) : R := if j =? 0 then 256%R else 0%R.
Lemma tent_quarter j : tent (IZR j / 4) = (IZR (Z.max 0 (4 - Z.abs j)) / 4)%R.
Proof. pose proof (tent_int 2 j ltac:(lia)) as T. replace (2 * 2)%R with 4%R in T by ring. exact T. Qed.
Lemma two_to_four i : 0 <= i < 4 -> resampled 2 4 1 tent two_samples i = nth (Z.to_nat i) [256; 192; 64; 0]%R 0%R.
Proof.
  intros Hi. assert (O : forall i m, offset 2 4 i m = (IZR (2 * i - 4 * m - 1) / 4)%R).
  { intros. unfold offset. rewrite !minus_IZR, !mult_IZR. field. }
  assert (C : i = 0 \/ i = 1 \/ i = 2 \/ i = 3) by lia. unfold resampled, rsum.
  destruct C as [->|[->|[->| ->]]]; match goal with |- context [Z.to_nat ?x] => let n := eval vm_compute in (Z.to_nat x) in change (Z.to_nat x) with n end; cbn [Z.mul Z.div Z.add Z.sub nth];
    match goal with |- context [zrange ?a ?b] => let v := eval vm_compute in (zrange a b) in change (zrange a b) with v end; cbn [fold_right];
    rewrite !O, !tent_quarter; cbn -[Rmult Rplus Rdiv IZR]; change (two_samples 0) with 256%R; change (two_samples 1) with 0%R; field.
Qed.
(** ... linear interpolation makes 256 192 64 0 of it; 2 coefficients are those of the
    line times the response, which is positive *)
Example interpolation_coefficients_example :
  kernel_ok 1 tent /\ (forall j, 0 <= j < 2 -> (Rabs (two_samples j) <= 256)%R) /\
  (forall i, 0 <= i < 4 -> resampled 2 4 1 tent two_samples i = nth (Z.to_nat i) [256; 192; 64; 0]%R 0%R) /\
  (forall k, 0 < k < 4 -> exists P, (0 < P)%R /\ responds 2 (2 * 2) 1 tent k P 0).
Proof.
  split; [exact tent_ok|]. split.
  { intros j Hj. unfold two_samples. destruct (j =? 0); rewrite Rabs_pos_eq; lra. }
  split; [exact two_to_four|]. intros k Hk. exists (phase_cos 2 (2 * 2) 1 tent k 0). split.
  - apply tent_positive; lia.
  - apply responds_whole; try lia. exact tent_ok.
Qed.

(** C79.  For whole factors there is no aliasing ... *)
Lemma whole_factors_claim : forall N s a K k, 1 <= N -> 1 <= s -> kernel_ok a K ->
  responds N (s * N) a K k (phase_cos N (s * N) a K k 0) 0.
Proof. intros. apply responds_whole; assumption. Qed.

(** ... repeating samples is interpolation with the box, and its response is positive ... *)
Lemma nearest_response_claim : forall N s, 1 <= N -> 1 <= s -> kernel_ok 1 box /\
  (forall g y x, 0 <= x < s * N -> rows_resampled N (s * N) 1 box g y x = widened s g y x) /\
  (forall k, 0 < k < 2 * N -> (0 < phase_cos N (s * N) 1 box k 0)%R).
Proof.
  intros N s HN Hs. split; [exact box_ok|]. split.
  - intros g y x Hx. apply resampled_box; assumption.
  - intros k Hk. apply box_positive; assumption.
Qed.

(** twice the size, at frequency N: the square root of 2, against 2 at frequency 0 *)
Example nearest_response_example : forall N, 1 <= N -> (phase_cos N (2 * N) 1 box N 0 * sin (PI / 4) = 1)%R.
Proof.
  intros N HN. pose proof (box_response N 2 N HN ltac:(lia)) as E. assert (0 < IZR N)%R by (apply IZR_lt; lia).
  replace (PI * IZR N / IZR (2 * N) / 2)%R with (PI / 4)%R in E by (rewrite mult_IZR; field; lra).
  replace (PI * IZR N / IZR N / 2)%R with (PI / 2)%R in E by (field; lra). rewrite sin_PI2 in E. exact E.
Qed.

(** ... as is that of linear interpolation ... *)
Lemma linear_response_claim : forall N s k, 1 <= N -> 2 <= s -> 0 < k < 2 * N ->
  kernel_ok 1 tent /\ (0 < phase_cos N (s * N) 1 tent k 0)%R.
Proof. intros. split; [exact tent_ok|]. apply tent_positive; assumption. Qed.

Example linear_response_example : forall N, 1 <= N -> phase_cos N (2 * N) 1 tent N 0 = cos (PI / 4).
Proof.
  intros N HN. pose proof (tent_response N 2 N HN ltac:(lia)) as E. cbv zeta in E. assert (0 < IZR N)%R by (apply IZR_lt; lia).
  replace (PI * IZR N / IZR (2 * N) / 2)%R with (PI / 4)%R in E by (rewrite mult_IZR; field; lra).
  replace (PI * IZR N / IZR N)%R with PI in E by (field; lra). replace (2 * (PI / 4))%R with (PI / 2)%R in E by field.
  rewrite cos_PI2, cos_PI in E. cbn [Z.even] in E. lra.
Qed.

(** ... and that of Catmull and Rom's for twice the size. *)
Lemma cubic_response_claim : forall N k, 1 <= N -> 0 < k < 2 * N ->
  kernel_ok 2 catmull_rom /\ (0 < phase_cos N (2 * N) 2 catmull_rom k 0)%R.
Proof. intros. split; [exact catmull_rom_ok|]. apply catmull_positive; assumption. Qed.
Example cubic_response_example : forall N, 1 <= N -> phase_cos N (2 * N) 2 catmull_rom N 0 = (11/4 * cos (PI / 4) ^ 3)%R.
Proof.
  intros N HN. rewrite catmull_response by exact HN. cbv zeta. assert (0 < IZR N)%R by (apply IZR_lt; lia).
  replace (PI * IZR N / IZR (2 * N) / 2)%R with (PI / 4)%R by (rewrite mult_IZR; field; lra).
  set (c := cos (PI / 4)). assert (C : (c * c = 1/2)%R).
  { unfold c. rewrite cos_PI4. pose proof (sqrt_sqrt 2 ltac:(lra)) as S. pose proof sqrt2_neq_0 as NZ.
    replace (1 / sqrt 2 * (1 / sqrt 2))%R with (1 / (sqrt 2 * sqrt 2))%R by (field; exact NZ). rewrite S. reflexivity. }
  replace (c ^ 3 * (2 + 3 * c ^ 2 - 3 * c ^ 4))%R with (c ^ 3 * (2 + 3 * (c * c) - 3 * ((c * c) * (c * c))))%R by ring. rewrite C. field.
Qed.

(** C79.  Linear interpolation from 2p to 3p samples: positive, and little aliasing
    around coefficient 2p. *)
Lemma halves_response_claim : forall p k range, 1 <= p -> 0 < range < 2 * p -> 2 * p - range <= k <= 2 * p + range ->
  exists P, (0 < P)%R /\ responds (2 * p) (3 * p) 1 tent k P (halves_leak (2 * p) range).
Proof. intros. apply halves_responds; assumption. Qed.
(** from 720 to 1080 lines, within a range of 12: less than 0.0008 *)
Example halves_response_example : 0 < 12 < 2 * 360 /\ (halves_leak (2 * 360) 12 < 8 / 10000)%R.
Proof.
  split; [lia|]. unfold halves_leak. change (2 * 360) with 720. pose proof PI_RGT_0. pose proof PI_4.
  replace (PI * 12 / 720)%R with (PI / 60)%R by field. nra.
Qed.

(** ** Proof of the detection theorems *)
Lemma dct_2d_near w h f g d row col : 1 <= w -> 1 <= h ->
  (forall y x, 0 <= y < h -> 0 <= x < w -> (Rabs (f y x - g y x) <= d)%R) ->
  (Rabs (dct_2d w h f row col - dct_2d w h g row col) <= 4 * IZR w * IZR h * d)%R.
Proof.
  intros Hw Hh H. rewrite <- !dct_dct by assumption. rewrite dct_sub by lia.
  replace (4 * IZR w * IZR h * d)%R with (2 * IZR h * (2 * IZR w * d))%R by ring. apply dct_bound; [lia|].
  intros y Hy. rewrite dct_sub by lia. apply dct_bound; [lia|]. intros x Hx. apply H; assumption.
Qed.

(** mirrored coefficients that aliasing cannot explain have opposite signs *)
Lemma rows_opposite N w h a K g G leak P P' i row : 1 <= N <= w -> 1 <= h -> kernel_ok a K ->
  (forall y x, 0 <= y < h -> 0 <= x < N -> (Rabs (g y x) <= G)%R) ->
  (0 < P)%R -> responds N w a K (N - i) P leak -> (0 < P')%R -> responds N w a K (N + i) P' leak ->
  let D k := dct_2d w h (rows_resampled N w a K g) row k in
  (4 * IZR N * IZR h * G * leak < Rabs (D (N - i)%Z))%R -> (4 * IZR N * IZR h * G * leak < Rabs (D (N + i)%Z))%R -> (D (N - i)%Z * D (N + i)%Z < 0)%R.
Proof.
  intros HN Hh KO HG HP R1 HP' R2 D B1 B2.
  set (A := fun k => dct h (fun y => dct N (g y) k) row).
  assert (AO : A (N + i) = (- A (N - i)%Z)%R).
  { unfold A. rewrite (dct_ext h _ (fun y => (-1) * dct N (g y) (N - i))%R).
    - rewrite dct_scale by lia. ring.
    - intros y Hy. rewrite dct_odd by lia. ring. }
  assert (NEAR : forall k P, responds N w a K k P leak -> (Rabs (D k - P * A k) <= 4 * IZR N * IZR h * G * leak)%R).
  { intros k Q RQ. unfold D, A. rewrite <- dct_dct by lia. rewrite <- dct_scale, dct_sub by lia.
    replace (4 * IZR N * IZR h * G * leak)%R with (2 * IZR h * (2 * IZR N * G * leak))%R by ring. apply dct_bound; [lia|].
    intros y Hy. apply (resampled_dct N w a K (g y) k HN KO Q leak G); [|exact RQ]. intros j Hj. apply HG; assumption. }
  pose proof (NEAR _ _ R1) as N1. pose proof (NEAR _ _ R2) as N2. rewrite AO in N2.
  set (E := (4 * IZR N * IZR h * G * leak)%R) in *. set (u := D (N - i)) in *. set (v := D (N + i)) in *. set (q := A (N - i)) in *.
  assert (U : (0 < u * q)%R).
  { revert N1 B1. unfold Rabs. destruct (Rcase_abs u), (Rcase_abs (u - P * q)); intros; nra. }
  assert (V : (v * q < 0)%R).
  { revert N2 B2. unfold Rabs. destruct (Rcase_abs v), (Rcase_abs (v - P' * - q)); intros; nra. }
  destruct (Rle_or_lt 0 (u * v)); nra.
Qed.

Lemma opposite_products a b r r' : agrees a r -> agrees b r' -> (r * r' < 0)%R -> xorb (fsign a) (fsign b) = true.
Proof.
  intros A B E. apply agrees_sign in A. apply agrees_sign in B.
  destruct A as [(-> & A)|(-> & A)], B as [(-> & B)|(-> & B)]; try reflexivity; exfalso; nra.
Qed.

Lemma coefficient_error_pos w h M lw lh : 1 <= w <= 2^20 -> 1 <= h <= 2^20 -> (1 <= M <= 1048576)%R -> kf_factor w = Ok lw -> kf_factor h = Ok lh ->
  (0 <= coefficient_error w h (radices_of lw) (radices_of lh) M)%R.
Proof.
  intros Hw Hh HM Ew Eh.
  destruct (growth_small w lw ltac:(lia) Ew) as (G1 & _ & F1). destruct (growth_small h lh ltac:(lia) Eh) as (G2 & _ & F2).
  unfold coefficient_error, loss. rewrite (passes_growth lw w F1), (passes_growth lh h F2). unfold ulp1 in *.
  assert (1 <= IZR w)%R by (apply IZR_le; lia). assert (1 <= IZR h)%R by (apply IZR_le; lia).
  assert (0 <= 4 * IZR w * IZR h * M)%R by (repeat apply Rmult_le_pos; lra).
  apply Rmult_le_pos; [assumption|].
  match goal with |- (0 <= (1 + 3 / 2 * (?p - 1)) * (1 + 3 / 2 * (?q - 1)) - 1)%R => assert (1 <= p)%R by nra; assert (1 <= q)%R by nra; nra end.
Qed.

(** a computed coefficient has the sign of that of samples nearby *)
Lemma kiss_signs_near E twiddle super shift m F t w h image g M d e lw lh :
  1 <= w <= 2^20 -> 1 <= h <= 2^20 ->
  tables_close twiddle super shift w -> tables_close twiddle super shift h ->
  (1 <= M <= 1048576)%R -> kf_factor w = Ok lw -> kf_factor h = Ok lh -> nearly_samples w h image g M d -> (0 <= e)%R -> (0 <= d)%R ->
  forall y x, 0 <= y < h -> 0 <= x < w ->
    (coefficient_error w h (radices_of lw) (radices_of lh) M + 4 * IZR w * IZR h * d + e < Rabs (dct_2d w h g y x))%R ->
    agrees (at_ f0 (plane (kiss_env (e_cfg E) (e_alloc E) (float_ops twiddle super shift) (e_qsort E) m F t) w h image) (y * w + x))
      (dct_2d w h g y x).
Proof.
  intros Hw Hh Tw Th HM Ew Eh (f & Hf & Hd) He D0 y x Hy Hx HB.
  pose proof (dct_2d_near w h f g d y x ltac:(lia) ltac:(lia) Hd) as NR.
  pose proof (coefficient_error_pos w h M lw lh Hw Hh HM Ew Eh) as CE.
  assert (BF : (coefficient_error w h (radices_of lw) (radices_of lh) M < Rabs (dct_2d w h f y x))%R).
  { revert NR HB. unfold Rabs. destruct (Rcase_abs _), (Rcase_abs _), (Rcase_abs _); intros; lra. }
  destruct (kiss_signs_claim E twiddle super shift m F t w h image f M lw lh Hw Hh Tw Th HM Ew Eh Hf y x Hy Hx BF) as (FA & PA).
  split; [exact FA|]. set (v := B2R 24 128 _) in *.
  assert (S : (0 < dct_2d w h f y x * dct_2d w h g y x)%R).
  { revert NR HB. unfold Rabs. destruct (Rcase_abs (_ - _)), (Rcase_abs (dct_2d w h g y x)); intros; nra. }
  nra.
Qed.

(** C79.  The KISS build reports width N with confidence 1, in C floats, for frames whose
    rows were resampled from N samples with positive responses around N, even if every
    sample was changed by up to d afterwards.  Samples may have been rounded, say. *)
Lemma interpolated_width_claim : forall E0 twiddle super shift t0 F t m N w h p images l,
  let E := kiss_env (e_cfg E0) (e_alloc E0) (float_ops twiddle super shift) (e_qsort E0) t0 F t in
  env_ok E0 -> client_params (e_cfg E0) p -> 1 <= w <= 2^20 -> 1 <= h <= 2^20 ->
  tables_close twiddle super shift w -> tables_close twiddle super shift h ->
  zlen images <= 2^53 -> used_method m = Msign -> used_filter p = 0 ->
  used_range (e_cfg E0) m p < N < w - used_range (e_cfg E0) m p ->
  (forall image, In image images -> interpolated_x N w h (used_range (e_cfg E0) m p) image) ->
  reported E m w h p images (seen_x E w h images) w l ->
  In (mkRes N (f32_of_Z 1)) l.
Proof.
  intros E0 twiddle super shift t0 F t m N w h p images l E HE HP Hw Hh Tw Th HN HM HF HR HI R.
  assert (HEE : env_ok E) by (apply kiss_env_claim; exact HE).
  assert (HC : client_ok E w h p) by (split; [exact HEE|]; split; [lia|]; split; [lia|exact HP]).
  pose proof (used_range_pos E w h m p HC) as RP. change (e_cfg E) with (e_cfg E0) in RP.
  eapply all_inverted_reported; try eassumption; [change (e_cfg E) with (e_cfg E0); lia|].
  intros D I y i Hy Hi. change (e_cfg E) with (e_cfg E0) in Hi. apply in_map_iff in I. destruct I as (im & <- & I). cbn [dim_x d_coef d_lines] in *.
  destruct (HI im I) as (g & a & K & G & M & d & leak & lw & lh & KO & HG & HK & HMM & Ew & Eh & NS & AB).
  destruct (HK (N - i)) as (P & P0 & R1); [lia|]. destruct (HK (N + i)) as (P' & P0' & R2); [lia|].
  destruct (AB y i Hy Hi) as (A1 & A2).
  assert (G0 : (0 <= G)%R) by (eapply Rle_trans; [apply Rabs_pos|]; apply (HG 0 0); lia).
  assert (L0 : (0 <= leak)%R).
  { specialize (R1 0). pose proof (Rabs_pos (phase_cos N w a K (N - i) 0 - P)). pose proof (Rabs_pos (phase_sin N w a K (N - i) 0)). lra. }
  assert (X0 : (0 <= 4 * IZR N * IZR h * G * leak)%R).
  { assert (0 <= IZR N)%R by (apply (IZR_le 0); lia). assert (0 <= IZR h)%R by (apply (IZR_le 0); lia). repeat apply Rmult_le_pos; lra. }
  assert (DP : (0 <= d)%R).
  { destruct NS as (f & _ & Hd). eapply Rle_trans; [apply Rabs_pos|]. apply (Hd 0 0); lia. }
  assert (D0 : (0 <= coefficient_error w h (radices_of lw) (radices_of lh) M + 4 * IZR w * IZR h * d)%R).
  { assert (0 <= IZR w)%R by (apply (IZR_le 0); lia). assert (0 <= IZR h)%R by (apply (IZR_le 0); lia).
    assert (0 <= 4 * IZR w * IZR h * d)%R by (repeat apply Rmult_le_pos; lra).
    pose proof (coefficient_error_pos w h M lw lh Hw Hh HMM Ew Eh). lra. }
  apply (opposite_products _ _ (dct_2d w h (rows_resampled N w a K g) y (N - i)) (dct_2d w h (rows_resampled N w a K g) y (N + i))).
  - apply (kiss_signs_near E0 twiddle super shift t0 F t w h im (rows_resampled N w a K g) M d (4 * IZR N * IZR h * G * leak)%R lw lh); try assumption; lia.
  - apply (kiss_signs_near E0 twiddle super shift t0 F t w h im (rows_resampled N w a K g) M d (4 * IZR N * IZR h * G * leak)%R lw lh); try assumption; lia.
  - apply (rows_opposite N w h a K g G leak P P' i y); try assumption; try lia; lra.
Qed.

(** C79.  The same of the height. *)
Lemma interpolated_height_claim : forall E0 twiddle super shift t0 F t m N w h p images l,
  let E := kiss_env (e_cfg E0) (e_alloc E0) (float_ops twiddle super shift) (e_qsort E0) t0 F t in
  env_ok E0 -> client_params (e_cfg E0) p -> 1 <= w <= 2^20 -> 1 <= h <= 2^20 ->
  tables_close twiddle super shift w -> tables_close twiddle super shift h ->
  zlen images <= 2^53 -> used_method m = Msign -> used_filter p = 0 ->
  used_range (e_cfg E0) m p < N < h - used_range (e_cfg E0) m p ->
  (forall image, In image images -> interpolated_y N w h (used_range (e_cfg E0) m p) image) ->
  reported E m w h p images (seen_y E w h images) h l ->
  In (mkRes N (f32_of_Z 1)) l.
Proof.
  intros E0 twiddle super shift t0 F t m N w h p images l E HE HP Hw Hh Tw Th HN HM HF HR HI R.
  assert (HEE : env_ok E) by (apply kiss_env_claim; exact HE).
  assert (HC : client_ok E w h p) by (split; [exact HEE|]; split; [lia|]; split; [lia|exact HP]).
  pose proof (used_range_pos E w h m p HC) as RP. change (e_cfg E) with (e_cfg E0) in RP.
  eapply all_inverted_reported; try eassumption; [change (e_cfg E) with (e_cfg E0); lia|].
  intros D I x i Hx Hi. change (e_cfg E) with (e_cfg E0) in Hi. apply in_map_iff in I. destruct I as (im & <- & I). cbn [dim_y d_coef d_lines] in *.
  destruct (HI im I) as (g & a & K & G & M & d & leak & lw & lh & KO & HG & HK & HMM & Ew & Eh & NS & AB).
  destruct (HK (N - i)) as (P & P0 & R1); [lia|]. destruct (HK (N + i)) as (P' & P0' & R2); [lia|].
  destruct (AB x i Hx Hi) as (A1 & A2).
  assert (G0 : (0 <= G)%R) by (eapply Rle_trans; [apply Rabs_pos|]; apply (HG 0 0); lia).
  assert (L0 : (0 <= leak)%R).
  { specialize (R1 0). pose proof (Rabs_pos (phase_cos N h a K (N - i) 0 - P)). pose proof (Rabs_pos (phase_sin N h a K (N - i) 0)). lra. }
  assert (X0 : (0 <= 4 * IZR N * IZR w * G * leak)%R).
  { assert (0 <= IZR N)%R by (apply (IZR_le 0); lia). assert (0 <= IZR w)%R by (apply (IZR_le 0); lia). repeat apply Rmult_le_pos; lra. }
  assert (DP : (0 <= d)%R).
  { destruct NS as (f & _ & Hd). eapply Rle_trans; [apply Rabs_pos|]. apply (Hd 0 0); lia. }
  assert (D0 : (0 <= coefficient_error w h (radices_of lw) (radices_of lh) M + 4 * IZR w * IZR h * d)%R).
  { assert (0 <= IZR w)%R by (apply (IZR_le 0); lia). assert (0 <= IZR h)%R by (apply (IZR_le 0); lia).
    assert (0 <= 4 * IZR w * IZR h * d)%R by (repeat apply Rmult_le_pos; lra).
    pose proof (coefficient_error_pos w h M lw lh Hw Hh HMM Ew Eh). lra. }
  apply (opposite_products _ _ (dct_2d w h (columns_resampled N h a K g) (N - i) x) (dct_2d w h (columns_resampled N h a K g) (N + i) x)).
  - apply (kiss_signs_near E0 twiddle super shift t0 F t w h im (columns_resampled N h a K g) M d (4 * IZR N * IZR w * G * leak)%R lw lh); try assumption; lia.
  - apply (kiss_signs_near E0 twiddle super shift t0 F t w h im (columns_resampled N h a K g) M d (4 * IZR N * IZR w * G * leak)%R lw lh); try assumption; lia.
  - rewrite (dct_2d_flip w h) in A1, A2 by lia. rewrite !(dct_2d_flip w h) by lia.
    apply (rows_opposite N h w a K (fun x y => g y x) G leak P P' i x); try assumption; try lia; try (intros; apply HG; assumption).
    + eapply Rle_lt_trans; [|exact A1]. lra.
    + eapply Rle_lt_trans; [|exact A2]. lra.
Qed.

(** every image is bounded *)
Lemma line_bounded f n : 0 <= n -> exists G, forall j, 0 <= j < n -> (Rabs (f j) <= G)%R.
Proof.
  revert n. apply csum_ind.
  - exists 0%R. intros. lia.
  - intros n Hn (G & H). exists (Rmax G (Rabs (f n))). intros j Hj. destruct (Z.eq_dec j n) as [->|NE]; [apply Rmax_r|].
    eapply Rle_trans; [apply H; lia|apply Rmax_l].
Qed.
Lemma image_bounded (g : Z -> Z -> R) w h : 0 <= w -> 0 <= h -> exists G, forall y x, 0 <= y < h -> 0 <= x < w -> (Rabs (g y x) <= G)%R.
Proof.
  intros Hw. revert h. apply csum_ind.
  - exists 0%R. intros. lia.
  - intros n Hn (G & H). destruct (line_bounded (g n) w Hw) as (G' & H'). exists (Rmax G G'). intros y x Hy Hx.
    destruct (Z.eq_dec y n) as [->|NE]; [eapply Rle_trans; [apply H'; exact Hx|apply Rmax_r]|].
    eapply Rle_trans; [apply H; lia|apply Rmax_l].
Qed.
Lemma common_responds s a K N range k : common_kernel s a K -> 1 <= range < N -> 2 <= s -> N - range <= k <= N + range ->
  kernel_ok a K /\ exists P, (0 < P)%R /\ responds N (s * N) a K k P 0.
Proof.
  intros C HR Hs Hk. assert (KO : kernel_ok a K) by (destruct C as [(-> & ->)|[(-> & ->)|(_ & -> & ->)]]; [exact box_ok|exact tent_ok|exact catmull_rom_ok]).
  split; [exact KO|]. exists (phase_cos N (s * N) a K k 0). split; [|apply responds_whole; lia || exact KO].
  destruct C as [(-> & ->)|[(-> & ->)|(-> & -> & ->)]]; [apply box_positive|apply tent_positive|apply catmull_positive]; lia.
Qed.
Lemma above_more_x w h N range g e e' : e' = e -> above_x w h N range g e -> above_x w h N range g e'.
Proof. intros ->. exact (fun H => H). Qed.

(** C79.  So upscales by a whole factor are found that were made by repetition or linear
    interpolation, or of twice the size made with Catmull and Rom's cubic kernel, rounded or
    otherwise changed a little afterwards. *)
Lemma common_upscale_width_claim : forall E0 twiddle super shift t0 F t m s N h p images l,
  let E := kiss_env (e_cfg E0) (e_alloc E0) (float_ops twiddle super shift) (e_qsort E0) t0 F t in
  env_ok E0 -> client_params (e_cfg E0) p -> s * N <= 2^20 -> 1 <= h <= 2^20 ->
  tables_close twiddle super shift (s * N) -> tables_close twiddle super shift h ->
  zlen images <= 2^53 -> used_method m = Msign -> used_filter p = 0 ->
  used_range (e_cfg E0) m p < N < s * N - used_range (e_cfg E0) m p ->
  (forall image, In image images -> common_upscale_x s N h (used_range (e_cfg E0) m p) image) ->
  reported E m (s * N) h p images (seen_x E (s * N) h images) (s * N) l ->
  In (mkRes N (f32_of_Z 1)) l.
Proof.
  intros E0 twiddle super shift t0 F t m s N h p images l E HE HP Hw Hh Tw Th HN HM HF HR HI R.
  assert (RP : 1 <= used_range (e_cfg E0) m p) by (apply (used_range_pos E0 0 0 m p); split; [exact HE|]; split; [lia|]; split; [lia|exact HP]).
  assert (S2 : 2 <= s) by nia.
  eapply (interpolated_width_claim E0 twiddle super shift t0 F t m N (s * N) h p images l); try eassumption; [nia|].
  intros image I. destruct (HI image I) as (g & a & K & M & d & lw & lh & CK & HMM & Ew & Eh & NS & AB).
  destruct (image_bounded g N h ltac:(lia) ltac:(lia)) as (G & HG).
  exists g, a, K, G, M, d, 0%R, lw, lh.
  split; [apply (common_responds s a K N (used_range (e_cfg E0) m p) N); try assumption; lia|]. split; [exact HG|].
  split; [intros k Hk; apply (common_responds s a K N (used_range (e_cfg E0) m p) k); try assumption; lia|].
  split; [exact HMM|]. split; [exact Ew|]. split; [exact Eh|]. split; [exact NS|].
  eapply above_more_x; [|exact AB]. ring.
Qed.

(** C79.  The same of the height. *)
Lemma common_upscale_height_claim : forall E0 twiddle super shift t0 F t m s N w p images l,
  let E := kiss_env (e_cfg E0) (e_alloc E0) (float_ops twiddle super shift) (e_qsort E0) t0 F t in
  env_ok E0 -> client_params (e_cfg E0) p -> s * N <= 2^20 -> 1 <= w <= 2^20 ->
  tables_close twiddle super shift w -> tables_close twiddle super shift (s * N) ->
  zlen images <= 2^53 -> used_method m = Msign -> used_filter p = 0 ->
  used_range (e_cfg E0) m p < N < s * N - used_range (e_cfg E0) m p ->
  (forall image, In image images -> common_upscale_y s N w (used_range (e_cfg E0) m p) image) ->
  reported E m w (s * N) p images (seen_y E w (s * N) images) (s * N) l ->
  In (mkRes N (f32_of_Z 1)) l.
Proof.
  intros E0 twiddle super shift t0 F t m s N w p images l E HE HP Hh Hw Tw Th HN HM HF HR HI R.
  assert (RP : 1 <= used_range (e_cfg E0) m p) by (apply (used_range_pos E0 0 0 m p); split; [exact HE|]; split; [lia|]; split; [lia|exact HP]).
  assert (S2 : 2 <= s) by nia.
  eapply (interpolated_height_claim E0 twiddle super shift t0 F t m N w (s * N) p images l); try eassumption; [nia|].
  intros image I. destruct (HI image I) as (g & a & K & M & d & lw & lh & CK & HMM & Ew & Eh & NS & AB).
  destruct (image_bounded g w N ltac:(lia) ltac:(lia)) as (G & HG).
  exists g, a, K, G, M, d, 0%R, lw, lh.
  split; [apply (common_responds s a K N (used_range (e_cfg E0) m p) N); try assumption; lia|]. split; [exact HG|].
  split; [intros k Hk; apply (common_responds s a K N (used_range (e_cfg E0) m p) k); try assumption; lia|].
  split; [exact HMM|]. split; [exact Ew|]. split; [exact Eh|]. split; [exact NS|].
  intros x i Hx Hi. destruct (AB x i Hx Hi) as (A1 & A2). rewrite Rmult_0_r, Rplus_0_r. split; assumption.
Qed.

(** C79.  And linear upscales from 2p to 3p samples, as from 720p to 1080p. *)
Lemma halves_upscale_width_claim : forall E0 twiddle super shift t0 F t m q h p images l,
  let E := kiss_env (e_cfg E0) (e_alloc E0) (float_ops twiddle super shift) (e_qsort E0) t0 F t in
  env_ok E0 -> client_params (e_cfg E0) p -> 3 * q <= 2^20 -> 1 <= h <= 2^20 ->
  tables_close twiddle super shift (3 * q) -> tables_close twiddle super shift h ->
  zlen images <= 2^53 -> used_method m = Msign -> used_filter p = 0 ->
  used_range (e_cfg E0) m p < q ->
  (forall image, In image images -> halves_upscale_x q h (used_range (e_cfg E0) m p) image) ->
  reported E m (3 * q) h p images (seen_x E (3 * q) h images) (3 * q) l ->
  In (mkRes (2 * q) (f32_of_Z 1)) l.
Proof.
  intros E0 twiddle super shift t0 F t m q h p images l E HE HP Hw Hh Tw Th HN HM HF HR HI R.
  assert (RP : 1 <= used_range (e_cfg E0) m p) by (apply (used_range_pos E0 0 0 m p); split; [exact HE|]; split; [lia|]; split; [lia|exact HP]).
  eapply (interpolated_width_claim E0 twiddle super shift t0 F t m (2 * q) (3 * q) h p images l); try eassumption; [lia|lia|].
  intros image I. destruct (HI image I) as (g & G & M & d & lw & lh & HG & HMM & Ew & Eh & NS & AB).
  exists g, 1, tent, G, M, d, (halves_leak (2 * q) (used_range (e_cfg E0) m p)), lw, lh.
  split; [exact tent_ok|]. split; [exact HG|].
  split; [intros k Hk; apply halves_response_claim; lia|].
  split; [exact HMM|]. split; [exact Ew|]. split; [exact Eh|]. split; [exact NS|]. exact AB.
Qed.

(** A concrete case: 256 0 became 256 192 64 0, and 64 was changed to 65. *)
Definition four_samples : list f32 := map f32_of_Z [256; 192; 65; 0].
Definition two_source (y x : Z) : R := two_samples x.
Lemma cosines_8 : let c := cos (PI / 8) in let s := sin (PI / 8) in
  cos (3 * (PI / 8)) = s /\ cos (5 * (PI / 8)) = (- s)%R /\ cos (7 * (PI / 8)) = (- c)%R /\ cos (9 * (PI / 8)) = (- c)%R /\
  cos (15 * (PI / 8)) = c /\ cos (21 * (PI / 8)) = (- s)%R /\ (92/100 <= c <= 93/100)%R /\ (38/100 <= s <= 39/100)%R.
Proof.
  intros c s. set (t := (PI / 8)%R) in *.
  assert (S3 : cos (3 * t) = s) by (replace (3 * t)%R with (PI / 2 - t)%R by (unfold t; field); apply cos_shift).
  assert (C7 : cos (7 * t) = (- c)%R) by (replace (7 * t)%R with (PI - t)%R by (unfold t; field); apply Rtrigo_facts.cos_pi_minus).
  assert (C5 : cos (5 * t) = (- s)%R) by (replace (5 * t)%R with (PI - 3 * t)%R by (unfold t; field); rewrite Rtrigo_facts.cos_pi_minus, S3; reflexivity).
  split; [exact S3|]. split; [exact C5|]. split; [exact C7|].
  split; [replace (9 * t)%R with (t + PI)%R by (unfold t; field); apply neg_cos|].
  split; [replace (15 * t)%R with (- t + 2 * IZR 1 * PI)%R by (unfold t; field); rewrite cos_2kPI; apply cos_neg|].
  split; [replace (21 * t)%R with (5 * t + 2 * IZR 1 * PI)%R by (unfold t; field); rewrite cos_2kPI; exact C5|].
  assert (Q : (c * c + s * s = 1)%R) by (pose proof (sin2_cos2 t) as Q; unfold Rsqr in Q; unfold c, s; lra).
  assert (D : (c * c - s * s = sqrt 2 / 2)%R).
  { unfold c, s. rewrite <- cos_2a. replace (2 * t)%R with (PI / 4)%R by (unfold t; field). rewrite cos_PI4.
    pose proof (sqrt_sqrt 2 ltac:(lra)) as H. pose proof sqrt2_neq_0 as NZ.
    replace (1 / sqrt 2)%R with (sqrt 2 * sqrt 2 / 2 / sqrt 2)%R by (rewrite H; field; exact NZ). field. exact NZ. }
  assert (SQ : (1414/1000 <= sqrt 2 <= 1415/1000)%R) by (pose proof (sqrt_sqrt 2 ltac:(lra)); pose proof (sqrt_pos 2); split; nra).
  pose proof PI_RGT_0.
  assert (0 < c)%R by (apply cos_gt_0; unfold t; lra). assert (0 < s)%R by (apply sin_gt_0; unfold t; lra). split; split; nra.
Qed.
Lemma four_samples_upscaled : common_upscale_x 2 2 1 1 four_samples.
Proof.
  exists two_source, 1, tent, 256%R, 1%R, [4; 1], [1; 1]. split; [right; left; split; reflexivity|]. split; [lra|].
  split; [reflexivity|]. split; [reflexivity|].
  assert (V : forall y x, 0 <= x < 4 -> rows_resampled 2 (2 * 2) 1 tent two_source y x = nth (Z.to_nat x) [256; 192; 64; 0]%R 0%R).
  { intros y x Hx. apply (two_to_four x Hx). }
  split.
  - exists (fun y x => nth (Z.to_nat x) [256; 192; 65; 0]%R 0%R). split.
    + split; [reflexivity|]. intros y x Hy Hx. assert (y = 0) by lia. subst y.
      assert (G : forall z, 0 <= z <= 256 -> ffinite (f32_of_Z z) = true /\ B2R 24 128 (f32_of_Z z) = IZR z /\ (Rabs (IZR z) <= 256)%R).
      { intros z Hz. destruct (f32_of_Z_exact z ltac:(lia)) as (F1 & _ & V1). split; [exact F1|]. split; [exact V1|].
        rewrite Rabs_pos_eq; [apply (IZR_le _ 256)|apply (IZR_le 0)]; lia. }
      assert (C : x = 0 \/ x = 1 \/ x = 2 \/ x = 3) by lia.
      destruct C as [->|[->|[->| ->]]]; [apply (G 256)|apply (G 192)|apply (G 65)|apply (G 0)]; lia.
    + intros y x Hy Hx. rewrite V by exact Hx. assert (C : x = 0 \/ x = 1 \/ x = 2 \/ x = 3) by lia.
      destruct C as [->|[->|[->| ->]]];
        repeat match goal with |- context [Z.to_nat ?x] => let n := eval vm_compute in (Z.to_nat x) in change (Z.to_nat x) with n end; cbn [nth]; apply Rabs_le; lra.
  - intros y i Hy Hi. assert (y = 0) by lia. assert (i = 1) by lia. subst y i. cbn [Z.sub Z.add Z.mul Pos.mul Pos.add Z.pos_sub Pos.pred_double Z.opp].
    assert (D : forall k, dct_2d 4 1 (rows_resampled 2 4 1 tent two_source) 0 k =
      (4 * (256 * cos (IZR k * (PI / 8)) + 192 * cos (IZR (3 * k) * (PI / 8)) + 64 * cos (IZR (5 * k) * (PI / 8)) + 0 * cos (IZR (7 * k) * (PI / 8))))%R).
    { intros k. unfold dct_2d, rsum. change (zrange 0 1) with [0]. change (zrange 0 4) with [0; 1; 2; 3]. cbn [fold_right].
      change (rows_resampled 2 4 1 tent two_source 0) with (rows_resampled 2 (2 * 2) 1 tent two_source 0).
      rewrite !V by lia.
      change (Z.to_nat 0) with 0%nat. change (Z.to_nat 1) with 1%nat. change (Z.to_nat 2) with 2%nat. change (Z.to_nat 3) with 3%nat. cbn [nth].
      replace (PI * 0 * (0 + 1 / 2) / 1)%R with 0%R by field. rewrite cos_0. rewrite !mult_IZR.
      replace (PI * IZR k * (0 + 1 / 2) / 4)%R with (IZR k * (PI / 8))%R by field.
      replace (PI * IZR k * (1 + 1 / 2) / 4)%R with (3 * IZR k * (PI / 8))%R by field.
      replace (PI * IZR k * (2 + 1 / 2) / 4)%R with (5 * IZR k * (PI / 8))%R by field.
      replace (PI * IZR k * (3 + 1 / 2) / 4)%R with (7 * IZR k * (PI / 8))%R by field. ring. }
    assert (CE : (coefficient_error 4 1 [4]%Z [1]%Z 256 <= 1)%R) by (unfold coefficient_error, loss, passes, pass_error; cbn; lra).
    destruct cosines_8 as (S3 & S5 & S7 & S9 & S15 & S21 & CB & SB).
    rewrite (D 1), (D 3). cbn [Z.mul Pos.mul Pos.add Pos.succ]. rewrite S3, S5, S7, S9, S15, S21, Rmult_1_l.
    set (c := cos (PI / 8)) in *. set (s := sin (PI / 8)) in *.
    change (radices_of [4; 1]) with [4]. change (radices_of [1; 1]) with [1].
    split; unfold Rabs; destruct (Rcase_abs _); lra.
Qed.

Example common_upscale_width_example :
  env_ok demo_env /\ client_params (e_cfg demo_env) upscale_params /\ used_filter upscale_params = 0 /\
  used_range (e_cfg demo_env) None upscale_params = 1 /\ common_upscale_x 2 2 1 1 four_samples /\
  exists twiddle super shift l l', tables_close twiddle super shift (2 * 2) /\ tables_close twiddle super shift 1 /\
    let E := kiss_env (e_cfg demo_env) (e_alloc demo_env) (float_ops twiddle super shift) (e_qsort demo_env) f0 (f0, f0) (f0, f0) in
    reported E None (2 * 2) 1 upscale_params [four_samples] (seen_x E (2 * 2) 1 [four_samples]) (2 * 2) l /\
    reported E None (2 * 2) 1 upscale_params [four_samples] (seen_y E (2 * 2) 1 [four_samples]) 1 l'.
Proof.
  split; [exact demo_env_ok|].
  assert (HP : client_params (e_cfg demo_env) upscale_params).
  { right. exists [Range 1], [RDEOK]. split; [repeat constructor; simpl; lia|reflexivity]. }
  split; [exact HP|]. split; [reflexivity|]. split; [reflexivity|]. split; [exact four_samples_upscaled|].
  destruct tables_exist as (tw & su & sh & T). exists tw, su, sh.
  set (E := kiss_env (e_cfg demo_env) (e_alloc demo_env) (float_ops tw su sh) (e_qsort demo_env) f0 (f0, f0) (f0, f0)).
  assert (HC : client_ok E (2 * 2) 1 upscale_params).
  { split; [apply kiss_env_claim, demo_env_ok|]. split; [lia|]. split; [lia|]. exact HP. }
  destruct (reported_all E None (2 * 2) 1 upscale_params [four_samples] HC) as (l & l' & R1 & R2).
  - reflexivity.
  - unfold plan_fits. vm_compute. intuition discriminate.
  - constructor; [|constructor]. split; [|vm_compute; discriminate]. apply valid_forallb. vm_compute. reflexivity.
  - unfold countable; simpl; lia.
  - discriminate.
  - exists l, l'. split; [apply T; lia|]. split; [apply T; lia|]. split; [exact R1|exact R2].
Qed.

(** A concrete case: the line 3 -3 3 -3 is 3 0 -2 2 0 -3 with 6 samples. *)
Definition six_line : list f32 := f32_of_Z 3 :: f32_of_Z 0 :: fopp (f32_of_Z 2) :: f32_of_Z 2 :: f32_of_Z 0 :: [fopp (f32_of_Z 3)].
Definition alternating (y x : Z) : R := if Z.even x then 3%R else (-3)%R.
Definition six_values (x : Z) : R := nth (Z.to_nat x) [3; 0; -2; 2; 0; -3]%R 0%R.
Lemma alternating_halves y i : 0 <= i < 6 -> rows_resampled (2 * 2) (3 * 2) 1 tent alternating y i = six_values i.
Proof.
  intros Hi. unfold rows_resampled, resampled, rsum, six_values.
  assert (C : i = 0 \/ i = 1 \/ i = 2 \/ i = 3 \/ i = 4 \/ i = 5) by lia.
  destruct C as [->|[->|[->|[->|[->| ->]]]]]; match goal with |- context [Z.to_nat ?x] => let n := eval vm_compute in (Z.to_nat x) in change (Z.to_nat x) with n end; cbn [nth];
    match goal with |- context [zrange ?a ?b] => let v := eval vm_compute in (zrange a b) in change (zrange a b) with v end; cbn [fold_right];
    rewrite !offset_halves, !tent_sixth by lia; cbn -[Rmult Rplus Rdiv IZR]; unfold alternating; cbn; field.
Qed.
Lemma cosines_12 : (cos (5 * (PI / 12)) = sqrt 2 * (sqrt 3 - 1) / 4 /\ cos (PI / 12) = sqrt 2 * (sqrt 3 + 1) / 4)%R.
Proof.
  assert (R2 : (1 / sqrt 2 = sqrt 2 / 2)%R).
  { pose proof (sqrt_sqrt 2 ltac:(lra)) as H. pose proof sqrt2_neq_0 as NZ.
    replace (1 / sqrt 2)%R with (sqrt 2 * sqrt 2 / 2 / sqrt 2)%R by (rewrite H; field; exact NZ). field. exact NZ. }
  split.
  - replace (5 * (PI / 12))%R with (PI / 4 + PI / 6)%R by field. rewrite cos_plus, cos_PI4, sin_PI4, cos_PI6, sin_PI6, R2. field.
  - replace (PI / 12)%R with (PI / 4 - PI / 6)%R by field. rewrite cos_minus, cos_PI4, sin_PI4, cos_PI6, sin_PI6, R2. field.
Qed.
Lemma fopp_val z : 0 <= z <= 256 -> ffinite (fopp (f32_of_Z z)) = true /\ B2R 24 128 (fopp (f32_of_Z z)) = (- IZR z)%R.
Proof.
  intros Hz. destruct (f32_of_Z_exact z ltac:(lia)) as (F1 & _ & V1).
  unfold ffinite, fopp, Bits.b32_opp. rewrite is_finite_Bopp, B2R_Bopp. split; [exact F1|].
  replace (B2R 24 128 (f32_of_Z z)) with (IZR z) by (symmetry; exact V1). reflexivity.
Qed.
Lemma six_line_upscaled : halves_upscale_x 2 1 1 six_line.
Proof.
  exists alternating, 3%R, 3%R, 0%R, [2; 3; 3; 1], [1; 1].
  split. { intros y x _ _. unfold alternating. destruct (Z.even x); [rewrite Rabs_pos_eq|rewrite Rabs_left]; lra. }
  split; [lra|]. split; [reflexivity|]. split; [reflexivity|]. split.
  - exists (fun y x => six_values x). split.
    + split; [reflexivity|]. intros y x Hy Hx. assert (y = 0) by lia. subst y.
      assert (G : forall z, 0 <= z <= 3 -> ffinite (f32_of_Z z) = true /\ B2R 24 128 (f32_of_Z z) = IZR z).
      { intros z Hz. destruct (f32_of_Z_exact z ltac:(lia)) as (F1 & _ & V1). split; [exact F1|exact V1]. }
      destruct (G 3) as (A3 & B3); [lia|]. destruct (G 2) as (A2 & B2); [lia|]. destruct (G 0) as (A0 & B0); [lia|].
      destruct (fopp_val 3) as (A3' & B3'); [lia|]. destruct (fopp_val 2) as (A2' & B2'); [lia|].
      assert (C : x = 0 \/ x = 1 \/ x = 2 \/ x = 3 \/ x = 4 \/ x = 5) by lia.
      destruct C as [->|[->|[->|[->|[->| ->]]]]]; (split; [assumption|]); (split; [first [assumption|etransitivity; [eassumption|reflexivity || (unfold six_values; match goal with |- context [Z.to_nat ?x] => let n := eval vm_compute in (Z.to_nat x) in change (Z.to_nat x) with n end; cbn [nth]; lra)]]|]);
        unfold six_values; match goal with |- context [Z.to_nat ?x] => let n := eval vm_compute in (Z.to_nat x) in change (Z.to_nat x) with n end; cbn [nth]; apply Rabs_le; lra.
    + intros y x Hy Hx. rewrite alternating_halves by exact Hx. rewrite Rminus_diag_eq by reflexivity. rewrite Rabs_R0. lra.
  - intros y i Hy Hi. assert (y = 0) by lia. assert (i = 1) by lia. subst y i.
    assert (D : forall k, dct_2d (3 * 2) 1 (rows_resampled (2 * 2) (3 * 2) 1 tent alternating) 0 k =
      (4 * (3 * cos (IZR k * (PI / 12)) - 2 * cos (IZR (5 * k) * (PI / 12)) + 2 * cos (IZR (7 * k) * (PI / 12)) - 3 * cos (IZR (11 * k) * (PI / 12))))%R).
    { intros k. unfold dct_2d, rsum. change (zrange 0 1) with [0]. change (zrange 0 (3 * 2)) with [0; 1; 2; 3; 4; 5]. cbn [fold_right].
      rewrite !alternating_halves by lia.
      change (six_values 0) with 3%R. change (six_values 1) with 0%R. change (six_values 2) with (-2)%R. change (six_values 3) with 2%R.
      change (six_values 4) with 0%R. change (six_values 5) with (-3)%R.
      replace (PI * 0 * (0 + 1 / 2) / 1)%R with 0%R by field. rewrite cos_0. rewrite !mult_IZR.
      replace (PI * IZR k * (0 + 1 / 2) / (3 * 2))%R with (IZR k * (PI / 12))%R by field.
      replace (PI * IZR k * (2 + 1 / 2) / (3 * 2))%R with (5 * IZR k * (PI / 12))%R by field.
      replace (PI * IZR k * (3 + 1 / 2) / (3 * 2))%R with (7 * IZR k * (PI / 12))%R by field.
      replace (PI * IZR k * (5 + 1 / 2) / (3 * 2))%R with (11 * IZR k * (PI / 12))%R by field. ring. }
    assert (CE : (coefficient_error (3 * 2) 1 [2; 3]%Z [1]%Z 3 <= 1/10)%R) by (unfold coefficient_error, loss, passes, pass_error; cbn; lra).
    change (radices_of [2; 3; 3; 1]) with [2; 3]. change (radices_of [1; 1]) with [1].
    assert (HL : (halves_leak (2 * 2) 1 <= 1/6)%R).
    { unfold halves_leak. pose proof PI_RGT_0. pose proof PI_4. change (IZR (2 * 2)) with 4%R. replace (PI * 1 / 4)%R with (PI / 4)%R by field.
      assert ((PI / 4) ^ 2 <= 1)%R by nra. lra. }
    assert (BND : (coefficient_error (3 * 2) 1 [2; 3]%Z [1]%Z 3 + 4 * IZR (3 * 2) * 1 * 0 + 4 * IZR (2 * 2) * 1 * 3 * halves_leak (2 * 2) 1 <= 81/10)%R).
    { change (IZR (2 * 2)) with 4%R. lra. }
    change (2 * 2 - 1) with 3. change (2 * 2 + 1) with 5. rewrite (D 3), (D 5). cbn [Z.mul Pos.mul Pos.add Pos.succ].
    destruct cosines_12 as (C5 & C1).
    assert (S2 : (1414/1000 <= sqrt 2 <= 1415/1000)%R) by (pose proof (sqrt_sqrt 2 ltac:(lra)); pose proof (sqrt_pos 2); split; nra).
    assert (S3 : (1732/1000 <= sqrt 3 <= 1733/1000)%R) by (pose proof (sqrt_sqrt 3 ltac:(lra)); pose proof (sqrt_pos 3); split; nra).
    assert (C3 : cos (3 * (PI / 12)) = (sqrt 2 / 2)%R).
    { replace (3 * (PI / 12))%R with (PI / 4)%R by field. rewrite cos_PI4. pose proof (sqrt_sqrt 2 ltac:(lra)) as H. pose proof sqrt2_neq_0 as NZ.
      replace (1 / sqrt 2)%R with (sqrt 2 * sqrt 2 / 2 / sqrt 2)%R by (rewrite H; field; exact NZ). field. exact NZ. }
    assert (C15 : cos (15 * (PI / 12)) = (- (sqrt 2 / 2))%R).
    { rewrite <- C3. replace (15 * (PI / 12))%R with (3 * (PI / 12) + PI)%R by field. apply neg_cos. }
    assert (C21 : cos (21 * (PI / 12)) = (sqrt 2 / 2)%R).
    { rewrite <- C3. replace (21 * (PI / 12))%R with (- (3 * (PI / 12)) + 2 * IZR 1 * PI)%R by field. rewrite cos_2kPI. apply cos_neg. }
    assert (C33 : cos (33 * (PI / 12)) = (- (sqrt 2 / 2))%R).
    { rewrite <- C3. replace (33 * (PI / 12))%R with (- (3 * (PI / 12)) + PI + 2 * IZR 1 * PI)%R by field. rewrite cos_2kPI, neg_cos, cos_neg. reflexivity. }
    assert (C25 : cos (25 * (PI / 12)) = cos (PI / 12)).
    { replace (25 * (PI / 12))%R with (PI / 12 + 2 * IZR 1 * PI)%R by field. apply cos_2kPI. }
    assert (C35 : cos (35 * (PI / 12)) = (- cos (PI / 12))%R).
    { replace (35 * (PI / 12))%R with (- (PI / 12) + PI + 2 * IZR 1 * PI)%R by field. rewrite cos_2kPI, neg_cos, cos_neg. reflexivity. }
    assert (C55 : cos (55 * (PI / 12)) = (- cos (5 * (PI / 12)))%R).
    { replace (55 * (PI / 12))%R with (- (5 * (PI / 12)) + PI + 2 * IZR 2 * PI)%R by field. rewrite cos_2kPI, neg_cos, cos_neg. reflexivity. }
    split.
    + eapply Rle_lt_trans; [exact BND|]. rewrite C3, C15, C21, C33. unfold Rabs. destruct (Rcase_abs _); lra.
    + eapply Rle_lt_trans; [exact BND|]. rewrite C25, C35, C55, C5, C1. unfold Rabs. destruct (Rcase_abs _); nra.
Qed.
Example halves_upscale_width_example : halves_upscale_x 2 1 1 six_line /\ used_range (e_cfg demo_env) None upscale_params = 1.
Proof. split; [exact six_line_upscaled|reflexivity]. Qed.
(** the same samples as a column *)
Example common_upscale_height_example : common_upscale_y 2 2 1 1 four_samples /\ used_range (e_cfg demo_env) None upscale_params = 1.
Proof.
  split; [|reflexivity].
  destruct four_samples_upscaled as (g & a & K & M & d & lw & lh & CK & HM & Ew & Eh & (f & (L & HS) & ND) & AB).
  exists (fun y x => g x y), a, K, M, d, lh, lw. split; [exact CK|]. split; [exact HM|]. split; [exact Eh|]. split; [exact Ew|]. split.
  - exists (fun y x => f x y). split.
    + split; [exact L|]. intros y x Hy Hx. assert (x = 0) by lia. subst x. destruct (HS 0 y) as (A & B & C); [lia|exact Hy|].
      replace (y * 1 + 0) with (0 * (2 * 2) + y) by lia. split; [exact A|]. split; [exact B|exact C].
    + intros y x Hy Hx. apply (ND x y Hx Hy).
  - intros x i Hx Hi. destruct (AB x i Hx Hi) as (A1 & A2).
    rewrite (dct_2d_flip (2 * 2) 1) in A1, A2 by lia.
    replace (coefficient_error 1 (2 * 2) (radices_of lh) (radices_of lw) M + 4 * 1 * IZR (2 * 2) * d)%R
      with (coefficient_error (2 * 2) 1 (radices_of lw) (radices_of lh) M + 4 * IZR (2 * 2) * 1 * d)%R by (unfold coefficient_error; ring).
    split; [exact A1|exact A2].
Qed.
(** both are instances of the general theorems *)
Example interpolated_width_example : interpolated_x 2 4 1 1 four_samples.
Proof.
  destruct four_samples_upscaled as (g & a & K & M & d & lw & lh & CK & HMM & Ew & Eh & NS & AB).
  destruct (image_bounded g 2 1 ltac:(lia) ltac:(lia)) as (G & HG). exists g, a, K, G, M, d, 0%R, lw, lh.
  split; [apply (common_responds 2 a K 2 1 2); try assumption; lia|]. split; [exact HG|].
  split; [intros k Hk; apply (common_responds 2 a K 2 1 k); try assumption; lia|].
  split; [exact HMM|]. split; [exact Ew|]. split; [exact Eh|]. split; [exact NS|].
  eapply above_more_x; [|exact AB]. change (IZR (2 * 2)) with 4%R. change (2 * 2) with 4. ring.
Qed.
Example interpolated_height_example : interpolated_y 2 1 4 1 four_samples.
Proof.
  destruct (proj1 common_upscale_height_example) as (g & a & K & M & d & lw & lh & CK & HMM & Ew & Eh & NS & AB).
  destruct (image_bounded g 1 2 ltac:(lia) ltac:(lia)) as (G & HG). exists g, a, K, G, M, d, 0%R, lw, lh.
  split; [apply (common_responds 2 a K 2 1 2); try assumption; lia|]. split; [exact HG|].
  split; [intros k Hk; apply (common_responds 2 a K 2 1 k); try assumption; lia|].
  split; [exact HMM|]. split; [exact Ew|]. split; [exact Eh|]. split; [exact NS|].
  intros x i Hx Hi. destruct (AB x i Hx Hi) as (A1 & A2). rewrite Rmult_0_r, Rplus_0_r. split; [exact A1|exact A2].
Qed.
