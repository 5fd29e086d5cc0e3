(**     Properties C85 and C86: the signs of the exact coefficients decide what is reported. *)
From Coq Require Import Reals Lra Lia Psatz.
From Flocq Require Import Core IEEE754.Binary.
From Verif Require Import Base Flt Util Methods Analysis History Kiss Spec SpecAnalysis SpecUtil SpecReport SpecTransform SpecAccuracy SpecInterpolate SpecDetect.
From Verif Require Import BaseProofs FltProofs RoundProofs WorldProofs AnalysisProofs ResultsProofs ClientProofs CompareProofs.
From Verif Require Import KissProofs KissFactor KissTransform KissExact KissAccuracy AccuracyProofs AccuracyTables UpscaleProofs UpscaleDetect
  InterpolateProofs InterpolateKernels Demo AnalysisClaims KissClaims AccuracyClaims InterpolateClaims DetectProofs.
Open Scope list_scope.
Open Scope Z_scope.
From Verif Require Import DetectClaims.

(** C85.  The KISS build is accurate in this sense, with the bound of C73. *)
Theorem kiss_accurate : forall E0 twiddle super shift t0 F t w h M lw lh,
  1 <= w <= 2^20 -> 1 <= h <= 2^20 -> tables_close twiddle super shift w -> tables_close twiddle super shift h ->
  (1 <= M <= 1048576)%R -> kf_factor w = Ok lw -> kf_factor h = Ok lh ->
  accurate (kiss_env (e_cfg E0) (e_alloc E0) (float_ops twiddle super shift) (e_qsort E0) t0 F t) w h M
    (coefficient_error w h (radices_of lw) (radices_of lh) M).
Proof. exact kiss_accurate_claim. Qed.
Print Assumptions kiss_accurate.

(** C85.  Width N is reported by the sign method if enough pairs of exact coefficients
    around it are clear of the errors of the transform and of opposite signs.  The
    confidence is at least the part of pairs that are, in the mean over all frames, up to
    its rounding.  This holds for any images and any transform that is accurate. *)
Theorem width_reported : forall E m N w h p images cs l,
  client_ok E w h p -> zlen images <= 2^53 -> used_method m = Msign -> used_filter p = 0 ->
  let range := used_range (e_cfg E) m p in let found := (part cs h range - mean_rounding (length images))%R in
  range <= N < w - range -> Forall2 (clear_x opposed E N w h range) images cs ->
  reported E m w h p images (seen_x E w h images) w l -> (B2R 24 128 (used_threshold m p) <= found)%R ->
  exists r, In r l /\ r_index r = N /\ (found <= conf_real r)%R.
Proof. exact width_reported_claim. Qed.
Print Assumptions width_reported.

(** C85.  The same of the height. *)
Theorem height_reported : forall E m N w h p images cs l,
  client_ok E w h p -> zlen images <= 2^53 -> used_method m = Msign -> used_filter p = 0 ->
  let range := used_range (e_cfg E) m p in let found := (part cs w range - mean_rounding (length images))%R in
  range <= N < h - range -> Forall2 (clear_y opposed E N w h range) images cs ->
  reported E m w h p images (seen_y E w h images) h l -> (B2R 24 128 (used_threshold m p) <= found)%R ->
  exists r, In r l /\ r_index r = N /\ (found <= conf_real r)%R.
Proof. exact height_reported_claim. Qed.
Print Assumptions height_reported.

(** C85.  And it is not reported if too many pairs are clear and of the same sign. *)
Theorem width_not_reported : forall E m N w h p images cs l,
  client_ok E w h p -> zlen images <= 2^53 -> used_method m = Msign ->
  let range := used_range (e_cfg E) m p in
  range <= N < w - range -> Forall2 (clear_x alike E N w h range) images cs ->
  reported E m w h p images (seen_x E w h images) w l ->
  (1 - part cs h range + mean_rounding (length images) < B2R 24 128 (used_threshold m p))%R ->
  forall r, In r l -> r_index r <> N.
Proof. exact width_not_reported_claim. Qed.
Print Assumptions width_not_reported.

Theorem height_not_reported : forall E m N w h p images cs l,
  client_ok E w h p -> zlen images <= 2^53 -> used_method m = Msign ->
  let range := used_range (e_cfg E) m p in
  range <= N < h - range -> Forall2 (clear_y alike E N w h range) images cs ->
  reported E m w h p images (seen_y E w h images) h l ->
  (1 - part cs w range + mean_rounding (length images) < B2R 24 128 (used_threshold m p))%R ->
  forall r, In r l -> r_index r <> N.
Proof. exact height_not_reported_claim. Qed.
Print Assumptions height_not_reported.

(** C86.  Frames whose rows were scaled up from N samples by interpolation, up to an error
    d per sample: width N is reported with at least the confidence that the clear pairs
    amount to, with any accurate transform, if that reaches the threshold. *)
Theorem partly_interpolated_width : forall E m N w h p images cs l,
  client_ok E w h p -> zlen images <= 2^53 -> used_method m = Msign -> used_filter p = 0 ->
  let range := used_range (e_cfg E) m p in let found := (part cs h range - mean_rounding (length images))%R in
  range <= N < w - range -> Forall2 (partly_x E N w h range) images cs ->
  reported E m w h p images (seen_x E w h images) w l -> (B2R 24 128 (used_threshold m p) <= found)%R ->
  exists r, In r l /\ r_index r = N /\ (found <= conf_real r)%R.
Proof. exact partly_interpolated_width_claim. Qed.
Print Assumptions partly_interpolated_width.

(** C86.  The same of the height. *)
Theorem partly_interpolated_height : forall E m N w h p images cs l,
  client_ok E w h p -> zlen images <= 2^53 -> used_method m = Msign -> used_filter p = 0 ->
  let range := used_range (e_cfg E) m p in let found := (part cs w range - mean_rounding (length images))%R in
  range <= N < h - range -> Forall2 (partly_y E N w h range) images cs ->
  reported E m w h p images (seen_y E w h images) h l -> (B2R 24 128 (used_threshold m p) <= found)%R ->
  exists r, In r l /\ r_index r = N /\ (found <= conf_real r)%R.
Proof. exact partly_interpolated_height_claim. Qed.
Print Assumptions partly_interpolated_height.

Example kiss_accurate_witness : exists twiddle super shift,
  tables_close twiddle super shift 4 /\ tables_close twiddle super shift 2 /\ kf_factor 4 = Ok [4; 1] /\ kf_factor 2 = Ok [2; 1] /\
  (coefficient_error 4 2 (radices_of [4; 1]%Z) (radices_of [2; 1]%Z) 1 < 1/1000)%R.
Proof. exact kiss_accurate_example. Qed.

Example width_reported_witness : small_case 4 2 flat_image quarter_params (fun E => Forall2 (clear_x opposed E 2 4 2 1) [flat_image] [1]) /\
  (B2R 24 128 (used_threshold None quarter_params) <= part [1%Z] 2 1 - mean_rounding 1)%R.
Proof. exact width_reported_example. Qed.

Example height_reported_witness : small_case 2 4 tall_image quarter_params (fun E => Forall2 (clear_y opposed E 2 2 4 1) [tall_image] [1]) /\
  (B2R 24 128 (used_threshold None quarter_params) <= part [1%Z] 2 1 - mean_rounding 1)%R.
Proof. exact height_reported_example. Qed.

Example width_not_reported_witness : small_case 4 1 spike_image upscale_params (fun E => Forall2 (clear_x alike E 2 4 1 1) [spike_image] [1]) /\
  (1 - part [1%Z] 1 1 + mean_rounding 1 < B2R 24 128 (used_threshold None upscale_params))%R.
Proof. exact width_not_reported_example. Qed.

Example height_not_reported_witness : small_case 1 4 spike_image upscale_params (fun E => Forall2 (clear_y alike E 2 1 4 1) [spike_image] [1]) /\
  (1 - part [1%Z] 1 1 + mean_rounding 1 < B2R 24 128 (used_threshold None upscale_params))%R.
Proof. exact height_not_reported_example. Qed.

Example partly_interpolated_width_witness : small_case 4 2 flat_image quarter_params (fun E => Forall2 (partly_x E 2 4 2 1) [flat_image] [1]) /\
  (B2R 24 128 (used_threshold None quarter_params) <= part [1%Z] 2 1 - mean_rounding 1)%R.
Proof. exact partly_interpolated_width_example. Qed.

Example partly_interpolated_height_witness : small_case 2 4 tall_image quarter_params (fun E => Forall2 (partly_y E 2 2 4 1) [tall_image] [1]) /\
  (B2R 24 128 (used_threshold None quarter_params) <= part [1%Z] 2 1 - mean_rounding 1)%R.
Proof. exact partly_interpolated_height_example. Qed.
