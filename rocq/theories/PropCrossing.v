(**     Property C100: the zero crossing method detects upscales. *)
From Coq Require Import Reals Lra Lia Psatz.
From Flocq Require Import Core IEEE754.Binary.
From Verif Require Import Base Flt Util Methods Analysis History Kiss Spec SpecAnalysis SpecUtil SpecReport SpecTransform SpecAccuracy SpecInterpolate SpecCubic SpecLanczos SpecDetect SpecCrossing.
From Verif Require Import BaseProofs FltProofs RoundProofs WorldProofs AnalysisProofs ResultsProofs ClientProofs CompareProofs.
From Verif Require Import KissProofs KissFactor KissTransform KissExact KissAccuracy AccuracyProofs AccuracyTables UpscaleProofs UpscaleDetect
  InterpolateProofs InterpolateKernels Demo AnalysisClaims KissClaims AccuracyClaims InterpolateClaims CubicClaims LanczosClaims DetectProofs DetectClaims TurnedClaims CrossingProofs.
Open Scope list_scope.
Open Scope Z_scope.
From Verif Require Import CrossingClaims.

(** C100.  Width N is reported by the zero crossing method if the exact coefficients at
    N - 1, N and N + 1 cross zero on enough lines, clear of the errors of the transform.  The
    confidence is at least the part of the lines on which they do, in the mean over all
    frames, up to its rounding. *)
Theorem crossed_width : forall E m N w h p images cs l,
  client_ok E w h p -> zlen images <= 2^53 -> used_method m = Mzerox -> used_filter p = 0 ->
  let found := (part cs h 1 - mean_rounding (length images))%R in
  1 <= N < w - 1 -> Forall2 (crossed_x E N w h) images cs ->
  reported E m w h p images (seen_x E w h images) w l -> (B2R 24 128 (used_threshold m p) <= found)%R ->
  exists r, In r l /\ r_index r = N /\ (found <= conf_real r)%R.
Proof. exact crossed_width_claim. Qed.
Print Assumptions crossed_width.

(** C100.  The same of the height. *)
Theorem crossed_height : forall E m N w h p images cs l,
  client_ok E w h p -> zlen images <= 2^53 -> used_method m = Mzerox -> used_filter p = 0 ->
  let found := (part cs w 1 - mean_rounding (length images))%R in
  1 <= N < h - 1 -> Forall2 (crossed_y E N w h) images cs ->
  reported E m w h p images (seen_y E w h images) h l -> (B2R 24 128 (used_threshold m p) <= found)%R ->
  exists r, In r l /\ r_index r = N /\ (found <= conf_real r)%R.
Proof. exact crossed_height_claim. Qed.
Print Assumptions crossed_height.

(** C100.  So is the width of the original of frames upscaled with any kernel that responds
    at N - 1, N and N + 1 with at most [leak] aliasing: the coefficient at N vanishes but for
    aliasing and errors, and its neighbours have opposite signs. *)
Theorem crossing_upscale_width : forall E m N w h p images cs l,
  client_ok E w h p -> zlen images <= 2^53 -> used_method m = Mzerox -> used_filter p = 0 ->
  let found := (part cs h 1 - mean_rounding (length images))%R in
  1 <= N < w - 1 -> Forall2 (crossing_upscale_x E N w h) images cs ->
  reported E m w h p images (seen_x E w h images) w l -> (B2R 24 128 (used_threshold m p) <= found)%R ->
  exists r, In r l /\ r_index r = N /\ (found <= conf_real r)%R.
Proof. exact crossing_upscale_width_claim. Qed.
Print Assumptions crossing_upscale_width.

Theorem crossing_upscale_height : forall E m N w h p images cs l,
  client_ok E w h p -> zlen images <= 2^53 -> used_method m = Mzerox -> used_filter p = 0 ->
  let found := (part cs w 1 - mean_rounding (length images))%R in
  1 <= N < h - 1 -> Forall2 (crossing_upscale_y E N w h) images cs ->
  reported E m w h p images (seen_y E w h images) h l -> (B2R 24 128 (used_threshold m p) <= found)%R ->
  exists r, In r l /\ r_index r = N /\ (found <= conf_real r)%R.
Proof. exact crossing_upscale_height_claim. Qed.
Print Assumptions crossing_upscale_height.

(** C100.  Repeated, linear, cubic and Lanczos upscales by whole factors respond like this
    without aliasing. *)
Theorem crossing_kernels : forall s N a K, 2 <= s -> whole_kernel s N a K ->
  kernel_ok a K /\ forall k, N - 1 <= k <= N + 1 -> exists P, (0 < P)%R /\ responds N (s * N) a K k P 0.
Proof. exact crossing_kernels_claim. Qed.
Print Assumptions crossing_kernels.

(** C100.  A width is not reported if its neighbours clearly have the same sign on too many lines. *)
Theorem width_not_crossed : forall E m N w h p images cs l,
  client_ok E w h p -> zlen images <= 2^53 -> used_method m = Mzerox ->
  1 <= N < w - 1 -> Forall2 (clear_x alike E N w h 1) images cs ->
  reported E m w h p images (seen_x E w h images) w l ->
  (1 - part cs h 1 + mean_rounding (length images) < B2R 24 128 (used_threshold m p))%R ->
  forall r, In r l -> r_index r <> N.
Proof. exact width_not_crossed_claim. Qed.
Print Assumptions width_not_crossed.

Theorem height_not_crossed : forall E m N w h p images cs l,
  client_ok E w h p -> zlen images <= 2^53 -> used_method m = Mzerox ->
  1 <= N < h - 1 -> Forall2 (clear_y alike E N w h 1) images cs ->
  reported E m w h p images (seen_y E w h images) h l ->
  (1 - part cs w 1 + mean_rounding (length images) < B2R 24 128 (used_threshold m p))%R ->
  forall r, In r l -> r_index r <> N.
Proof. exact height_not_crossed_claim. Qed.
Print Assumptions height_not_crossed.

Example crossed_width_witness : zerox_case 4 2 flat_image (fun E => Forall2 (crossed_x E 2 4 2) [flat_image] [1]).
Proof. exact crossed_width_example. Qed.

Example crossed_height_witness : zerox_case 2 4 tall_image (fun E => Forall2 (crossed_y E 2 2 4) [tall_image] [1]).
Proof. exact crossed_height_example. Qed.

Example crossing_upscale_width_witness : zerox_case 4 2 flat_image (fun E => Forall2 (crossing_upscale_x E 2 4 2) [flat_image] [1]).
Proof. exact crossing_upscale_width_example. Qed.

Example crossing_upscale_height_witness : zerox_case 2 4 tall_image (fun E => Forall2 (crossing_upscale_y E 2 2 4) [tall_image] [1]).
Proof. exact crossing_upscale_height_example. Qed.

Example width_not_crossed_witness : zerox_case 4 1 spike_image (fun E => Forall2 (clear_x alike E 2 4 1 1) [spike_image] [1]) /\
  (1 - part [1%Z] 1 1 + mean_rounding 1 < B2R 24 128 (used_threshold (Some Mzerox) quarter_params))%R.
Proof. exact width_not_crossed_example. Qed.

Example height_not_crossed_witness : zerox_case 1 4 spike_image (fun E => Forall2 (clear_y alike E 2 1 4 1) [spike_image] [1]) /\
  (1 - part [1%Z] 1 1 + mean_rounding 1 < B2R 24 128 (used_threshold (Some Mzerox) quarter_params))%R.
Proof. exact height_not_crossed_example. Qed.

(** doubled from 30 samples with two lobes and weights that add up to one *)
Example crossing_kernels_witness : whole_kernel 2 30 2 (normalised 2 (lanczos 2)) /\ whole_kernel 2 2 1 box.
Proof. exact crossing_kernels_example. Qed.
