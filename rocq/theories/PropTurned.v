(**     Property C98: the sign method does not depend on how a picture is turned, nor on its
    contrast and brightness. *)
From Coq Require Import Reals Lra Lia Psatz.
From Flocq Require Import Core IEEE754.Binary.
From Verif Require Import Base Flt Util Methods Analysis History Kiss Spec SpecAnalysis SpecUtil SpecReport SpecTransform SpecAccuracy SpecInterpolate SpecDetect SpecTurned.
From Verif Require Import BaseProofs FltProofs RoundProofs WorldProofs AnalysisProofs ResultsProofs ClientProofs CompareProofs.
From Verif Require Import KissProofs KissFactor KissTransform KissExact KissAccuracy AccuracyProofs AccuracyTables UpscaleProofs UpscaleDetect
  InterpolateProofs InterpolateKernels Demo AnalysisClaims KissClaims AccuracyClaims InterpolateClaims DetectProofs DetectClaims TurnedProofs.
Open Scope list_scope.
Open Scope Z_scope.
From Verif Require Import TurnedClaims.

(** C98.  Of a picture that is mirrored or upside down, and has another contrast and
    brightness, each exact coefficient but the first is the old one times the contrast, up
    to its sign; and pairs of coefficients around any column or row are of opposite signs
    exactly if they were. *)
Theorem reworked_coefficients : forall fx fy w h c b g, 1 <= w -> 1 <= h ->
  let D := dct_2d w h g in let D' := dct_2d w h (reworked fx fy w h c b g) in
  (forall y x, 0 <= y < h -> 0 <= x < w -> y <> 0 \/ x <> 0 \/ b = 0%R -> Rabs (D' y x) = (Rabs c * Rabs (D y x))%R) /\
  (forall N y i, 0 <= y < h -> 1 <= i < N -> N + i < w -> (D' y (N - i)%Z * D' y (N + i)%Z = c * c * (D y (N - i)%Z * D y (N + i)%Z))%R) /\
  (forall N x i, 0 <= x < w -> 1 <= i < N -> N + i < h -> (D' (N - i)%Z x * D' (N + i)%Z x = c * c * (D (N - i)%Z x * D (N + i)%Z x))%R).
Proof. exact reworked_coefficients_claim. Qed.
Print Assumptions reworked_coefficients.

(** C98.  Frames that are mirrored or upside down, with another contrast, another brightness
    and small errors: width N is reported if and only if it was, and with the same
    confidence.  The exact coefficients around N must be larger than the errors.  Frames
    may differ in what was done to them. *)
Theorem reworked_width : forall E m N w h p images images' l l',
  client_ok E w h p -> countable images -> countable images' -> used_method m = Msign ->
  let range := used_range (e_cfg E) m p in range <= N < w - range ->
  Forall2 (reworked_x E N w h range) images images' ->
  reported E m w h p images (seen_x E w h images) w l -> reported E m w h p images' (seen_x E w h images') w l' ->
  forall conf, In (mkRes N conf) l <-> In (mkRes N conf) l'.
Proof. exact reworked_width_claim. Qed.
Print Assumptions reworked_width.

Theorem reworked_height : forall E m N w h p images images' l l',
  client_ok E w h p -> countable images -> countable images' -> used_method m = Msign ->
  let range := used_range (e_cfg E) m p in range <= N < h - range ->
  Forall2 (reworked_y E N w h range) images images' ->
  reported E m w h p images (seen_y E w h images) h l -> reported E m w h p images' (seen_y E w h images') h l' ->
  forall conf, In (mkRes N conf) l <-> In (mkRes N conf) l'.
Proof. exact reworked_height_claim. Qed.
Print Assumptions reworked_height.

(** C98.  Frames turned by a quarter, or with rows and columns exchanged: what is reported as
    width becomes height, with the same confidence, and the other way round. *)
Theorem turned_width : forall E m N w h p images images' l l',
  client_ok E w h p -> countable images -> countable images' -> used_method m = Msign ->
  let range := used_range (e_cfg E) m p in range <= N < w - range ->
  Forall2 (turned_x E N w h range) images images' ->
  reported E m w h p images (seen_x E w h images) w l -> reported E m h w p images' (seen_y E h w images') w l' ->
  forall conf, In (mkRes N conf) l <-> In (mkRes N conf) l'.
Proof. exact turned_width_claim. Qed.
Print Assumptions turned_width.

Theorem turned_height : forall E m N w h p images images' l l',
  client_ok E w h p -> countable images -> countable images' -> used_method m = Msign ->
  let range := used_range (e_cfg E) m p in range <= N < h - range ->
  Forall2 (turned_y E N w h range) images images' ->
  reported E m w h p images (seen_y E w h images) h l -> reported E m h w p images' (seen_x E h w images') h l' ->
  forall conf, In (mkRes N conf) l <-> In (mkRes N conf) l'.
Proof. exact turned_height_claim. Qed.
Print Assumptions turned_height.

Example reworked_coefficients_witness : exists c b g, (c = -1 /\ b = 1 /\ 1 < Rabs (dct_2d 4 1 g 0 1) /\ 1 < Rabs (dct_2d 4 1 (reworked true false 4 1 c b g) 0 1))%R.
Proof. exact reworked_coefficients_example. Qed.

Example reworked_width_witness : two_cases 4 1 4 1 spike_image negative_image upscale_params (fun E => Forall2 (reworked_x E 2 4 1 1) [spike_image] [negative_image]).
Proof. exact reworked_width_example. Qed.

Example turned_width_witness : two_cases 4 1 1 4 spike_image negative_image upscale_params (fun E => Forall2 (turned_x E 2 4 1 1) [spike_image] [negative_image]).
Proof. exact turned_width_example. Qed.

Example reworked_height_witness : two_cases 1 4 1 4 spike_image negative_image upscale_params (fun E => Forall2 (reworked_y E 2 1 4 1) [spike_image] [negative_image]).
Proof. exact reworked_height_example. Qed.

Example turned_height_witness : two_cases 1 4 4 1 spike_image negative_image upscale_params (fun E => Forall2 (turned_y E 2 1 4 1) [spike_image] [negative_image]).
Proof. exact turned_height_example. Qed.
