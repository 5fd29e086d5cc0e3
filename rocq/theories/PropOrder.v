(**     Property C99: the sign method reports what the other methods report. *)
From Coq Require Import Reals Lra Lia Psatz Permutation.
From Flocq Require Import Core IEEE754.Binary.
From Verif Require Import Base Flt Util Methods Analysis History Spec SpecAnalysis SpecUtil SpecReport SpecOrder.
From Verif Require Import BaseProofs FltProofs RoundProofs WorldProofs MethodsProofs AnalysisProofs ResultsProofs ClientProofs CompareProofs Demo AnalysisClaims OrderProofs.
Open Scope list_scope.
Open Scope Z_scope.
From Verif Require Import OrderClaims.

(** C99.  What a pair or line must satisfy for another method to count it implies that its
    signs differ: a magnitude quotient only brings its sum with one below one if it is
    negative, also after rounding, for all floats but quotients that are not finite. *)
Theorem criteria_imply_signs :
  (forall a b, opposite_magnitude false a b = true -> fsign a <> fsign b) /\
  (forall special a b, ffinite a = true -> ffinite b = true -> (Rabs (B2R 24 128 a) <= IZR (2^48))%R -> opposite_magnitude special a b = true -> fsign a <> fsign b) /\
  (forall l c r, crossing l c r = true -> fsign l <> fsign r).
Proof. exact criteria_imply_signs_claim. Qed.
Print Assumptions criteria_imply_signs.

(** C99.  For the same frames and the same range and filter, and with a threshold no
    higher, the sign method reports every size that any method reports, with a confidence
    no smaller.  For the magnitude method quotients must be finite, or else the C library's
    frexp must set a positive exponent for others. *)
Theorem sign_reports_all : forall E m w h p p' images Ds len l l',
  client_ok E w h p -> client_ok E w h p' -> countable images -> no_stricter (e_cfg E) m (Some Msign) p p' ->
  (used_method m = Mmag -> 0 < c_frexp_special (e_cfg E) \/ Forall moderate Ds) ->
  reported E m w h p images Ds len l -> reported E (Some Msign) w h p' images Ds len l' ->
  forall r, In r l -> exists r', In r' l' /\ r_index r' = r_index r /\ (conf_real r <= conf_real r')%R.
Proof. exact sign_reports_all_claim. Qed.
Print Assumptions sign_reports_all.

(** C99.  With the same parameters for both, set or not, nothing is asked for of the
    original method: its own threshold is above that of the sign method. *)
Theorem sign_reports_original : forall E w h p images Ds len l l',
  client_ok E w h p -> countable images ->
  reported E (Some Morig) w h p images Ds len l -> reported E (Some Msign) w h p images Ds len l' ->
  forall r, In r l -> exists r', In r' l' /\ r_index r' = r_index r /\ (conf_real r <= conf_real r')%R.
Proof. exact sign_reports_original_claim. Qed.
Print Assumptions sign_reports_original.

(** C99.  For a single frame the original method reports what the sign method does with the
    very same confidence, or 0, as its comment says; with several frames it may be less,
    since the frames it suppresses count as 0. *)
Theorem original_confidence : forall E w h p image D len l l',
  client_ok E w h p -> w * h <= 2^53 ->
  reported E (Some Morig) w h p [image] [D] len l -> reported E (Some Msign) w h p [image] [D] len l' ->
  forall r, In r l -> r = own_size len \/ (exists r', In r' l' /\ r_index r' = r_index r /\ conf_real r' = conf_real r) \/ conf_real r = 0%R.
Proof. exact original_confidence_claim. Qed.
Print Assumptions original_confidence.

Example criteria_imply_signs_witness : opposite_magnitude false (f32_of_Z 3) (f32_of_Z (-3)) = true /\ crossing (f32_of_Z 3) (f32_of_Z 0) (f32_of_Z (-3)) = true /\
  opposite_magnitude false (f32_of_Z 3) (f32_of_Z 3) = false.
Proof. exact criteria_imply_signs_example. Qed.

Example sign_reports_all_witness : forall m, In m [Msign; Mmag; Morig; Mzerox] -> exists l l',
  client_ok demo_env 5 1 order_params /\ no_stricter (e_cfg demo_env) (Some m) (Some Msign) order_params order_params /\
  Forall moderate (seen_x demo_env 5 1 [order_image]) /\
  reported demo_env (Some m) 5 1 order_params [order_image] (seen_x demo_env 5 1 [order_image]) 5 l /\
  reported demo_env (Some Msign) 5 1 order_params [order_image] (seen_x demo_env 5 1 [order_image]) 5 l' /\
  In 2 (map r_index l).
Proof. exact sign_reports_all_example. Qed.

Example sign_reports_original_witness : exists l l', client_ok demo_env 5 1 order_params /\
  reported demo_env (Some Morig) 5 1 order_params [order_image] (seen_x demo_env 5 1 [order_image]) 5 l /\
  reported demo_env (Some Msign) 5 1 order_params [order_image] (seen_x demo_env 5 1 [order_image]) 5 l'.
Proof. exact sign_reports_original_example. Qed.

Example original_confidence_witness : hits Original (dim_x 5 1 (plane demo_env 5 1 order_image)) 1 2 = 1 /\ hits Sign (dim_x 5 1 (plane demo_env 5 1 order_image)) 1 2 = 1 /\
  hits ZeroCrossing (dim_x 5 1 (plane demo_env 5 1 order_image)) 1 2 = 1 /\ hits (Magnitude false) (dim_x 5 1 (plane demo_env 5 1 order_image)) 1 2 = 1.
Proof. exact original_confidence_example. Qed.
