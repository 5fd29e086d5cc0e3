(**     Property C90: every choice of COEFF_PRECISION and INTER_PRECISION. *)
From Coq Require Import ZArith Reals Lia Lra Bool List.
From Flocq Require Import Core IEEE754.BinarySingleNaN IEEE754.Binary IEEE754.Bits.
From Verif Require Import Base Flt Util Methods Analysis Precision Spec SpecAnalysis SpecReport SpecPrecision.
From Verif Require Import BaseProofs FltProofs MethodsProofs ErrorProofs PrecisionProofs PrecisionErrorProofs.
Import ListNotations.
Open Scope list_scope.
Open Scope Z_scope.
From Verif Require Import PrecisionClaims.

(** C90.  With COEFF_PRECISION F and INTER_PRECISION D these are the functions of Methods.v
    and the arithmetic of Analysis.v. *)
Theorem precision_default : forall L c al w m f len n stride dist range result start end_ r b w',
  run_method c al w m f len n stride dist range result (start, end_) = Ok (RDEOK, r, b, w') ->
  prun_method (format_of L PF) (format_of L (inter_precision PF PD)) c m f len n stride dist range result start end_ = Ok r /\
  forall a fi i v, get r i = Ok v ->
    result_passes a fi len r i = Ok (preaches (format_of L PD) v (an_nimages a) (p_threshold (an_params a)) && filter_keeps fi len i) /\
    f32_of_f64 (ddiv v (f64_of_Z (an_nimages a))) = pconfidence (format_of L PD) v (an_nimages a).
Proof. exact precision_default_claim. Qed.
Print Assumptions precision_default.

(** Intermediates are never less precise than coefficients: whatever the two settings, every
    finite coefficient and every sample keeps its value and its sign when converted. *)
Theorem precision_rule : forall L coeff inter, long_double L ->
  let C := format_of L coeff in let I := format_of L (inter_precision coeff inter) in
  (forall x, finite C x = true ->
    finite I (convert C I x) = true /\ real I (convert C I x) = real C x /\ nsign I (convert C I x) = nsign C x) /\
  (forall s, ffinite s = true ->
    finite C (psample C s) = true /\ real C (psample C s) = B2R 24 128 s /\ nsign C (psample C s) = fsign s).
Proof. exact precision_rule_claim. Qed.
Print Assumptions precision_rule.

(** Whatever the precisions, every method stays in bounds on every series of planes.  The
    confidence of a position is a number from 0 to 1 after any number of frames; up to
    2^p frames (p bits of precision) it is the exact mean up to 2^-25 + (k+10)/2^p; and the
    test against the threshold compares the computed mean itself. *)
Theorem precision_confidence : forall L coeff inter c m fs Ds len n stride dist range,
  long_double L ->
  let C := format_of L coeff in let I := format_of L (inter_precision coeff inter) in
  series C I c m fs Ds len n stride dist range ->
  exists result, prun_all C I c m fs len n stride dist range (repeat (n0 I) (Z.to_nat (len - 2 * range))) = Ok result /\
    zlen result = len - 2 * range /\
    forall i, 0 <= i < len - 2 * range ->
      let v := at_ (n0 I) result i in let k := zlen fs in let q := pconfidence I v k in
      ffinite q = true /\ (0 <= B2R 24 128 q <= 1)%R /\
      (k <= 2 ^ f_prec I -> (Rabs (B2R 24 128 q - true_mean C I (counted c m) Ds range (range + i))
          <= / IZR (2 ^ 25) + (IZR k + 10) / IZR (2 ^ f_prec I))%R) /\
      forall threshold, ffinite threshold = true ->
        (preaches I v k threshold = true <-> (B2R 24 128 threshold <= real I (pmean I v k))%R).
Proof. exact precision_confidence_claim. Qed.
Print Assumptions precision_confidence.

(** the same plane in four configurations: 1/2, 1 and 0 *)
Example precision_demo_witness :
  long_double x87_format /\ series x87_format x87_format default_config Msign (repeat (demo_plane x87_format) 3) (repeat (demo_span x87_format) 3) 5 2 5 1 1 /\
  demo_confidences binary32_format binary32_format Msign 3 = Ok [bits_of_b32 (fdiv (f32_of_Z 1) (f32_of_Z 2)); bits_of_b32 (f32_of_Z 1); bits_of_b32 (f32_of_Z 0)] /\
  forall p, In p [(binary32_format, binary64_format); (binary64_format, x87_format); (quad_format, quad_format)] ->
    demo_confidences (fst p) (snd p) Msign 3 = demo_confidences binary32_format binary32_format Msign 3.
Proof. exact precision_demo_example. Qed.

(** When at some position every pair meets the criterion in every one of at most 2^p frames,
    the confidence is exactly 1; when none does in any number of frames, it is exactly 0. *)
Theorem precision_unanimous : forall L coeff inter c m fs Ds len n stride dist range result i,
  long_double L ->
  let C := format_of L coeff in let I := format_of L (inter_precision coeff inter) in
  series C I c m fs Ds len n stride dist range ->
  prun_all C I c m fs len n stride dist range (repeat (n0 I) (Z.to_nat (len - 2 * range))) = Ok result ->
  0 <= i < len - 2 * range ->
  let q := pconfidence I (at_ (n0 I) result i) (zlen fs) in
  ((forall D, In D Ds -> met C I (counted c m) D range (range + i) = tried C (counted c m) D range) ->
     zlen fs <= 2 ^ f_prec I -> B2R 24 128 q = 1%R) /\
  ((forall D, In D Ds -> met C I (counted c m) D range (range + i) = 0) -> B2R 24 128 q = 0%R).
Proof. exact precision_unanimous_claim. Qed.
Print Assumptions precision_unanimous.

(** Not so for longer series: the sum no longer grows at 2^p, so after 2^(p+1) frames a
    position where every pair is inverted in every frame has a confidence of at most 1/2, less
    than the default threshold of 0.55, although the exact mean is 1. *)
Theorem precision_stuck : forall L coeff inter c m fs Ds len n stride dist range result i,
  long_double L ->
  let C := format_of L coeff in let I := format_of L (inter_precision coeff inter) in
  series C I c m fs Ds len n stride dist range ->
  prun_all C I c m fs len n stride dist range (repeat (n0 I) (Z.to_nat (len - 2 * range))) = Ok result ->
  0 <= i < len - 2 * range ->
  (forall D, In D Ds -> met C I (counted c m) D range (range + i) = tried C (counted c m) D range) ->
  2 ^ (f_prec I + 1) <= zlen fs ->
  true_mean C I (counted c m) Ds range (range + i) = 1%R /\
  (B2R 24 128 (pconfidence I (at_ (n0 I) result i) (zlen fs)) <= / 2)%R.
Proof. exact precision_stuck_claim. Qed.
Print Assumptions precision_stuck.

(** C90, finding: the exact 1 does not hold for series of any length: with both precisions set
    to F, 2^25 frames in which both pairs around a position are inverted are an example. *)
Theorem precision_long_refuted : exists coeff inter c m fs Ds len n stride dist range result i,
  let C := format_of binary64_format coeff in let I := format_of binary64_format (inter_precision coeff inter) in
  series C I c m fs Ds len n stride dist range /\
  prun_all C I c m fs len n stride dist range (repeat (n0 I) (Z.to_nat (len - 2 * range))) = Ok result /\
  0 <= i < len - 2 * range /\
  (forall D, In D Ds -> met C I (counted c m) D range (range + i) = tried C (counted c m) D range) /\
  B2R 24 128 (pconfidence I (at_ (n0 I) result i) (zlen fs)) <> 1%R.
Proof. exact precision_long_refuted_claim. Qed.
Print Assumptions precision_long_refuted.
