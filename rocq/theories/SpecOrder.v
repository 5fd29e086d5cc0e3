(** Two analyses of the same frames with different methods. *)
From Coq Require Import ZArith List Bool Reals.
From Flocq Require Import IEEE754.Binary.
From Verif Require Import Base Flt Util Methods Analysis Spec SpecAnalysis SpecReport.
Open Scope Z_scope.

(** the second is at least as permissive and searches the same sizes *)
Definition no_stricter (c : config) (m m' : option method) (p p' : option params) : Prop :=
  used_range c m' p' = used_range c m p /\ used_filter p' = used_filter p /\
  (B2R 24 128 (used_threshold m' p') <= B2R 24 128 (used_threshold m p))%R.

(** coefficients whose quotients do not overflow, with the divisor at least DBL_EPSILON *)
Definition moderate (D : dim) : Prop :=
  forall y x, 0 <= y < d_lines D -> 0 <= x < d_len D ->
    ffinite (d_coef D y x) = true /\ (Rabs (B2R 24 128 (d_coef D y x)) <= IZR (2^48))%R.
