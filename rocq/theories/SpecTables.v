(** What the tables of the KISS transform need of the C library. *)
From Coq Require Import ZArith Reals.
From Flocq Require Import IEEE754.Binary.
From Verif Require Import Base Flt Kiss SpecTransform Tables.
Open Scope R_scope.

(** [y] is finite and within 2^-30 of r; good C libraries are within 2^-52 *)
Definition near64 (y : f64) (r : R) : Prop := is_finite 53 1024 y = true /\ Rabs (B2R 53 1024 y - r) <= / 1073741824.
(** cos and sin on arguments up to 8 in magnitude, and atan at 1 *)
Record libm_ok (M : libm) : Prop := {
  lm_cos : forall x, is_finite 53 1024 x = true -> Rabs (B2R 53 1024 x) <= 8 -> near64 (m_cos M x) (cos (B2R 53 1024 x));
  lm_sin : forall x, is_finite 53 1024 x = true -> Rabs (B2R 53 1024 x) <= 8 -> near64 (m_sin M x) (sin (B2R 53 1024 x));
  lm_atan : near64 (m_atan M (f64_of_Z 1)) (atan 1)
}.

(** the scalars of the KISS build with this C library *)
Definition c_ops (M : libm) : ops f32 := float_ops (twiddle_table M) (super_table M) (shift_table M).
