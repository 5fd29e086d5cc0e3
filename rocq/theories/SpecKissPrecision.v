(** How far the transform in some precision may be from the exact one. *)
From Coq Require Import ZArith List Bool Reals.
From Flocq Require Import IEEE754.Binary.
From Verif Require Import Base Flt Precision Spec Kiss SpecTransform SpecAccuracy SpecPrecision KissPrecision.
Import ListNotations.
Open Scope R_scope.

(** a finite number within u of r *)
Definition within_unit (F : format) (u : R) (v : num F) (r : R) : Prop := finite F v = true /\ Rabs (real F v - r) <= u.
Definition pair_within (F : format) (u : R) (v : num F * num F) (z : cx) : Prop := within_unit F u (fst v) (fst z) /\ within_unit F u (snd v) (snd z).
(** tables of sines and cosines with errors of at most u *)
Definition tables_within (F : format) (u : R) (twiddle super shift : number_table F) (n : Z) : Prop :=
  forall i, (0 <= i < n)%Z ->
    pair_within F u (twiddle n i) (o_twiddle exact_ops n i) /\
    pair_within F u (super n i) (o_super exact_ops n i) /\
    pair_within F u (shift n i) (o_shift exact_ops n i).

(** lengths for which the errors of a sum of as many terms stay a small part of it; for u of
    at most 2^-24 these are all up to 2^20 *)
Definition length_ok (u : R) (n : Z) : Prop := (1 <= n <= 2^20)%Z /\ IZR n * u <= / 16.

(** the relative error of one direction, and the error of a coefficient of a w x h image of
    samples of magnitude at most M, in units of u *)
Definition loss_of (u : R) (radices : list Z) : R :=
  3/2 * (fold_right (fun p g => (1 + IZR (2 * p + 50) * u) * g) (1 + 32 * u) radices - 1).
Definition error_of (u : R) (w h : Z) (radices_w radices_h : list Z) (M : R) : R :=
  4 * IZR w * IZR h * M * ((1 + loss_of u radices_w) * (1 + loss_of u radices_h) - 1).

(** a number that has the sign of r, neither being zero *)
Definition same_sign (F : format) (a : num F) (r : R) : Prop := finite F a = true /\ 0 < real F a * r.

(** ** Conversions between coefficients and scalars *)
(** what the C implementation does when a scalar of format S is stored as a coefficient of
    format C and loaded again: it comes back, and a number stays the number it is *)
Record conversions (S C : format) (load : num C -> num S) (store : num S -> num C) : Prop := {
  cv_back : forall x, load (store x) = x;
  cv_kept : forall x, finite S x = true -> finite C (store x) = true /\ real C (store x) = real S x
}.

(** ** Upscales *)
(** an s-fold horizontal (vertical) upscale, clear of rounding errors in units of u *)
Definition clear_x (u : R) (s N h range : Z) (image : list f32) : Prop :=
  exists g M lw lh, 1 <= M <= 1048576 /\ kf_factor (s * N) = Ok lw /\ kf_factor h = Ok lh /\
    has_samples (s * N) h image (widened s g) M /\
    above_x (s * N) h N range (widened s g) (error_of u (s * N) h (radices_of lw) (radices_of lh) M).
Definition clear_y (u : R) (s N w range : Z) (image : list f32) : Prop :=
  exists g M lw lh, 1 <= M <= 1048576 /\ kf_factor w = Ok lw /\ kf_factor (s * N) = Ok lh /\
    has_samples w (s * N) image (heightened s g) M /\
    above_y w (s * N) N range (heightened s g) (error_of u w (s * N) (radices_of lw) (radices_of lh) M).
