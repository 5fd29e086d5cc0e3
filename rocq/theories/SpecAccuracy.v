(** How far the transform in C floats may be from the exact one. *)
From Coq Require Import ZArith List Bool Reals.
From Flocq Require IEEE754.Binary.
From Verif Require Import Base Flt Spec Kiss SpecTransform.
Import ListNotations.
Open Scope R_scope.

(** a finite float within 2^-24 of r; the float nearest to a sine or cosine is within 2^-25 *)
Definition close32 (v : f32) (r : R) : Prop :=
  ffinite v = true /\ Rabs (Binary.B2R 24 128 v - r) <= / 16777216.
Definition close_pair (v : f32 * f32) (z : cx) : Prop := close32 (fst v) (fst z) /\ close32 (snd v) (snd z).

(** the tables the C library's cos and sin give for a transform of size n *)
Definition tables_close (twiddle super shift : table) (n : Z) : Prop :=
  forall i, (0 <= i < n)%Z ->
    close_pair (twiddle n i) (o_twiddle exact_ops n i) /\
    close_pair (super n i) (o_super exact_ops n i) /\
    close_pair (shift n i) (o_shift exact_ops n i).

(** the relative error of one direction, when the passes have the given radices *)
Definition pass_error (p : Z) : R := IZR (2 * p + 50) / 16777216.
Definition passes (radices : list Z) : R := fold_right (fun p g => (1 + pass_error p) * g) (1 + 32 / 16777216) radices.
Definition loss (radices : list Z) : R := 3/2 * (passes radices - 1).

(** the error of a coefficient of a w x h image whose samples are at most M in magnitude *)
Definition coefficient_error (w h : Z) (radices_w radices_h : list Z) (M : R) : R :=
  4 * IZR w * IZR h * M * ((1 + loss radices_w) * (1 + loss radices_h) - 1).

(** ** Images *)
(** the first w*h samples of an image buffer, row by row, are those of g, which are at most M *)
Definition has_samples (w h : Z) (image : list f32) (g : Z -> Z -> R) (M : R) : Prop :=
  (w * h <= zlen image)%Z /\
  forall y x, (0 <= y < h)%Z -> (0 <= x < w)%Z ->
    ffinite (at_ f0 image (y * w + x)) = true /\ Binary.B2R 24 128 (at_ f0 image (y * w + x)) = g y x /\ Rabs (g y x) <= M.

(** the exact coefficients on the mirrored columns (rows) around N exceed e *)
Definition above_x (w h N range : Z) (g : Z -> Z -> R) (e : R) : Prop :=
  forall y i, (0 <= y < h)%Z -> (1 <= i <= range)%Z ->
    e < Rabs (dct_2d w h g y (N - i)) /\ e < Rabs (dct_2d w h g y (N + i)).
Definition above_y (w h N range : Z) (g : Z -> Z -> R) (e : R) : Prop :=
  forall x i, (0 <= x < w)%Z -> (1 <= i <= range)%Z ->
    e < Rabs (dct_2d w h g (N - i) x) /\ e < Rabs (dct_2d w h g (N + i) x).

(** an s-fold horizontal (vertical) upscale, clear of rounding errors *)
Definition upscale_x (s N h range : Z) (image : list f32) : Prop :=
  exists g M lw lh, 1 <= M <= 1048576 /\ kf_factor (s * N) = Ok lw /\ kf_factor h = Ok lh /\
    has_samples (s * N) h image (widened s g) M /\
    above_x (s * N) h N range (widened s g) (coefficient_error (s * N) h (radices_of lw) (radices_of lh) M).
Definition upscale_y (s N w range : Z) (image : list f32) : Prop :=
  exists g M lw lh, 1 <= M <= 1048576 /\ kf_factor w = Ok lw /\ kf_factor (s * N) = Ok lh /\
    has_samples w (s * N) image (heightened s g) M /\
    above_y w (s * N) N range (heightened s g) (coefficient_error w (s * N) (radices_of lw) (radices_of lh) M).
