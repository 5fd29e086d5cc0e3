(** What the exact coefficients of an image say about the sizes reported for it. *)
From Coq Require Import ZArith List Bool Reals.
From Flocq Require IEEE754.Binary.
From Verif Require Import Base Flt Util Methods Analysis Spec SpecAnalysis SpecReport SpecTransform SpecAccuracy SpecInterpolate.
Import ListNotations.
Open Scope list_scope.
Open Scope R_scope.

(** a build whose coefficients are finite and within e of the exact ones, for images of w x h
    samples that are at most M; with KISS see [coefficient_error], with FFTW the error that
    library has *)
Definition accurate (E : env) (w h : Z) (M e : R) : Prop :=
  forall image g, has_samples w h image g M -> forall y x, (0 <= y < h)%Z -> (0 <= x < w)%Z ->
    ffinite (at_ f0 (plane E w h image) (y * w + x)) = true /\
    Rabs (Binary.B2R 24 128 (at_ f0 (plane E w h image) (y * w + x)) - dct_2d w h g y x) <= e.

(** some of the pairs that the sign method compares: lines and distances *)
Definition some_pairs (lines range : Z) (s : list (Z * Z)) : Prop :=
  NoDup s /\ forall y i, In (y, i) s -> (0 <= y < lines)%Z /\ (1 <= i <= range)%Z.

Definition opposed (a b : R) : Prop := a * b < 0.
Definition alike (a b : R) : Prop := 0 < a * b.

(** c pairs of exact coefficients around column (row) N are larger than the error, and
    opposed, or alike *)
Definition clear_x (rel : R -> R -> Prop) (E : env) (N w h range : Z) (image : list f32) (c : Z) : Prop :=
  exists g M e s, has_samples w h image g M /\ accurate E w h M e /\ some_pairs h range s /\ zlen s = c /\
    forall y i, In (y, i) s -> let D := dct_2d w h g y in
      e < Rabs (D (N - i)%Z) /\ e < Rabs (D (N + i)%Z) /\ rel (D (N - i)%Z) (D (N + i)%Z).
Definition clear_y (rel : R -> R -> Prop) (E : env) (N w h range : Z) (image : list f32) (c : Z) : Prop :=
  exists g M e s, has_samples w h image g M /\ accurate E w h M e /\ some_pairs w range s /\ zlen s = c /\
    forall x i, In (x, i) s -> let D y := dct_2d w h g y x in
      e < Rabs (D (N - i)%Z) /\ e < Rabs (D (N + i)%Z) /\ rel (D (N - i)%Z) (D (N + i)%Z).

(** the part of all pairs, one count for each frame *)
Definition part (cs : list Z) (lines range : Z) : R := sum_R (map IZR cs) / (INR (length cs) * IZR (lines * range)).
(** rounding of the confidence after k frames (C16) *)
Definition mean_rounding (k : nat) : R := / 2 ^ 25 + (INR k + 10) * / 2 ^ 53.

(** ** Upscales of which only some coefficients are clear *)
(** [interpolated_x] of SpecInterpolate.v, for any build and with c pairs that are clear of
    rounding, of the errors d and of aliasing *)
Definition partly_x (E : env) (N w h range : Z) (image : list f32) (c : Z) : Prop :=
  exists g a K G M d leak e s,
    kernel_ok a K /\ (forall y x, (0 <= y < h)%Z -> (0 <= x < N)%Z -> Rabs (g y x) <= G) /\
    (forall k, (N - range <= k <= N + range)%Z -> exists P, 0 < P /\ responds N w a K k P leak) /\
    accurate E w h M e /\ nearly_samples w h image (rows_resampled N w a K g) M d /\
    some_pairs h range s /\ zlen s = c /\
    forall y i, In (y, i) s -> let D := dct_2d w h (rows_resampled N w a K g) y in
      let all := e + 4 * IZR w * IZR h * d + 4 * IZR N * IZR h * G * leak in
      all < Rabs (D (N - i)%Z) /\ all < Rabs (D (N + i)%Z).
Definition partly_y (E : env) (N w h range : Z) (image : list f32) (c : Z) : Prop :=
  exists g a K G M d leak e s,
    kernel_ok a K /\ (forall y x, (0 <= y < N)%Z -> (0 <= x < w)%Z -> Rabs (g y x) <= G) /\
    (forall k, (N - range <= k <= N + range)%Z -> exists P, 0 < P /\ responds N h a K k P leak) /\
    accurate E w h M e /\ nearly_samples w h image (columns_resampled N h a K g) M d /\
    some_pairs w range s /\ zlen s = c /\
    forall x i, In (x, i) s -> let D y := dct_2d w h (columns_resampled N h a K g) y x in
      let all := e + 4 * IZR w * IZR h * d + 4 * IZR N * IZR w * G * leak in
      all < Rabs (D (N - i)%Z) /\ all < Rabs (D (N + i)%Z).
