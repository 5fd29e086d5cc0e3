(** Cubic interpolation. *)
From Coq Require Import ZArith List Reals.
From Flocq Require IEEE754.Binary.
From Verif Require Import Base Flt Spec Kiss SpecTransform SpecAccuracy SpecInterpolate.
Import ListNotations.
Open Scope list_scope.
Open Scope R_scope.

(** ** Kernels *)
(** the family of Mitchell and Netravali: (1, 0) is the cubic B-spline, (0, 1/2) is Catmull
    and Rom's, (1/3, 1/3) is theirs, and (0, c) are those of Keys *)
Definition cubic (B C u : R) : R :=
  if Rlt_dec (Rabs u) 1 then ((12 - 9 * B - 6 * C) * Rabs u ^ 3 + (-18 + 12 * B + 6 * C) * Rabs u ^ 2 + (6 - 2 * B)) / 6
  else if Rlt_dec (Rabs u) 2 then
    ((- B - 6 * C) * Rabs u ^ 3 + (6 * B + 30 * C) * Rabs u ^ 2 + (-12 * B - 48 * C) * Rabs u + (8 * B + 24 * C)) / 6
  else 0.

(** ** Images *)
(** a frame that was made s times as wide (high) with such a kernel, and then changed by at
    most d per sample *)
Definition cubic_upscale_x (s N h range : Z) (image : list f32) : Prop :=
  exists g B C M d lw lh, 0 <= B <= 1 /\ 0 <= C <= 1 /\ 1 <= M <= 1048576 /\ kf_factor (s * N) = Ok lw /\ kf_factor h = Ok lh /\
    nearly_samples (s * N) h image (rows_resampled N (s * N) 2 (cubic B C) g) M d /\
    above_x (s * N) h N range (rows_resampled N (s * N) 2 (cubic B C) g)
      (coefficient_error (s * N) h (radices_of lw) (radices_of lh) M + 4 * IZR (s * N) * IZR h * d).
Definition cubic_upscale_y (s N w range : Z) (image : list f32) : Prop :=
  exists g B C M d lw lh, 0 <= B <= 1 /\ 0 <= C <= 1 /\ 1 <= M <= 1048576 /\ kf_factor w = Ok lw /\ kf_factor (s * N) = Ok lh /\
    nearly_samples w (s * N) image (columns_resampled N (s * N) 2 (cubic B C) g) M d /\
    above_y w (s * N) N range (columns_resampled N (s * N) 2 (cubic B C) g)
      (coefficient_error w (s * N) (radices_of lw) (radices_of lh) M + 4 * IZR w * IZR (s * N) * d).

(** from 2p to 3p samples; kernels with B + 2C = 1 alias the least *)
Definition cubic_leak (B C : R) (N range : Z) : R :=
  let e := PI * IZR range / IZR N in 9/100 * Rabs (B + 2 * C - 1) * e + e ^ 2 / 2.
Definition cubic_halves_x (p h range : Z) (image : list f32) : Prop :=
  exists g G B C M d lw lh, 0 <= B <= 1 /\ 0 <= C <= 1 /\ (forall y x, (0 <= y < h)%Z -> (0 <= x < 2 * p)%Z -> Rabs (g y x) <= G) /\
    1 <= M <= 1048576 /\ kf_factor (3 * p) = Ok lw /\ kf_factor h = Ok lh /\
    nearly_samples (3 * p) h image (rows_resampled (2 * p) (3 * p) 2 (cubic B C) g) M d /\
    above_x (3 * p) h (2 * p) range (rows_resampled (2 * p) (3 * p) 2 (cubic B C) g)
      (coefficient_error (3 * p) h (radices_of lw) (radices_of lh) M + 4 * IZR (3 * p) * IZR h * d
        + 4 * IZR (2 * p) * IZR h * G * cubic_leak B C (2 * p) range).
Definition cubic_halves_y (p w range : Z) (image : list f32) : Prop :=
  exists g G B C M d lw lh, 0 <= B <= 1 /\ 0 <= C <= 1 /\ (forall y x, (0 <= y < 2 * p)%Z -> (0 <= x < w)%Z -> Rabs (g y x) <= G) /\
    1 <= M <= 1048576 /\ kf_factor w = Ok lw /\ kf_factor (3 * p) = Ok lh /\
    nearly_samples w (3 * p) image (columns_resampled (2 * p) (3 * p) 2 (cubic B C) g) M d /\
    above_y w (3 * p) (2 * p) range (columns_resampled (2 * p) (3 * p) 2 (cubic B C) g)
      (coefficient_error w (3 * p) (radices_of lw) (radices_of lh) M + 4 * IZR w * IZR (3 * p) * d
        + 4 * IZR (2 * p) * IZR w * G * cubic_leak B C (2 * p) range).
