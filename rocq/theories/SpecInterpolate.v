(** Images scaled up by interpolation. *)
From Coq Require Import ZArith List Bool Reals.
From Flocq Require IEEE754.Binary.
From Verif Require Import Base Flt Spec Kiss SpecTransform SpecAccuracy.
Import ListNotations.
Open Scope list_scope.
Open Scope R_scope.

(** ** One line *)
(** samples x 0, ..., x (n-1), mirrored at both ends and so continued for ever *)
Definition reflected (n : Z) (x : Z -> R) (j : Z) : R :=
  let r := (j mod (2 * n))%Z in x (if (r <? n)%Z then r else (2 * n - 1 - r)%Z).

(** N samples and M samples fill the same line, so the centre of new sample i is at
    (i + 1/2) N / M; this is how far it is from the centre of old sample m *)
Definition offset (N M i m : Z) : R := (IZR i + 1/2) * IZR N / IZR M - (IZR m + 1/2).

(** symmetric weights that vanish at distance a *)
Definition kernel_ok (a : Z) (K : R -> R) : Prop :=
  (1 <= a)%Z /\ (forall u, K (- u) = K u) /\ (forall u, IZR a <= Rabs u -> K u = 0).

(** new sample i: the old samples around it, weighted by distance *)
Definition resampled (N M a : Z) (K : R -> R) (x : Z -> R) (i : Z) : R :=
  rsum (fun m => reflected N x m * K (offset N M i m)) (i * N / M - a) (i * N / M + a + 1).

(** ** Kernels *)
Definition box (u : R) : R := if Rlt_dec (Rabs u) (1/2) then 1 else 0.
Definition tent (u : R) : R := if Rlt_dec (Rabs u) 1 then 1 - Rabs u else 0.
(** the cubic kernel of Catmull and Rom *)
Definition catmull_rom (u : R) : R :=
  if Rlt_dec (Rabs u) 1 then 3/2 * Rabs u ^ 3 - 5/2 * Rabs u ^ 2 + 1
  else if Rlt_dec (Rabs u) 2 then - (1/2) * Rabs u ^ 3 + 5/2 * Rabs u ^ 2 - 4 * Rabs u + 2 else 0.

(** ** Frequency response *)
(** what old sample m gives to a cosine (sine) wave of frequency k, centred at m *)
Definition phase_cos (N M a : Z) (K : R -> R) (k m : Z) : R :=
  rsum (fun i => K (offset N M i m) * cos (PI * IZR k * offset N M i m / IZR N)) ((m - a) * M / N) ((m + a + 1) * M / N + 1).
Definition phase_sin (N M a : Z) (K : R -> R) (k m : Z) : R :=
  rsum (fun i => K (offset N M i m) * sin (PI * IZR k * offset N M i m / IZR N)) ((m - a) * M / N) ((m + a + 1) * M / N + 1).
(** every sample gives nearly P; [leak] is what aliases *)
Definition responds (N M a : Z) (K : R -> R) (k : Z) (P leak : R) : Prop :=
  forall m, Rabs (phase_cos N M a K k m - P) + Rabs (phase_sin N M a K k m) <= leak.

(** ** Images *)
(** every row (column) resampled to w (h) samples *)
Definition rows_resampled (N w a : Z) (K : R -> R) (g : Z -> Z -> R) (y x : Z) : R := resampled N w a K (g y) x.
Definition columns_resampled (N h a : Z) (K : R -> R) (g : Z -> Z -> R) (y x : Z) : R := resampled N h a K (fun r => g r x) y.

(** samples of the image buffer at most M, and within d of those of g *)
Definition nearly_samples (w h : Z) (image : list f32) (g : Z -> Z -> R) (M d : R) : Prop :=
  exists f, has_samples w h image f M /\ forall y x, (0 <= y < h)%Z -> (0 <= x < w)%Z -> Rabs (f y x - g y x) <= d.

(** a w x h frame whose rows come, up to an error d per sample, from N samples of size at
    most G; the exact coefficients around N are larger than what rounding, the errors d
    and aliasing can amount to *)
Definition interpolated_x (N w h range : Z) (image : list f32) : Prop :=
  exists g a K G M d leak lw lh,
    kernel_ok a K /\ (forall y x, (0 <= y < h)%Z -> (0 <= x < N)%Z -> Rabs (g y x) <= G) /\
    (forall k, (N - range <= k <= N + range)%Z -> exists P, 0 < P /\ responds N w a K k P leak) /\
    1 <= M <= 1048576 /\ kf_factor w = Ok lw /\ kf_factor h = Ok lh /\
    nearly_samples w h image (rows_resampled N w a K g) M d /\
    above_x w h N range (rows_resampled N w a K g)
      (coefficient_error w h (radices_of lw) (radices_of lh) M + 4 * IZR w * IZR h * d + 4 * IZR N * IZR h * G * leak).
Definition interpolated_y (N w h range : Z) (image : list f32) : Prop :=
  exists g a K G M d leak lw lh,
    kernel_ok a K /\ (forall y x, (0 <= y < N)%Z -> (0 <= x < w)%Z -> Rabs (g y x) <= G) /\
    (forall k, (N - range <= k <= N + range)%Z -> exists P, 0 < P /\ responds N h a K k P leak) /\
    1 <= M <= 1048576 /\ kf_factor w = Ok lw /\ kf_factor h = Ok lh /\
    nearly_samples w h image (columns_resampled N h a K g) M d /\
    above_y w h N range (columns_resampled N h a K g)
      (coefficient_error w h (radices_of lw) (radices_of lh) M + 4 * IZR w * IZR h * d + 4 * IZR N * IZR w * G * leak).

(** upscales by a whole factor with common kernels *)
Definition common_kernel (s a : Z) (K : R -> R) : Prop :=
  (a = 1%Z /\ K = box) \/ (a = 1%Z /\ K = tent) \/ (s = 2%Z /\ a = 2%Z /\ K = catmull_rom).
Definition common_upscale_x (s N h range : Z) (image : list f32) : Prop :=
  exists g a K M d lw lh, common_kernel s a K /\ 1 <= M <= 1048576 /\ kf_factor (s * N) = Ok lw /\ kf_factor h = Ok lh /\
    nearly_samples (s * N) h image (rows_resampled N (s * N) a K g) M d /\
    above_x (s * N) h N range (rows_resampled N (s * N) a K g)
      (coefficient_error (s * N) h (radices_of lw) (radices_of lh) M + 4 * IZR (s * N) * IZR h * d).
Definition common_upscale_y (s N w range : Z) (image : list f32) : Prop :=
  exists g a K M d lw lh, common_kernel s a K /\ 1 <= M <= 1048576 /\ kf_factor w = Ok lw /\ kf_factor (s * N) = Ok lh /\
    nearly_samples w (s * N) image (columns_resampled N (s * N) a K g) M d /\
    above_y w (s * N) N range (columns_resampled N (s * N) a K g)
      (coefficient_error w (s * N) (radices_of lw) (radices_of lh) M + 4 * IZR w * IZR (s * N) * d).

(** linear upscales from 2p to 3p samples *)
Definition halves_leak (N range : Z) : R := (PI * IZR range / IZR N) ^ 2 / 6.
Definition halves_upscale_x (p h range : Z) (image : list f32) : Prop :=
  exists g G M d lw lh, (forall y x, (0 <= y < h)%Z -> (0 <= x < 2 * p)%Z -> Rabs (g y x) <= G) /\
    1 <= M <= 1048576 /\ kf_factor (3 * p) = Ok lw /\ kf_factor h = Ok lh /\
    nearly_samples (3 * p) h image (rows_resampled (2 * p) (3 * p) 1 tent g) M d /\
    above_x (3 * p) h (2 * p) range (rows_resampled (2 * p) (3 * p) 1 tent g)
      (coefficient_error (3 * p) h (radices_of lw) (radices_of lh) M + 4 * IZR (3 * p) * IZR h * d
        + 4 * IZR (2 * p) * IZR h * G * halves_leak (2 * p) range).
