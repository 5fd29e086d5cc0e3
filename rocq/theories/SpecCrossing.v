(** Where the zero crossing method must find a crossing. *)
From Coq Require Import ZArith List Bool Reals.
From Verif Require Import Base Flt Util Analysis Spec SpecAnalysis SpecReport SpecTransform SpecAccuracy SpecInterpolate SpecCubic SpecLanczos SpecDetect.
Import ListNotations.
Open Scope list_scope.
Open Scope R_scope.

(** some of the lines across a dimension *)
Definition some_lines (lines : Z) (s : list Z) : Prop := NoDup s /\ forall y, In y s -> (0 <= y < lines)%Z.

(** three coefficients cross zero, the middle one closer to it than the others by 2e *)
Definition crosses (e left middle right : R) : Prop :=
  left * right < 0 /\ Rabs middle + 2 * e < Rabs left /\ Rabs middle + 2 * e < Rabs right.

(** the exact coefficients at N - 1, N and N + 1 do on c of the lines *)
Definition crossed_x (E : env) (N w h : Z) (image : list f32) (c : Z) : Prop :=
  exists g M e s, has_samples w h image g M /\ accurate E w h M e /\ some_lines h s /\ zlen s = c /\
    forall y, In y s -> let D := dct_2d w h g y in crosses e (D (N - 1)%Z) (D N) (D (N + 1)%Z).
Definition crossed_y (E : env) (N w h : Z) (image : list f32) (c : Z) : Prop :=
  exists g M e s, has_samples w h image g M /\ accurate E w h M e /\ some_lines w s /\ zlen s = c /\
    forall x, In x s -> let D y := dct_2d w h g y x in crosses e (D (N - 1)%Z) (D N) (D (N + 1)%Z).

(** an upscale from N samples as in [partly_x], of which c lines are clear at N - 1 and N + 1 *)
Definition crossing_upscale_x (E : env) (N w h : Z) (image : list f32) (c : Z) : Prop :=
  exists g a K G M d leak e s,
    kernel_ok a K /\ (forall y x, (0 <= y < h)%Z -> (0 <= x < N)%Z -> Rabs (g y x) <= G) /\
    (forall k, (N - 1 <= k <= N + 1)%Z -> exists P, 0 < P /\ responds N w a K k P leak) /\
    accurate E w h M e /\ nearly_samples w h image (rows_resampled N w a K g) M d /\
    some_lines h s /\ zlen s = c /\
    forall y, In y s -> let D := dct_2d w h (rows_resampled N w a K g) y in
      let all := 2 * e + 8 * IZR w * IZR h * d + 4 * IZR N * IZR h * G * leak in
      all < Rabs (D (N - 1)%Z) /\ all < Rabs (D (N + 1)%Z).
Definition crossing_upscale_y (E : env) (N w h : Z) (image : list f32) (c : Z) : Prop :=
  exists g a K G M d leak e s,
    kernel_ok a K /\ (forall y x, (0 <= y < N)%Z -> (0 <= x < w)%Z -> Rabs (g y x) <= G) /\
    (forall k, (N - 1 <= k <= N + 1)%Z -> exists P, 0 < P /\ responds N h a K k P leak) /\
    accurate E w h M e /\ nearly_samples w h image (columns_resampled N h a K g) M d /\
    some_lines w s /\ zlen s = c /\
    forall x, In x s -> let D y := dct_2d w h (columns_resampled N h a K g) y x in
      let all := 2 * e + 8 * IZR w * IZR h * d + 4 * IZR N * IZR w * G * leak in
      all < Rabs (D (N - 1)%Z) /\ all < Rabs (D (N + 1)%Z).

(** kernels for which a whole factor s leaves no aliasing at N - 1, N and N + 1 *)
Definition whole_kernel (s N a : Z) (K : R -> R) : Prop :=
  (common_kernel s a K /\ (2 <= N)%Z) \/
  (a = 2%Z /\ (10 <= N)%Z /\ exists B C, 0 <= B <= 1 /\ 0 <= C <= 1 /\ K = cubic B C) \/
  (exists lobe, lanczos_kernel lobe a K /\ (lobe * a <= N)%Z).
