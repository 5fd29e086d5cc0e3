(** Images turned, mirrored or with other contrast and brightness. *)
From Coq Require Import ZArith List Bool Reals.
From Verif Require Import Base Flt Util Analysis Spec SpecAnalysis SpecReport SpecTransform SpecAccuracy SpecInterpolate SpecDetect.
Import ListNotations.
Open Scope list_scope.
Open Scope R_scope.

(** a picture g of w x h samples, mirrored if fx and upside down if fy, each sample times c
    plus b; c may be negative, but not 0 where coefficients are to be large *)
Definition reworked (fx fy : bool) (w h : Z) (c b : R) (g : Z -> Z -> R) (y x : Z) : R :=
  c * g (if fy then h - 1 - y else y)%Z (if fx then w - 1 - x else x)%Z + b.

(** [image'] is [image] reworked, up to d per sample, and the exact coefficients around
    column (row) N of both are larger than the errors.  The brightness may only change if
    the coefficient that holds it is not among those. *)
Definition reworked_x (E : env) (N w h range : Z) (image image' : list f32) : Prop :=
  exists g M e fx fy c b M' e' d,
    has_samples w h image g M /\ accurate E w h M e /\ above_x w h N range g e /\
    ((range < N)%Z \/ b = 0) /\
    nearly_samples w h image' (reworked fx fy w h c b g) M' d /\ accurate E w h M' e' /\
    above_x w h N range (reworked fx fy w h c b g) (e' + 4 * IZR w * IZR h * d).
Definition reworked_y (E : env) (N w h range : Z) (image image' : list f32) : Prop :=
  exists g M e fx fy c b M' e' d,
    has_samples w h image g M /\ accurate E w h M e /\ above_y w h N range g e /\
    ((range < N)%Z \/ b = 0) /\
    nearly_samples w h image' (reworked fx fy w h c b g) M' d /\ accurate E w h M' e' /\
    above_y w h N range (reworked fx fy w h c b g) (e' + 4 * IZR w * IZR h * d).

(** [image'], of h x w samples, has the columns of [image] as rows, reworked too: with one of
    fx and fy this is a quarter turn.  Column (row) N becomes row (column) N. *)
Definition turned_x (E : env) (N w h range : Z) (image image' : list f32) : Prop :=
  exists g M e fx fy c b M' e' d, let g' y x := reworked fx fy w h c b g x y in
    has_samples w h image g M /\ accurate E w h M e /\ above_x w h N range g e /\
    ((range < N)%Z \/ b = 0) /\
    nearly_samples h w image' g' M' d /\ accurate E h w M' e' /\
    above_y h w N range g' (e' + 4 * IZR w * IZR h * d).
Definition turned_y (E : env) (N w h range : Z) (image image' : list f32) : Prop :=
  exists g M e fx fy c b M' e' d, let g' y x := reworked fx fy w h c b g x y in
    has_samples w h image g M /\ accurate E w h M e /\ above_y w h N range g e /\
    ((range < N)%Z \/ b = 0) /\
    nearly_samples h w image' g' M' d /\ accurate E h w M' e' /\
    above_x h w N range g' (e' + 4 * IZR w * IZR h * d).
