(** What the tables need of the C library, and how good they are. *)
From Coq Require Import ZArith Reals.
From Verif Require Import Base Flt Precision SpecPrecision Kiss KissPrecision SpecKissPrecision TablesPrecision.
Open Scope R_scope.

(** cos and sin on arguments up to 8 in magnitude, and atan at 1, are within e *)
Record maths_within (F : format) (e : R) (Q : maths F) : Prop := {
  mw_cos : forall x, finite F x = true -> Rabs (real F x) <= 8 -> within_unit F e (f_cos Q x) (cos (real F x));
  mw_sin : forall x, finite F x = true -> Rabs (real F x) <= 8 -> within_unit F e (f_sin Q x) (sin (real F x));
  mw_atan : within_unit F e (f_atan Q (num_of_Z F 1)) (atan 1)
}.
(** what is asked of the functions for floats, and of the others: errors of two to four times
    those of good C libraries *)
Definition maths_unit (p : precision) : R := match p with PF => / IZR (2 ^ 23) | PD | PL => / IZR (2 ^ 51) end.
(** the errors of the tables: that of the phases where the intermediates are floats, of a
    float's rounding, or of the phases in double *)
Definition table_unit (coeff inter : precision) : R :=
  match coeff, inter with
  | PF, PF => / IZR (2 ^ 20)
  | PF, _ => / IZR (2 ^ 24)
  | _, _ => / IZR (2 ^ 46)
  end.
