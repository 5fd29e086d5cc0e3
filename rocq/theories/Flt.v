(** C float (binary32) and double (binary64) operations, through Flocq.
    Rounding is to nearest even; every operator rounds to its C type. *)
From Coq Require Import ZArith Bool.
From Flocq Require Import Core.Zaux IEEE754.BinarySingleNaN IEEE754.Binary IEEE754.Bits.
Open Scope Z_scope.

Definition f32 := binary32.
Definition f64 := binary64.

Definition fadd : f32 -> f32 -> f32 := b32_plus mode_NE.
Definition fsub : f32 -> f32 -> f32 := b32_minus mode_NE.
Definition fmul : f32 -> f32 -> f32 := b32_mult mode_NE.
Definition fdiv : f32 -> f32 -> f32 := b32_div mode_NE.
Definition fopp : f32 -> f32 := b32_opp.
Definition fabsf : f32 -> f32 := b32_abs.

Definition dadd : f64 -> f64 -> f64 := b64_plus mode_NE.
Definition dsub : f64 -> f64 -> f64 := b64_minus mode_NE.
Definition dmul : f64 -> f64 -> f64 := b64_mult mode_NE.
Definition ddiv : f64 -> f64 -> f64 := b64_div mode_NE.
Definition dopp : f64 -> f64 := b64_opp.
Definition dabs : f64 -> f64 := b64_abs.

(** integer to floating conversions *)
Definition f32_of_Z (z : Z) : f32 := binary_normalize 24 128 eq_refl eq_refl mode_NE z 0 false.
Definition f64_of_Z (z : Z) : f64 := binary_normalize 53 1024 eq_refl eq_refl mode_NE z 0 false.

(** float <-> double conversions *)
Definition f64_of_f32 (x : f32) : f64 :=
  match x with
  | B754_zero _ _ s => B754_zero _ _ s
  | B754_infinity _ _ s => B754_infinity _ _ s
  | B754_nan _ _ s _ _ => proj1_sig default_nan_pl64
  | B754_finite _ _ s m e _ =>
      binary_normalize 53 1024 eq_refl eq_refl mode_NE (cond_Zopp s (Zpos m)) e s
  end.
Definition f32_of_f64 (x : f64) : f32 :=
  match x with
  | B754_zero _ _ s => B754_zero _ _ s
  | B754_infinity _ _ s => B754_infinity _ _ s
  | B754_nan _ _ s _ _ => proj1_sig default_nan_pl32
  | B754_finite _ _ s m e _ =>
      binary_normalize 24 128 eq_refl eq_refl mode_NE (cond_Zopp s (Zpos m)) e s
  end.

(** comparisons: false on NaN *)
Definition flt (a b : f32) : bool := match b32_compare a b with Some Lt => true | _ => false end.
Definition fgt (a b : f32) : bool := match b32_compare a b with Some Gt => true | _ => false end.
Definition feq (a b : f32) : bool := match b32_compare a b with Some Eq => true | _ => false end.
Definition dlt (a b : f64) : bool := match b64_compare a b with Some Lt => true | _ => false end.
Definition dgt (a b : f64) : bool := match b64_compare a b with Some Gt => true | _ => false end.
Definition deq (a b : f64) : bool := match b64_compare a b with Some Eq => true | _ => false end.
Definition dge (a b : f64) : bool := dgt a b || deq a b.

Definition fsign (a : f32) : bool := Bsign _ _ a.            (* signbit *)
Definition ffinite (a : f32) : bool := is_finite _ _ a.      (* isfinite *)
Definition fisnan (a : f32) : bool := is_nan _ _ a.          (* isnan *)

Definition f0 : f32 := f32_of_Z 0.
Definition d0 : f64 := f64_of_Z 0.

(** copysignf(x,y) *)
Definition fcopysign (x y : f32) : f32 :=
  match x with
  | B754_zero _ _ _ => B754_zero _ _ (fsign y)
  | B754_infinity _ _ _ => B754_infinity _ _ (fsign y)
  | B754_nan _ _ _ pl H => B754_nan _ _ (fsign y) pl H
  | B754_finite _ _ _ m e H => B754_finite _ _ (fsign y) m e H
  end.

(** DBL_EPSILON = 2^-52 *)
Definition DBL_EPSILON : f64 := binary_normalize 53 1024 eq_refl eq_refl mode_NE 1 (-52) false.

(** round(): nearest integer, halfway cases away from zero *)
Definition dround (x : f64) : f64 :=
  Bnearbyint 53 1024 eq_refl unop_nan_pl64 mode_NA x.

(** the exponent frexp() stores: 0 for zero, unspecified (argument [special]) for
    infinities and NaN *)
Definition frexp_exp (special : Z) (x : f64) : Z :=
  match x with
  | B754_zero _ _ _ => 0
  | B754_infinity _ _ _ | B754_nan _ _ _ _ _ => special
  | B754_finite _ _ _ _ _ _ => snd (Bfrexp 53 1024 eq_refl x)
  end.

(** the double nearest to a/b, for decimal literals such as 0.55 = 55/100 *)
Definition dlit (a b : Z) : f64 := ddiv (f64_of_Z a) (f64_of_Z b).
