(** Model of the conversions of printf that src/resdet.c uses, in the "C" locale, with
    correct rounding as in glibc and musl (C11 7.21.6.1).  Text is a list of bytes. *)
From Coq Require Import Ascii String.
From Flocq Require Import Core IEEE754.BinarySingleNaN IEEE754.Binary.
From Verif Require Import Base Flt Util Stdio Y4m Image Cli Tools.
Open Scope string_scope.
Open Scope list_scope.
Open Scope Z_scope.

(** ** Numbers *)
(** %zu of any number, without the limit of [decimal] to 20 digits *)
Definition number (n : Z) : list Z := decimal_loop (S (Z.to_nat (Z.log2 n))) n [].
(** the integer nearest to a/b, the even one of two *)
Definition nearest (a b : Z) : Z :=
  let q := a / b in
  match Z.compare (2 * (a mod b)) b with
  | Lt => q
  | Gt => q + 1
  | Eq => if Z.even q then q else q + 1
  end.
(** the absolute value of x, times 10^d, rounded *)
Definition scaled (d : nat) (m : positive) (e : Z) : Z :=
  if 0 <=? e then Z.pos m * 2 ^ e * 10 ^ Z.of_nat d else nearest (Z.pos m * 10 ^ Z.of_nat d) (2 ^ (- e)).
Definition minus (s : bool) : list Z := if s then [45] else [].
(** v / 10^d with d digits behind the point *)
Definition point (d : nat) (v : Z) : list Z :=
  number (v / 10 ^ Z.of_nat d) ++
  match d with
  | O => []
  | _ => let f := number (v mod 10 ^ Z.of_nat d) in 46 :: repeat 48 (d - length f) ++ f
  end.
(** %.<d>f *)
Definition fixed (d : nat) (x : f64) : list Z :=
  match x with
  | B754_zero _ _ s => minus s ++ point d 0
  | B754_infinity _ _ s => minus s ++ chars "inf"
  | B754_nan _ _ s _ _ => minus s ++ chars "nan"
  | B754_finite _ _ s m e _ => minus s ++ point d (scaled d m e)
  end.

(** ** Field widths *)
Definition right_justified (width : nat) (t : list Z) : list Z := repeat 32 (width - length t) ++ t.
Definition left_justified (width : nat) (t : list Z) : list Z := t ++ repeat 32 (width - length t).

(** ** The pieces of the output *)
(** [strerror]: the messages of the C library *)
Definition piece_text (strerror : Z -> string) (p : piece) : list Z :=
  match p with
  | Str s => chars s
  | Num n => number n
  | Num5 n => right_justified 5 (number n)
  | Fixed6 x => fixed 6 x
  | Fixed2 x => right_justified 5 (fixed 2 x)
  | Fixed0 x => fixed 0 x
  | Blank17 => right_justified 17 []
  | Left5 s => left_justified 5 (chars s)
  | Message (Msg s) => chars s
  | Message (SysMsg n) => chars (strerror n)
  | Message NoMsg => []
  end.
Definition text (strerror : Z -> string) (l : list piece) : list Z := flat_map (piece_text strerror) l.

