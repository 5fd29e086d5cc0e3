(** Model of lib/methods.c and of the arithmetic of lib/analysis.c for every choice of
    COEFF_PRECISION and INTER_PRECISION (lib/precision.h).  Methods.v and Analysis.v have the
    default, float and double.

    Simplification: arithmetic is done in the types of the operands (FLT_EVAL_METHOD 0), and
    heap blocks are left out: they depend on the precision only by their sizes (Sizes.v). *)
From Coq Require Import ZArith List Bool.
From Flocq Require Import Core.Zaux Core.FLX IEEE754.BinarySingleNaN IEEE754.Binary IEEE754.Bits.
From Verif Require Import Base Flt Util Methods.
Import ListNotations.
Open Scope list_scope.
Open Scope Z_scope.

(** ** Floating point types *)
(** precision, largest exponent, and the NaN results of operations with one or two operands
    and of conversions *)
Record format := mkFormat {
  f_prec : Z; f_emax : Z;
  f_pos : Prec_gt_0 f_prec; f_room : Prec_lt_emax f_prec f_emax;
  f_nan : { x : binary_float f_prec f_emax | is_nan f_prec f_emax x = true };
  f_nan1 : binary_float f_prec f_emax -> { x : binary_float f_prec f_emax | is_nan f_prec f_emax x = true };
  f_nan2 : binary_float f_prec f_emax -> binary_float f_prec f_emax -> { x : binary_float f_prec f_emax | is_nan f_prec f_emax x = true }
}.
Definition num (F : format) : Type := binary_float (f_prec F) (f_emax F).

Definition binary32_format : format := mkFormat 24 128 eq_refl eq_refl default_nan_pl32 unop_nan_pl32 binop_nan_pl32.
Definition binary64_format : format := mkFormat 53 1024 eq_refl eq_refl default_nan_pl64 unop_nan_pl64 binop_nan_pl64.
(** long double: the 80-bit type of the x87, binary128, or the same as double *)
Definition x87_nan : { x : binary_float 64 16384 | is_nan 64 16384 x = true } :=
  exist _ (B754_nan 64 16384 false (2^62)%positive eq_refl) eq_refl.
Definition x87_format : format := mkFormat 64 16384 eq_refl eq_refl x87_nan (fun _ => x87_nan) (fun _ _ => x87_nan).
Definition quad_nan : { x : binary_float 113 16384 | is_nan 113 16384 x = true } :=
  exist _ (B754_nan 113 16384 false (2^111)%positive eq_refl) eq_refl.
Definition quad_format : format := mkFormat 113 16384 eq_refl eq_refl quad_nan (fun _ => quad_nan) (fun _ _ => quad_nan).

Section Operations.
Context (F : format).
Definition nadd : num F -> num F -> num F := Bplus (f_prec F) (f_emax F) (f_pos F) (f_room F) (f_nan2 F) mode_NE.
Definition nsub : num F -> num F -> num F := Bminus (f_prec F) (f_emax F) (f_pos F) (f_room F) (f_nan2 F) mode_NE.
Definition nmul : num F -> num F -> num F := Bmult (f_prec F) (f_emax F) (f_pos F) (f_room F) (f_nan2 F) mode_NE.
Definition ndiv : num F -> num F -> num F := Bdiv (f_prec F) (f_emax F) (f_pos F) (f_room F) (f_nan2 F) mode_NE.
Definition nabs : num F -> num F := Babs (f_prec F) (f_emax F) (f_nan1 F).
Definition num_of_Z (z : Z) : num F := binary_normalize (f_prec F) (f_emax F) (f_pos F) (f_room F) mode_NE z 0 false.
Definition nlt (a b : num F) : bool := match Bcompare (f_prec F) (f_emax F) a b with Some Lt => true | _ => false end.
Definition ngt (a b : num F) : bool := match Bcompare (f_prec F) (f_emax F) a b with Some Gt => true | _ => false end.
Definition neq (a b : num F) : bool := match Bcompare (f_prec F) (f_emax F) a b with Some Eq => true | _ => false end.
Definition nge (a b : num F) : bool := ngt a b || neq a b.
Definition nsign (a : num F) : bool := Bsign (f_prec F) (f_emax F) a.
Definition n0 : num F := num_of_Z 0.
(** copysign(x,y) *)
Definition ncopysign (x y : num F) : num F :=
  match x with
  | B754_zero _ _ _ => B754_zero _ _ (nsign y)
  | B754_infinity _ _ _ => B754_infinity _ _ (nsign y)
  | B754_nan _ _ _ pl H => B754_nan _ _ (nsign y) pl H
  | B754_finite _ _ _ m e H => B754_finite _ _ (nsign y) m e H
  end.
(** FLT_EPSILON, DBL_EPSILON, LDBL_EPSILON *)
Definition nepsilon : num F := binary_normalize (f_prec F) (f_emax F) (f_pos F) (f_room F) mode_NE 1 (1 - f_prec F) false.
(** the exponent frexp() stores, see Flt.v *)
Definition nfrexp_exp (special : Z) (x : num F) : Z :=
  match x with
  | B754_zero _ _ _ => 0
  | B754_infinity _ _ _ | B754_nan _ _ _ _ _ => special
  | B754_finite _ _ _ _ _ _ => snd (Bfrexp (f_prec F) (f_emax F) (f_pos F) x)
  end.
End Operations.

(** conversion between types *)
Definition convert (F G : format) (x : num F) : num G :=
  match x with
  | B754_zero _ _ s => B754_zero _ _ s
  | B754_infinity _ _ s => B754_infinity _ _ s
  | B754_nan _ _ s _ _ => proj1_sig (f_nan G)
  | B754_finite _ _ s m e _ =>
      binary_normalize (f_prec G) (f_emax G) (f_pos G) (f_room G) mode_NE (cond_Zopp s (Zpos m)) e s
  end.

(** ** precision.h *)
Inductive precision := PF | PD | PL.
(** precision.h:9-11 *)
Definition precision_code (p : precision) : Z := match p with PF => 1 | PD => 2 | PL => 3 end.
(** precision.h:34-38: the intermediate type is at least as precise as the coefficients *)
Definition inter_precision (coeff inter : precision) : precision :=
  if precision_code inter <? precision_code coeff then coeff else inter.
(** precision.h:21-31 and 40-52; [long] is the format of long double *)
Definition format_of (long : format) (p : precision) : format :=
  match p with PF => binary32_format | PD => binary64_format | PL => long end.

(** ** methods.c, with coefficients of format C and results of format I *)
Section Methods.
Context (C I : format).

Definition psign_differs (a b : num C) : bool := negb (Bool.eqb (nsign C a) (nsign C b)).
Definition padd_result (result : list (num I)) (i : Z) (v : num I) : res (list (num I)) :=
  r <- get result i ;; set result i (nadd I r v).
(** methods.c:18-21 and 73-76 *)
Definition pcount_sign (sm : Z) (f : list (num C)) (n stride dist range x : Z) : res Z :=
  for_range 0 n (fun y acc =>
    for_range 1 (range + 1) (fun i acc =>
      a <- get f (wrap (y*stride + x*dist - i*dist)) ;;
      b <- get f (wrap (y*stride + x*dist + i*dist)) ;;
      Ok (count_if sm acc (psign_differs a b))) acc) 0.
(** methods.c:16-25 *)
Definition pdetect_sign (sm : Z) (f : list (num C)) (length n stride dist range : Z)
    (result : list (num I)) (start end_ : Z) : res (list (num I)) :=
  for_range start end_ (fun x result =>
    sign_diff <- pcount_sign sm f n stride dist range x ;;
    padd_result result (wrap (x - start))
      (ndiv I (num_of_Z I sign_diff) (nmul I (num_of_Z I n) (num_of_Z I range)))) result.

(** methods.c:34-35: MAX has the type of EPSILON, which is that of the intermediates;
    copysign converts it to the type of the coefficients, in which quotient and sum are;
    frexp is that of the intermediates *)
Definition pmag_matches (special : Z) (a b : num C) : bool :=
  let ab := convert C I (nabs C b) in
  let m := if ngt I ab (nepsilon I) then ab else nepsilon I in
  let q := ndiv C a (ncopysign C (convert I C m) b) in
  nfrexp_exp I special (convert C I (nadd C q (num_of_Z C 1))) <=? 0.
(** methods.c:30-36 *)
Definition pcount_mag (special sm : Z) (f : list (num C)) (n stride dist range x : Z) : res Z :=
  for_range 0 n (fun y acc =>
    for_range 1 (range + 1) (fun i acc =>
      a <- get f (wrap (y*stride + x*dist - i*dist)) ;;
      b <- get f (wrap (y*stride + x*dist + i*dist)) ;;
      Ok (count_if sm acc (pmag_matches special a b))) acc) 0.
(** methods.c:28-40 *)
Definition pdetect_magnitude (special sm : Z) (f : list (num C)) (length n stride dist range : Z)
    (result : list (num I)) (start end_ : Z) : res (list (num I)) :=
  for_range start end_ (fun x result =>
    mag_match <- pcount_mag special sm f n stride dist range x ;;
    padd_result result (wrap (x - start))
      (ndiv I (num_of_Z I mag_match) (nmul I (num_of_Z I n) (num_of_Z I range)))) result.

(** methods.c:92 *)
Definition pzero_crosses (l c r : num C) : bool :=
  psign_differs l r && ((nlt C l c && nlt C c r) || (ngt C l c && ngt C c r)).
(** methods.c:89-93 *)
Definition pcount_zerox (sm : Z) (f : list (num C)) (n stride dist x : Z) : res Z :=
  for_range 0 n (fun y acc =>
    l <- get f (wrap (y*stride + x*dist - dist)) ;;
    c <- get f (wrap (y*stride + x*dist)) ;;
    r <- get f (wrap (y*stride + x*dist + dist)) ;;
    Ok (count_if sm acc (pzero_crosses l c r))) 0.
(** methods.c:87-97 *)
Definition pdetect_zerocrossing (sm : Z) (f : list (num C)) (length n stride dist range : Z)
    (result : list (num I)) (start end_ : Z) : res (list (num I)) :=
  for_range start end_ (fun x result =>
    zc <- pcount_zerox sm f n stride dist x ;;
    padd_result result (wrap (x - start)) (ndiv I (num_of_Z I zc) (num_of_Z I n))) result.

(** methods.c:60-64 *)
Definition porig_sums (f : list (num C)) (length n stride dist : Z) : res (list (num I)) :=
  let sum := repeat (n0 I) (Z.to_nat length) in
  sum <- for_range 0 n (fun y sum =>
           for_range 0 length (fun x sum =>
             v <- get f (wrap (y*stride + x*dist)) ;;
             padd_result sum x (nabs I (convert C I v))) sum) sum ;;
  for_range 0 length (fun x sum =>
    s <- get sum x ;; set sum x (ndiv I s (num_of_Z I n))) sum.
(** methods.c:66-72 *)
Definition porig_test (sum : list (num I)) (range x : Z) : res bool :=
  s <- get sum x ;;
  let mid := nmul I s (num_of_Z I range) in
  '(lsum, rsum) <- for_range 1 (range + 1) (fun i '(lsum, rsum) =>
      a <- get sum (wrap (x - i)) ;;
      b <- get sum (wrap (x + i)) ;;
      Ok (nadd I lsum a, nadd I rsum b)) (n0 I, n0 I) ;;
  let lrdiff := nabs I (nsub I lsum rsum) in
  Ok (ngt I (if nlt I lsum rsum then lsum else rsum) mid &&
      nlt I lrdiff (nabs I (nsub I lsum mid)) &&
      nlt I lrdiff (nabs I (nsub I rsum mid))).
(** methods.c:45-83, when the sums could be allocated *)
Definition pdetect_original (sm : Z) (f : list (num C)) (length n stride dist range : Z)
    (result : list (num I)) (start end_ : Z) : res (list (num I)) :=
  if wrap (range * 2) >=? length then Ok result
  else
    sum <- porig_sums f length n stride dist ;;
    for_range range (wrap (length - range)) (fun x result =>
      t <- porig_test sum range x ;;
      if t then
        sign <- pcount_sign sm f n stride dist range x ;;
        padd_result result (wrap (x - range))
          (ndiv I (num_of_Z I sign) (nmul I (num_of_Z I range) (num_of_Z I n)))
      else Ok result) result.

(** analysis.c:116-121 *)
Definition prun_method (c : config) (m : method) (f : list (num C)) (length n stride dist range : Z)
    (result : list (num I)) (start end_ : Z) : res (list (num I)) :=
  let sm := storage_mod c in
  match m with
  | Msign => pdetect_sign sm f length n stride dist range result start end_
  | Mmag => pdetect_magnitude (c_frexp_special c) sm f length n stride dist range result start end_
  | Morig => pdetect_original sm f length n stride dist range result start end_
  | Mzerox => pdetect_zerocrossing sm f length n stride dist range result start end_
  end.
(** the coefficient planes of several images, one after the other *)
Fixpoint prun_all (c : config) (m : method) (fs : list (list (num C))) (length n stride dist range : Z)
    (result : list (num I)) : res (list (num I)) :=
  match fs with
  | [] => Ok result
  | f :: fs =>
      result <- prun_method c m f length n stride dist range result range (length - range) ;;
      prun_all c m fs length n stride dist range result
  end.
End Methods.

(** ** analysis.c *)
(** analysis.c:108-114: a sample as a coefficient *)
Definition psample (C : format) (s : f32) : num C := convert binary32_format C s.
(** analysis.c:138 and 149: result[i]/nimages >= threshold *)
Definition pmean (I : format) (r : num I) (nimages : Z) : num I := ndiv I r (num_of_Z I nimages).
Definition preaches (I : format) (r : num I) (nimages : Z) (threshold : f32) : bool :=
  nge I (pmean I r nimages) (convert binary32_format I threshold).
(** analysis.c:151: the confidence is a float *)
Definition pconfidence (I : format) (r : num I) (nimages : Z) : f32 := convert I binary32_format (pmean I r nimages).
