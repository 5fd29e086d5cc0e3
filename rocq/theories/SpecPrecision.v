(** Specification of the claims about precision configurations. *)
From Coq Require Import ZArith List Bool Reals.
From Flocq Require Import IEEE754.BinarySingleNaN IEEE754.Binary.
From Verif Require Import Base Flt Util Precision Spec SpecAnalysis.
Import ListNotations.
Open Scope Z_scope.

(** what long double is on the platforms considered *)
Definition long_double (L : format) : Prop := L = binary64_format \/ L = x87_format \/ L = quad_format.

(** the real number a finite value stands for *)
Definition real (F : format) (x : num F) : R := B2R (f_prec F) (f_emax F) x.
Definition finite (F : format) (x : num F) : bool := is_finite (f_prec F) (f_emax F) x.

(** one dimension of a plane of coefficients of format C, cf. [dim] and [geometry] *)
Record span (C : format) := mkSpan { s_len : Z; s_lines : Z; s_coef : Z -> Z -> num C }.
Arguments s_len {C}. Arguments s_lines {C}. Arguments s_coef {C}.
Record layout (C : format) (f : list (num C)) (n stride dist : Z) (D : span C) : Prop := {
  l_len : 0 < s_len D;
  l_lines : 0 < n;
  l_n : s_lines D = n;
  l_size : Z.of_nat (length f) < 2^64;
  l_in : forall y x, 0 <= y < n -> 0 <= x < s_len D -> 0 <= y * stride + x * dist < Z.of_nat (length f);
  l_coef : forall y x, 0 <= y < n -> 0 <= x < s_len D ->
           s_coef D y x = at_ (n0 C) f (y * stride + x * dist)
}.

Section Criteria.
Context (C I : format).
Definition inverted (D : span C) (range x : Z) : Z :=
  how_many_pairs (fun y i => xorb (nsign C (s_coef D y (x - i))) (nsign C (s_coef D y (x + i)))) (s_lines D) range.

(** 2^(1-p) for the precision p of the intermediates *)
Definition tiny : num C := convert I C (nepsilon I).
Definition away_from_zero (b : num C) : num C := if ngt C (nabs C b) tiny then b else ncopysign C tiny b.
Definition opposite (special : bool) (a b : num C) : bool :=
  let s := nadd C (ndiv C a (away_from_zero b)) (num_of_Z C 1) in
  if finite C s then nlt C (nabs C s) (num_of_Z C 1) else special.
Definition matching (special : bool) (D : span C) (range x : Z) : Z :=
  how_many_pairs (fun y i => opposite special (s_coef D y (x - i)) (s_coef D y (x + i))) (s_lines D) range.

Definition crosses (l c r : num C) : bool :=
  xorb (nsign C l) (nsign C r) && ((nlt C l c && nlt C c r) || (nlt C c l && nlt C r c)).
Definition crossings (D : span C) (x : Z) : Z :=
  how_many (fun y => crosses (s_coef D y (x - 1)) (s_coef D y x) (s_coef D y (x + 1))) 0 (s_lines D).

Definition mean_size (D : span C) (x : Z) : num I :=
  ndiv I (fold_left (fun s y => nadd I s (nabs I (convert C I (s_coef D y x)))) (zrange 0 (s_lines D)) (n0 I))
         (num_of_Z I (s_lines D)).
Definition beside (D : span C) (range x dir : Z) : num I :=
  fold_left (fun s i => nadd I s (mean_size D (x + dir * i))) (zrange 1 (range + 1)) (n0 I).
Definition dips (D : span C) (range x : Z) : bool :=
  let mid := nmul I (mean_size D x) (num_of_Z I range) in
  let l := beside D range x (-1) in
  let r := beside D range x 1 in
  let lr := nabs I (nsub I l r) in
  ngt I (if nlt I l r then l else r) mid && nlt I lr (nabs I (nsub I l mid)) && nlt I lr (nabs I (nsub I r mid)).

(** how many of how many pairs (lines, for zero crossings) meet the criterion *)
Definition met (k : criterion) (D : span C) (range x : Z) : Z :=
  match k with
  | Sign => inverted D range x
  | Magnitude special => matching special D range x
  | Original => if dips D range x then inverted D range x else 0
  | ZeroCrossing => crossings D x
  end.
Definition tried (k : criterion) (D : span C) (range : Z) : Z :=
  match k with ZeroCrossing => s_lines D | _ => s_lines D * range end.
Definition true_ratio (k : criterion) (range x : Z) (D : span C) : R :=
  (IZR (met k D range x) / IZR (tried k D range))%R.
(** the mean over all frames in exact arithmetic *)
Definition true_mean (k : criterion) (Ds : list (span C)) (range x : Z) : R :=
  (sum_R (map (true_ratio k range x) Ds) / INR (length Ds))%R.
End Criteria.

(** a series of planes of one size, given to one method; C and I are the types of
    coefficients and intermediates *)
Record series (C I : format) (c : config) (m : method) (fs : list (list (num C))) (Ds : list (span C))
    (len n stride dist range : Z) : Prop := {
  se_planes : Forall2 (fun f D => layout C f n stride dist D /\ s_len D = len) fs Ds;
  se_some : fs <> [];
  se_count : Z.of_nat (length fs) < 2^64;
  se_lines : 0 < n <= 2 ^ f_prec I;
  se_range : 1 <= range <= 2 ^ f_prec I;
  se_window : 2 * range < len < 2^64;
  se_storage : n * range < storage_mod c;
  se_zerox : m = Mzerox -> range = 1
}.
(** the criterion a method counts *)
Definition counted (c : config) (m : method) : criterion :=
  match m with Msign => Sign | Mmag => Magnitude (c_frexp_special c <=? 0) | Morig => Original | Mzerox => ZeroCrossing end.
