(** Specification of what an analysis reports, independent of the model's code:
    per-frame detection ratios, their mean, and the reported list. *)
From Coq Require Import ZArith List Bool Reals.
From Verif Require Import Flt Spec.
Import ListNotations.
Open Scope Z_scope.

(** One dimension of a coefficient plane.  [d_len] positions along the dimension,
    [d_lines] lines across it; [d_coef D line pos]. *)
Record dim := mkDim { d_len : Z; d_lines : Z; d_coef : Z -> Z -> f32 }.

(** The width dimension (positions are columns) and the height dimension
    (positions are rows) of a row-major plane. *)
Definition dim_x (w h : Z) (plane : list f32) : dim :=
  mkDim w h (fun y x => at_ f0 plane (y * w + x)).
Definition dim_y (w h : Z) (plane : list f32) : dim :=
  mkDim h w (fun x y => at_ f0 plane (y * w + x)).

(** [f] stores the lines of [D]: line y, position x at offset y * stride + x * dist *)
Record geometry (f : list f32) (n stride dist : Z) (D : dim) : Prop := {
  g_len : 0 < d_len D;
  g_lines : 0 < n;
  g_n : d_lines D = n;
  g_size : Z.of_nat (length f) < 2^64;
  g_in : forall y x, 0 <= y < n -> 0 <= x < d_len D -> 0 <= y * stride + x * dist < Z.of_nat (length f);
  g_coef : forall y x, 0 <= y < n -> 0 <= x < d_len D ->
           d_coef D y x = at_ f0 f (y * stride + x * dist)
}.

(** ** Counting criteria *)

(** sign: mirrored pairs around x with different sign bits *)
Definition inverted_pairs (D : dim) (range x : Z) : Z :=
  how_many_pairs (fun y i => xorb (fsign (d_coef D y (x - i))) (fsign (d_coef D y (x + i))))
                 (d_lines D) range.

(** magnitude: mirrored pairs whose quotient, plus one, is below one in magnitude;
    the divisor is kept away from zero.  [special] tells whether a non-finite
    value counts (the C library's choice). *)
Definition eps32 : f32 := f32_of_f64 DBL_EPSILON.
Definition clamped (b : f32) : f32 := if fgt (fabsf b) eps32 then b else fcopysign eps32 b.
Definition opposite_magnitude (special : bool) (a b : f32) : bool :=
  let s := fadd (fdiv a (clamped b)) (f32_of_Z 1) in
  if ffinite s then flt (fabsf s) (f32_of_Z 1) else special.
Definition matching_pairs (special : bool) (D : dim) (range x : Z) : Z :=
  how_many_pairs (fun y i => opposite_magnitude special (d_coef D y (x - i)) (d_coef D y (x + i)))
                 (d_lines D) range.

(** zero crossing: lines whose three coefficients at x-1, x, x+1 are strictly
    monotone with the outer ones of different sign *)
Definition crossing (l c r : f32) : bool :=
  xorb (fsign l) (fsign r) && ((flt l c && flt c r) || (flt c l && flt r c)).
Definition crossing_lines (D : dim) (x : Z) : Z :=
  how_many (fun y => crossing (d_coef D y (x - 1)) (d_coef D y x) (d_coef D y (x + 1))) 0 (d_lines D).

(** original method: mean magnitude per position, and the dip test *)
Definition mean_abs (D : dim) (x : Z) : f64 :=
  ddiv (fold_left (fun s y => dadd s (dabs (f64_of_f32 (d_coef D y x)))) (zrange 0 (d_lines D)) d0)
       (f64_of_Z (d_lines D)).
Definition side_sum (D : dim) (range x dir : Z) : f64 :=
  fold_left (fun s i => dadd s (mean_abs D (x + dir * i))) (zrange 1 (range + 1)) d0.
Definition dip (D : dim) (range x : Z) : bool :=
  let mid := dmul (mean_abs D x) (f64_of_Z range) in
  let l := side_sum D range x (-1) in
  let r := side_sum D range x 1 in
  let lr := dabs (dsub l r) in
  dgt (if dlt l r then l else r) mid && dlt lr (dabs (dsub l mid)) && dlt lr (dabs (dsub r mid)).

(** ** The ratio one frame contributes at position x *)
Inductive criterion := Sign | Magnitude (special : bool) | Original | ZeroCrossing.

(** hits and pairs tested, as integers *)
Definition hits (c : criterion) (D : dim) (range x : Z) : Z :=
  match c with
  | Sign => inverted_pairs D range x
  | Magnitude sp => matching_pairs sp D range x
  | Original => if dip D range x then inverted_pairs D range x else 0
  | ZeroCrossing => crossing_lines D x
  end.
Definition ratio (c : criterion) (D : dim) (range x : Z) : f64 :=
  match c with
  | ZeroCrossing => ddiv (f64_of_Z (hits c D range x)) (f64_of_Z (d_lines D))
  | _ => ddiv (f64_of_Z (hits c D range x)) (dmul (f64_of_Z (d_lines D)) (f64_of_Z range))
  end.

(** ** Mean over frames and the reported list *)

(** one [dim] per analysed frame, oldest first *)
Definition total (c : criterion) (Ds : list dim) (range x : Z) : f64 :=
  fold_left (fun s D => dadd s (ratio c D range x)) Ds d0.
Definition mean (c : criterion) (Ds : list dim) (range x : Z) : f64 :=
  ddiv (total c Ds range x) (f64_of_Z (Z.of_nat (length Ds))).

(** the search window of a dimension *)
Definition window (len range : Z) : list Z := zrange range (len - range).

(** the entries to report besides the size itself; [keep] is the filter *)
Definition found (c : criterion) (Ds : list dim) (len range : Z) (thr : f32) (keep : Z -> bool)
  : list (Z * f32) :=
  map (fun x => (x, f32_of_f64 (mean c Ds range x)))
      (filter (fun x => dge (mean c Ds range x) (f64_of_f32 thr) && keep x) (window len range)).

(** ** In exact arithmetic *)
(** pairs (lines, for zero crossing) tested at one position of one frame *)
Definition tested (c : criterion) (D : dim) (range : Z) : Z :=
  match c with ZeroCrossing => d_lines D | _ => d_lines D * range end.
Definition exact_ratio (c : criterion) (range x : Z) (D : dim) : R :=
  (IZR (hits c D range x) / IZR (tested c D range))%R.
Fixpoint sum_R (l : list R) : R := match l with [] => 0%R | a :: l => (a + sum_R l)%R end.
Definition exact_mean (c : criterion) (Ds : list dim) (range x : Z) : R :=
  (sum_R (map (exact_ratio c range x) Ds) / INR (length Ds))%R.
