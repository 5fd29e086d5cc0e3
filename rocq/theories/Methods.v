(** Model of lib/methods.c: the four detection methods. *)
From Verif Require Import Base Flt Util.

(** rdint_storage counter increment by a C truth value. *)
Definition count_if (sm : Z) (c : Z) (b : bool) : Z := (c + (if b then 1 else 0)) mod sm.

(** coeff_signbit(a) != coeff_signbit(b): resdet_internal.h:26-30 *)
Definition sign_differs (a b : f32) : bool := negb (Bool.eqb (fsign a) (fsign b)).

(** result[i] += v *)
Definition add_result (result : list f64) (i : Z) (v : f64) : res (list f64) :=
  r <- get result i ;; set result i (dadd r v).

(** lib/methods.c:18-21 and 73-76: the doubly nested sign counting loop at index x. *)
Definition count_sign (sm : Z) (f : list f32) (n stride dist range x : Z) : res Z :=
  for_range 0 n (fun y acc =>
    for_range 1 (range + 1) (fun i acc =>
      a <- get f (wrap (y*stride + x*dist - i*dist)) ;;
      b <- get f (wrap (y*stride + x*dist + i*dist)) ;;
      Ok (count_if sm acc (sign_differs a b))) acc) 0.

(** lib/methods.c:16-25 detect_method_sign *)
Definition detect_method_sign (sm : Z) (f : list f32) (length n stride dist range : Z)
    (result : list f64) (start end_ : Z) : res (list f64) :=
  for_range start end_ (fun x result =>
    sign_diff <- count_sign sm f n stride dist range x ;;
    add_result result (wrap (x - start))
      (ddiv (f64_of_Z sign_diff) (dmul (f64_of_Z n) (f64_of_Z range)))) result.

(** lib/methods.c:34-35: the magnitude criterion.
    MAX(fabsf(b),EPSILON) has type double and is converted to float by copysignf;
    the quotient and the sum with 1 are floats; frexp takes a double. *)
Definition mag_matches (special : Z) (a b : f32) : bool :=
  let ab := f64_of_f32 (fabsf b) in
  let m := if dgt ab DBL_EPSILON then ab else DBL_EPSILON in
  let q := fdiv a (fcopysign (f32_of_f64 m) b) in
  frexp_exp special (f64_of_f32 (fadd q (f32_of_Z 1))) <=? 0.

(** lib/methods.c:30-36 *)
Definition count_mag (special sm : Z) (f : list f32) (n stride dist range x : Z) : res Z :=
  for_range 0 n (fun y acc =>
    for_range 1 (range + 1) (fun i acc =>
      a <- get f (wrap (y*stride + x*dist - i*dist)) ;;
      b <- get f (wrap (y*stride + x*dist + i*dist)) ;;
      Ok (count_if sm acc (mag_matches special a b))) acc) 0.

(** lib/methods.c:28-40 detect_method_magnitude *)
Definition detect_method_magnitude (special sm : Z) (f : list f32) (length n stride dist range : Z)
    (result : list f64) (start end_ : Z) : res (list f64) :=
  for_range start end_ (fun x result =>
    mag_match <- count_mag special sm f n stride dist range x ;;
    add_result result (wrap (x - start))
      (ddiv (f64_of_Z mag_match) (dmul (f64_of_Z n) (f64_of_Z range)))) result.

(** lib/methods.c:92 *)
Definition zero_crosses (l c r : f32) : bool :=
  sign_differs l r && ((flt l c && flt c r) || (fgt l c && fgt c r)).

(** lib/methods.c:89-93 *)
Definition count_zerox (sm : Z) (f : list f32) (n stride dist x : Z) : res Z :=
  for_range 0 n (fun y acc =>
    l <- get f (wrap (y*stride + x*dist - dist)) ;;
    c <- get f (wrap (y*stride + x*dist)) ;;
    r <- get f (wrap (y*stride + x*dist + dist)) ;;
    Ok (count_if sm acc (zero_crosses l c r))) 0.

(** lib/methods.c:87-97 detect_method_zerocrossing *)
Definition detect_method_zerocrossing (sm : Z) (f : list f32) (length n stride dist range : Z)
    (result : list f64) (start end_ : Z) : res (list f64) :=
  for_range start end_ (fun x result =>
    zc <- count_zerox sm f n stride dist x ;;
    add_result result (wrap (x - start)) (ddiv (f64_of_Z zc) (f64_of_Z n))) result.

(** lib/methods.c:60-64: mean absolute coefficient per column. *)
Definition orig_sums (f : list f32) (length n stride dist : Z) : res (list f64) :=
  let sum := repeat d0 (Z.to_nat length) in
  sum <- for_range 0 n (fun y sum =>
           for_range 0 length (fun x sum =>
             v <- get f (wrap (y*stride + x*dist)) ;;
             add_result sum x (dabs (f64_of_f32 v))) sum) sum ;;
  for_range 0 length (fun x sum =>
    s <- get sum x ;; set sum x (ddiv s (f64_of_Z n))) sum.

(** lib/methods.c:66-72: the magnitude test at x. *)
Definition orig_test (sum : list f64) (range x : Z) : res bool :=
  s <- get sum x ;;
  let mid := dmul s (f64_of_Z range) in
  '(lsum, rsum) <- for_range 1 (range + 1) (fun i '(lsum, rsum) =>
      a <- get sum (wrap (x - i)) ;;
      b <- get sum (wrap (x + i)) ;;
      Ok (dadd lsum a, dadd rsum b)) (d0, d0) ;;
  let lrdiff := dabs (dsub lsum rsum) in
  Ok (dgt (if dlt lsum rsum then lsum else rsum) mid &&
      dlt lrdiff (dabs (dsub lsum mid)) &&
      dlt lrdiff (dabs (dsub rsum mid))).

(** lib/methods.c:45-83 detect_method_original; MAG_RANGE is range by default, so
    maxrange = range.  Returns the error code, the results and the bounds. *)
Definition detect_method_original (al : oracle) (w : world) (sm : Z) (f : list f32)
    (length n stride dist range : Z) (result : list f64) (start end_ : Z)
    : res (Z * list f64 * (Z * Z) * world) :=
  let maxrange := range in
  if wrap (maxrange * 2) >=? length then Ok (RDEOK, result, (start, end_), w)
  else
    match alloc al w with
    | (None, w) => Ok (RDENOMEM, result, (start, end_), w)
    | (Some blk, w) =>
        let start := maxrange in
        let end_ := wrap (length - maxrange) in
        sum <- orig_sums f length n stride dist ;;
        result <- for_range maxrange (wrap (length - maxrange)) (fun x result =>
            t <- orig_test sum range x ;;
            if t then
              sign <- count_sign sm f n stride dist range x ;;
              add_result result (wrap (x - start))
                (ddiv (f64_of_Z sign) (dmul (f64_of_Z range) (f64_of_Z n)))
            else Ok result) result ;;
        w <- free_block blk w ;;
        Ok (RDEOK, result, (start, end_), w)
    end.

(** Dispatch through method->func: lib/analysis.c:116-121. *)
Definition run_method (c : config) (al : oracle) (w : world) (m : method) (f : list f32)
    (length n stride dist range : Z) (result : list f64) (b : Z * Z)
    : res (Z * list f64 * (Z * Z) * world) :=
  let sm := storage_mod c in
  let '(start, end_) := b in
  match m with
  | Msign => r <- detect_method_sign sm f length n stride dist range result start end_ ;;
             Ok (RDEOK, r, b, w)
  | Mmag => r <- detect_method_magnitude (c_frexp_special c) sm f length n stride dist range result start end_ ;;
             Ok (RDEOK, r, b, w)
  | Morig => detect_method_original al w sm f length n stride dist range result start end_
  | Mzerox => r <- detect_method_zerocrossing sm f length n stride dist range result start end_ ;;
             Ok (RDEOK, r, b, w)
  end.
