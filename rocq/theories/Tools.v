(** Model of the tools src/profile.c, src/stat.c and src/imgread.c. *)
From Coq Require Import Ascii String.
From Flocq Require Import IEEE754.Bits.
From Verif Require Import Base Flt Util Methods Analysis Resdetect Stdio Pgm Pfm Y4m Image Cli.
Open Scope string_scope.
Open Scope list_scope.
Open Scope Z_scope.

(** ** src/profile.c *)
(** struct timeval *)
Record timeval := mkTime { tv_sec : Z; tv_usec : Z }.
(** src/profile.c:17-25 *)
Definition diffts (start end_ : timeval) : timeval :=
  if tv_usec end_ - tv_usec start <? 0 then
    mkTime (tv_sec end_ - tv_sec start - 1) (1000000 + tv_usec end_ - tv_usec start)
  else mkTime (tv_sec end_ - tv_sec start) (tv_usec end_ - tv_usec start).

(** src/profile.c:28-46: plus and minus *)
Fixpoint diff_loop (fuel : nat) (left : list Z) (leftlen : Z) (right : list rdres) (rightlen l r plus minus : Z) : res (Z * Z) :=
  match fuel with
  | O => Undef OutOfFuel
  | S fuel =>
      if (l <? leftlen) && (r <? rightlen) then
        a <- get left l ;;
        b <- get right r ;;
        if a >? r_index b then diff_loop fuel left leftlen right rightlen l (wrap (r + 1)) (wrap (plus + 1)) minus
        else if a <? r_index b then diff_loop fuel left leftlen right rightlen (wrap (l + 1)) r plus (wrap (minus + 1))
        else diff_loop fuel left leftlen right rightlen (wrap (l + 1)) (wrap (r + 1)) plus minus
      else Ok (wrap (plus + wrap (rightlen - r)), wrap (minus + wrap (leftlen - l)))
  end.
Definition diffres (left : list Z) (leftlen : Z) (right : list rdres) (rightlen plus minus : Z) : res (Z * Z) :=
  diff_loop (S (Z.to_nat (leftlen + rightlen))) left leftlen right rightlen 0 0 plus minus.

(** strsep(&line," ") until it returns NULL *)
Fixpoint tokens (line : list Z) : list (list Z) :=
  match line with
  | [] => [[]]
  | c :: line =>
      if c =? 32 then [] :: tokens line
      else match tokens line with t :: ts => (c :: t) :: ts | [] => [[c]] end
  end.
(** src/profile.c:52-62; None is the error exit.  realloc(NULL,...) allocates. *)
Fixpoint read_tokens (al : oracle) (ts : list (list Z)) (blk : option nat) (acc : list Z) (w : world)
    : res (option (nat * list Z) * world) :=
  match ts with
  | [] => match blk with Some b => Ok (Some (b, acc), w) | None => Ok (None, w) end
  | t :: ts =>
      '(r, w) <- match blk with
                 | None => Ok (alloc al w)
                 | Some b => realloc_block al b w
                 end ;;
      match r with
      | None => w <- free_opt blk w ;; Ok (None, w)
      | Some b =>
          match strtoull_of t with
          | None => w <- free_block b w ;; Ok (None, w)
          | Some v => read_tokens al ts (Some b) (acc ++ [v]) w
          end
      end
  end.
(** src/profile.c:48-70: *ar and its *ct entries; None is NULL with 0 entries *)
Definition readres (al : oracle) (line : list Z) (w : world) : res (option (nat * list Z) * world) :=
  read_tokens al (tokens line) None [] w.

(** the C string at the start of [l] *)
Definition cstring (l : list Z) : list Z := take_while (fun c => negb (c =? 0)) l.
Definition string_of (l : list Z) : string := string_of_list_ascii (map (fun c => ascii_of_nat (Z.to_nat c)) l).
(** line[len-1] = '\0' *)
Definition chop (line : list Z) : list Z := cstring (removelast line).

(** what is printed *)
Inductive notice :=
| Name (s : list Z)
| ReadError (s : list Z) (m : message)
| DetectError (m : message)
| Diff (m : method) (t : timeval) (plus minus : Z).
(** totals of one method: time, diffplus, diffminus *)
Record total := mkTotal { to_time : timeval; to_plus : Z; to_minus : Z }.
Definition no_total : total := mkTotal (mkTime 0 0) 0 0.
(** [clock]: what the n-th call of getrusage stores *)
Definition getrusage (c : nat -> timeval) (n : nat) : timeval * nat := (c n, S n).
Definition error_text (e : Z) : res message :=
  m <- resdet_error_str e ;; match m with NoMsg => Undef NullDeref | m => Ok m end.
(** src/profile.c:160-186: one method *)
Definition profile_method (E : env) (clock : nat -> timeval) (image : list f32) (d width height : Z)
    (knownw knownh : list Z) (m : method) (t : total) (n : nat) (w : world)
    : res (notice * total * Z * nat * world) :=
  let '(before, n) := getrusage clock n in
  '(e, o, w) <- resdetect E (Some image) d width height (mkWants true true true true) (Some m) None (mkOuts None 0 None 0) w ;;
  '(out, t, ret, n) <-
    (if negb (e =? 0) then msg <- error_text e ;; Ok (DetectError msg, t, 1, n)
     else
       let '(after, n) := getrusage clock n in
       let after := diffts before after in
       let usec := tv_usec (to_time t) + tv_usec after in
       let time := mkTime (tv_sec (to_time t) + (tv_sec after + usec / 1000000)) (usec mod 1000000) in
       match o_rw o, o_rh o with
       | Some (_, rw), Some (_, rh) =>
           '(plus, minus) <- diffres knownw (zlen knownw) rw (wrap (o_cw o - 1)) 0 0 ;;
           '(plus, minus) <- diffres knownh (zlen knownh) rh (wrap (o_ch o - 1)) plus minus ;;
           Ok (Diff m after plus minus, mkTotal time (wrap (to_plus t + plus)) (wrap (to_minus t + minus)), 0, n)
       | _, _ => Undef NullDeref
       end) ;;
  w <- free_opt (option_map fst (o_rw o)) w ;;
  w <- free_opt (option_map fst (o_rh o)) w ;;
  Ok (out, t, ret, n, w).
(** src/profile.c:159-187: all methods *)
Fixpoint profile_methods (E : env) (clock : nat -> timeval) (image : list f32) (d width height : Z)
    (knownw knownh : list Z) (ms : list (method * total)) (n : nat) (ret : Z) (w : world)
    : res (list notice * list (method * total) * Z * nat * world) :=
  match ms with
  | [] => Ok ([], [], ret, n, w)
  | (m, t) :: ms =>
      '(out, t, r, n, w) <- profile_method E clock image d width height knownw knownh m t n w ;;
      '(outs, ms, ret, n, w) <- profile_methods E clock image d width height knownw knownh ms n (if r =? 0 then ret else r) w ;;
      Ok (out :: outs, (m, t) :: ms, ret, n, w)
  end.
(** src/profile.c:110-192: the dictionary, line by line as getline returns them *)
Fixpoint profile_loop (fuel : nat) (R : readers) (E : env) (Y : system) (clock : nat -> timeval) (lines : list (list Z))
    (ms : list (method * total)) (n : nat) (w : world) : res (list notice * list (method * total) * Z * world) :=
  match fuel with
  | O => Undef OutOfFuel
  | S fuel =>
      match lines with
      | [] => Ok ([], ms, 0, w)
      | line :: lines =>
          if hd 0 line =? 10 then profile_loop fuel R E Y clock lines ms n w
          else
            let name := chop line in
            '(buf, d, width, height, e, w) <- resdet_read_image R E Y (Some (string_of name)) None true w ;;
            if negb (e =? 0) then
              msg <- error_text e ;;
              match lines with
              | _ :: _ :: lines =>
                  '(outs, ms, ret, w) <- profile_loop fuel R E Y clock lines ms n w ;;
                  Ok (Name name :: ReadError name msg :: outs, ms, ret, w)
              | _ => Ok ([Name name; ReadError name msg], ms, 1, w)
              end
            else
              match buf with
              | None => Undef NullDeref
              | Some (blk, image) =>
                  let stop knownw knownh w :=
                    w <- free_opt knownw w ;; w <- free_opt knownh w ;; w <- free_block blk w ;;
                    Ok ([Name name], ms, 1, w) in
                  match lines with
                  | [] => stop None None w
                  | line :: lines =>
                      '(kw, w) <- readres (e_alloc E) (chop line) w ;;
                      match kw, lines with
                      | None, _ => stop None None w
                      | Some (bw, _), [] => stop (Some bw) None w
                      | Some (bw, knownw), line :: lines =>
                          '(kh, w) <- readres (e_alloc E) (chop line) w ;;
                          match kh with
                          | None => stop (Some bw) None w
                          | Some (bh, knownh) =>
                              f <- filled (firstn (Z.to_nat (d * width * height)) image) ;;
                              '(outs, ms, ret, n, w) <- profile_methods E clock f d width height knownw knownh ms n 0 w ;;
                              w <- free_block bw w ;; w <- free_block bh w ;; w <- free_block blk w ;;
                              if negb (ret =? 0) then Ok (Name name :: outs, ms, ret, w)
                              else
                                '(outs', ms, ret, w) <- profile_loop fuel R E Y clock lines ms n w ;;
                                Ok (Name name :: outs ++ outs', ms, ret, w)
                          end
                      end
                  end
              end
      end
  end.
(** src/profile.c:72-200 main, the dictionary open: printed lines, totals, status *)
Definition profile_main (R : readers) (E : env) (Y : system) (clock : nat -> timeval) (lines : list (list Z)) (w : world)
    : res (list notice * list (method * total) * Z * world) :=
  profile_loop (S (length lines)) R E Y clock lines (map (fun m => (m, no_total)) resdet_methods) 0 w.

(** ** src/stat.c *)
Record stats := mkStats { st_median : f32; st_inner : f32; st_outer : f32; st_mild : list rdres; st_extreme : list rdres }.
(** for(; i < cw && rw[i].confidence < bound; i++): the entries passed and what is left *)
Fixpoint below (bound : f32) (l : list rdres) : list rdres * list rdres :=
  match l with
  | [] => ([], [])
  | r :: l => if flt (r_conf r) bound then let '(a, b) := below bound l in (r :: a, b) else ([], r :: l)
  end.
Definition conf_at (rw : list rdres) (i : Z) : res f32 := r <- get rw i ;; Ok (r_conf r).
(** src/stat.c:12-13: a quartile; [n] is cw or cw*3 as size_t *)
Definition quartile (c c1 : f32) (n : Z) : f32 :=
  let frac := dsub (ddiv (f64_of_Z n) (f64_of_Z 4)) (f64_of_Z (n / 4)) in
  f32_of_f64 (dadd (dmul (f64_of_f32 c) frac) (dmul (f64_of_f32 c1) (dsub (f64_of_Z 1) frac))).
(** src/stat.c:10-27; [cw] is an array index in bounds of [rw] or the reads are undefined *)
Definition statres (rw : list rdres) (cw : Z) : res stats :=
  a <- conf_at rw (cw / 2) ;;
  b <- conf_at rw (wrap (cw + 1) / 2) ;;
  let median := fdiv (fadd a b) (f32_of_Z 2) in
  a <- conf_at rw (cw / 4) ;;
  b <- conf_at rw (wrap (cw + 1) / 4) ;;
  let lq := quartile a b cw in
  a <- conf_at rw (wrap (cw * 3) / 4) ;;
  b <- conf_at rw (wrap (wrap (cw + 1) * 3) / 4) ;;
  let hq := quartile a b (wrap (cw * 3)) in
  let iq := fsub hq lq in
  let inner := fadd (fmul (f32_of_Z 3) iq) hq in
  let outer := fadd (fmul (f32_of_Z 6) iq) hq in
  (* the loops read rw[0..cw-1] *)
  if (0 <=? cw) && (cw <=? zlen rw) then
    let '(_, l) := below inner (firstn (Z.to_nat cw) rw) in
    let '(mild, l) := below outer l in
    Ok (mkStats median inner outer mild l)
  else Undef OutOfBounds.
(** src/stat.c:28-52 main: None is the usage message *)
Definition stat_main (R : readers) (E : env) (Y : system) (args : list string) (w : world)
    : res (option (Z * option (stats * stats) * option message) * world) :=
  match args with
  | [] => Ok (None, w)
  | file :: args =>
      '(e, o, w) <- resdetect_file R E Y (Some file) None (mkWants true true true true) (resdet_get_method (hd_error args)) None (mkOuts None 0 None 0) w ;;
      s <- (if negb (e =? 0) then Ok None
            else match o_rw o, o_rh o with
                 | Some (_, rw), Some (_, rh) =>
                     a <- statres rw (wrap (o_cw o - 1)) ;;
                     b <- statres rh (wrap (o_ch o - 1)) ;;
                     Ok (Some (a, b))
                 | _, _ => Undef NullDeref
                 end) ;;
      w <- free_opt (option_map fst (o_rw o)) w ;;
      w <- free_opt (option_map fst (o_rh o)) w ;;
      msg <- (if e =? 0 then Ok None else m <- error_text e ;; Ok (Some m)) ;;
      Ok (Some (e, s, msg), w)
  end.

(** %zu *)
Fixpoint decimal_loop (fuel : nat) (n : Z) (acc : list Z) : list Z :=
  match fuel with
  | O => acc
  | S fuel =>
      let acc := 48 + n mod 10 :: acc in
      if n / 10 =? 0 then acc else decimal_loop fuel (n / 10) acc
  end.
Definition decimal (n : Z) : list Z := decimal_loop 20 n [].
(** ** src/imgread.c and the output of src/profile.c *)
(** src/profile.c:183,198: %2ld.%.9ld of a time that is not negative *)
Definition time_text (t : timeval) : list Z :=
  let s := decimal (tv_sec t) in
  let u := decimal (tv_usec t) in
  repeat 32 (2 - length s) ++ s ++ [46] ++ repeat 48 (9 - length u) ++ u.
(** the object representation of a float *)
Definition bytes_of_float (H : host) (v : f32) : list Z :=
  let z := bits_of_b32 v in
  let l := [z mod 256; z / 256 mod 256; z / 65536 mod 256; z / 16777216 mod 256] in
  if h_little H then l else rev l.
(** src/imgread.c:37-38: rows i, i-1, ..., 1 *)
Fixpoint write_rows (H : host) (i : nat) (width : Z) (image : list (option f32)) : res (list Z) :=
  match i with
  | O => Ok []
  | S i =>
      row <- filled (firstn (Z.to_nat width) (skipn (Z.to_nat (wrap (Z.of_nat i * width))) image)) ;;
      if zlen row =? width then
        rest <- write_rows H i width image ;;
        Ok (flat_map (bytes_of_float H) row ++ rest)
      else Undef OutOfBounds
  end.
(** src/imgread.c:36-38 *)
Definition write_frame (H : host) (width height : Z) (image : list (option f32)) : res (list Z) :=
  rows <- write_rows H (Z.to_nat height) width image ;;
  Ok (chars "Pf" ++ [10] ++ decimal width ++ [32] ++ decimal height ++ [10] ++ chars "-1.0" ++ [10] ++ rows).
(** src/imgread.c:32-39 *)
Fixpoint write_loop (fuel : nat) (Y : system) (width height : Z) (im : rdimage) (image : list (option f32)) (out : list Z)
    : res (Z * rdimage * list Z) :=
  match fuel with
  | O => Undef OutOfFuel
  | S fuel =>
      '(b, e, image, im) <- read_at Y im image 0 ;;
      if negb b then Ok (e, im, out)
      else if negb (e =? 0) then Ok (e, im, out)
      else
        l <- write_frame (y_host Y) width height image ;;
        write_loop fuel Y width height im image (out ++ l)
  end.
(** what is left of a run: exit status, the file written if it could be opened, a message *)
Record copy := mkCopy { cp_status : Z; cp_file : option (list Z); cp_err : option message }.
(** src/imgread.c:10-49 main.  [create] says whether fopen(argv[2],"wb") succeeds.  Falling
    off the end of main returns 0.  A NULL file name is undefined. *)
Definition imgread_main (R : readers) (E : env) (Y : system) (create : string -> bool) (args : list string) (w : world)
    : res (copy * world) :=
  match args with
  | [] => Ok (mkCopy 1 None None, w)
  | file :: args =>
      '(im, width, height, buf, e, w) <- resdet_open_image R E Y (Some file) None true true w ;;
      '(e, im, written, w) <-
        (if negb (e =? 0) then Ok (e, im, None, w)
         else
           match args with
           | [] => Undef NullDeref
           | output :: _ =>
               if negb (create output) then Ok (e, im, None, w)
               else
                 match im, buf with
                 | Some i, Some (_, image) =>
                     let '(f, w) := open_file w in
                     '(e, i, out) <- write_loop (S (frames_bound Y (im_ctx i))) Y width height i image [] ;;
                     Ok (e, Some i, Some (f, out), w)
                 | _, _ => Undef NullDeref
                 end
           end) ;;
      msg <- (if e =? 0 then Ok None else m <- error_text e ;; Ok (Some m)) ;;
      w <- resdet_close_image im w ;;
      w <- match written with Some (f, _) => close_file f w | None => Ok w end ;;
      w <- free_opt (option_map fst buf) w ;;
      Ok (mkCopy 0 (option_map snd written) msg, w)
  end.
