(** Model of the functions of lib/kissfft/kiss_fft.c and kiss_fftr.c that resdet compiles but
    does not call: transforms with st->inverse, in place or with a stride, kiss_fftri and
    kiss_fft_next_fast_size.

    The conventions are those of Kiss.v.  [I] has the same operations as [K] and the tables
    that kiss_fft_alloc and kiss_fftr_alloc compute when inverse_fft is not 0, from the
    negated phases: kiss_fft.c:357-360, kiss_fftr.c:55-57. *)
From Verif Require Import Base Kiss.

Section Inverse.
Context {T : Type} (K I : ops T).
Notation cpx := (T * T)%type.
Local Notation "a +. b" := (o_add K a b) (at level 50, left associativity).
Local Notation "a -. b" := (o_sub K a b) (at level 50, left associativity).

(** ** Butterflies *)

(** kiss_fft.c:38-84, with the branch on st->inverse in 69-79 *)
Definition kf_bfly4_dir (inverse : bool) (tw buf : list cpx) (fo fstride m : Z) : res (list cpx) :=
  if m <=? 0 then Undef OutOfBounds
  else for_range 0 m (fun u buf =>
    a <- get buf (fo + u) ;;
    b <- get buf (fo + u + m) ;;
    c <- get buf (fo + u + 2 * m) ;;
    d <- get buf (fo + u + 3 * m) ;;
    w1 <- get tw (u * fstride) ;;
    w2 <- get tw (u * (fstride * 2)) ;;
    w3 <- get tw (u * (fstride * 3)) ;;
    let s0 := C_MUL K b w1 in
    let s1 := C_MUL K c w2 in
    let s2 := C_MUL K d w3 in
    let s5 := C_SUB K a s1 in
    let a := C_ADD K a s1 in
    let s3 := C_ADD K s0 s2 in
    let s4 := C_SUB K s0 s2 in
    buf <- set buf (fo + u + 2 * m) (C_SUB K a s3) ;;
    buf <- set buf (fo + u) (C_ADD K a s3) ;;
    if inverse then
      buf <- set buf (fo + u + m) (fst s5 -. snd s4, snd s5 +. fst s4) ;;
      set buf (fo + u + 3 * m) (fst s5 +. snd s4, snd s5 -. fst s4)
    else
      buf <- set buf (fo + u + m) (fst s5 +. snd s4, snd s5 -. fst s4) ;;
      set buf (fo + u + 3 * m) (fst s5 -. snd s4, snd s5 +. fst s4)) buf.

(** kiss_fft.c:291-299 *)
Definition kf_bfly_dir (inverse : bool) (al : oracle) (nfft : Z) (tw : list cpx) (fo fstride m p : Z) (s : list cpx * world)
  : res (list cpx * world) :=
  let '(buf, wd) := s in
  if p =? 2 then buf <- kf_bfly2 K tw buf fo fstride m ;; Ok (buf, wd)
  else if p =? 3 then buf <- kf_bfly3 K tw buf fo fstride m ;; Ok (buf, wd)
  else if p =? 4 then buf <- kf_bfly4_dir inverse tw buf fo fstride m ;; Ok (buf, wd)
  else if p =? 5 then buf <- kf_bfly5 K tw buf fo fstride m ;; Ok (buf, wd)
  else kf_bfly_generic K al nfft tw buf fo fstride m p wd.

(** kiss_fft.c:235-300 *)
Fixpoint kf_work_dir (inverse : bool) (al : oracle) (nfft : Z) (tw f : list cpx) (in_stride : Z) (factors : list Z)
    (fo fi fstride : Z) (s : list cpx * world) : res (list cpx * world) :=
  match factors with
  | p :: m :: factors =>
      _ <- cint (p * m) ;;
      if p <=? 0 then Undef OutOfBounds
      else
        s <- (if m =? 1 then
                for_range 0 p (fun k '(buf, wd) =>
                  v <- get f (fi + k * (fstride * in_stride)) ;;
                  buf <- set buf (fo + k) v ;;
                  Ok (buf, wd)) s
              else
                for_range 0 p (fun k s =>
                  kf_work_dir inverse al nfft tw f in_stride factors (fo + k * m) (fi + k * (fstride * in_stride))
                          (fstride * p) s) s) ;;
        kf_bfly_dir inverse al nfft tw fo fstride m p s
  | _ => Undef Uninit
  end.

(** ** States *)
Record cfg := mkCfg { c_inverse : bool; c_state : fft_state (T := T) }.
Record cfgr := mkCfgr { r_inverse : bool; r_state : fftr_state (T := T) }.
Definition tables (inverse : bool) : ops T := if inverse then I else K.
(** kiss_fft.c:337-368, kiss_fftr.c:20-61 with inverse_fft *)
Definition kiss_fft_new (nfft : Z) (inverse : bool) : res cfg :=
  st <- kiss_fft_alloc (tables inverse) nfft ;;
  Ok (mkCfg inverse st).
Definition kiss_fftr_new (nfft : Z) (inverse : bool) : res (option cfgr) :=
  st <- kiss_fftr_alloc (tables inverse) nfft ;;
  Ok (option_map (mkCfgr inverse) st).

(** ** Transforms *)

(** kiss_fft.c:371-395 kiss_fft_stride into another buffer *)
Definition kiss_fft_stride (al : oracle) (c : cfg) (fin fout : list cpx) (in_stride : Z) (wd : world)
  : res (list cpx * world) :=
  let st := c_state c in
  kf_work_dir (c_inverse c) al (ft_nfft st) (ft_twiddles st) fin in_stride (ft_factors st) 0 0 1 (fout, wd).
(** the same with fin == fout: the result is computed in a buffer with unknown contents [junk]
    and copied.  Without memory for it the function returns. *)
Definition kiss_fft_in_place (al : oracle) (c : cfg) (buf : list cpx) (in_stride : Z) (junk : cpx) (wd : world)
  : res (list cpx * world) :=
  match alloc al wd with
  | (None, wd) => Ok (buf, wd)
  | (Some blk, wd) =>
      let n := ft_nfft (c_state c) in
      '(tmp, wd) <- kiss_fft_stride al c buf (repeat junk (Z.to_nat n)) in_stride wd ;;
      if zlen buf <? n then Undef OutOfBounds
      else
        wd <- free_block blk wd ;;
        Ok (firstn (Z.to_nat n) tmp ++ skipn (Z.to_nat n) buf, wd)
  end.

(** kiss_fftr.c:69-72: the check of the direction; then Kiss.v's kiss_fftr *)
Definition kiss_fftr_checked (al : oracle) (c : cfgr) (timedata : list T) (tmp freqdata : list cpx) (wd : world)
  : res (list cpx * list cpx * world) :=
  if r_inverse c then Ok (freqdata, tmp, wd)
  else kiss_fftr K al (r_state c) timedata tmp freqdata wd.

(** (kiss_fft_cpx* ) timedata, seen from the other side *)
Fixpoint as_scalars (l : list cpx) : list T :=
  match l with
  | (a, b) :: l => a :: b :: as_scalars l
  | [] => []
  end.

(** kiss_fftr.c:119-157; "*= -1" is the negation.  Returns timedata and tmpbuf. *)
Definition kiss_fftri (al : oracle) (c : cfgr) (freqdata : list cpx) (tmp : list cpx) (timedata : list T) (wd : world)
  : res (list T * list cpx * world) :=
  if negb (r_inverse c) then Ok (timedata, tmp, wd)
  else
    let st := r_state c in
    let ncfft := ft_nfft (fr_sub st) in
    f0 <- get freqdata 0 ;;
    fn <- get freqdata ncfft ;;
    tmp <- set tmp 0 (fst f0 +. fst fn, fst f0 -. fst fn) ;;
    tmp <- for_range 1 (Z.quot ncfft 2 + 1) (fun k tmp =>
      fk <- get freqdata k ;;
      fnk <- get freqdata (ncfft - k) ;;
      let fnkc := (fst fnk, o_neg K (snd fnk)) in
      let fek := C_ADD K fk fnkc in
      sup <- get (fr_super st) (k - 1) ;;
      let fok := C_MUL K (C_SUB K fk fnkc) sup in
      tmp <- set tmp k (C_ADD K fek fok) ;;
      tmp <- set tmp (ncfft - k) (C_SUB K fek fok) ;;
      v <- get tmp (ncfft - k) ;;
      set tmp (ncfft - k) (fst v, o_neg K (snd v))) tmp ;;
    '(out, wd) <- kiss_fft_stride al (mkCfg (r_inverse c) (fr_sub st)) tmp (as_cpx timedata) 1 wd ;;
    Ok (as_scalars out, tmp, wd).
End Inverse.

(** ** kiss_fft_next_fast_size: kiss_fft.c:409-421 *)
(** while ((m % d) == 0) m /= d; *)
Fixpoint divide_out (fuel : nat) (d m : Z) : res Z :=
  if Z.rem m d =? 0 then
    match fuel with
    | O => Undef OutOfFuel
    | S fuel => divide_out fuel d (Z.quot m d)
    end
  else Ok m.
Definition without_235 (n : Z) : res Z :=
  let fuel := Z.to_nat (Z.log2 (Z.abs n) + 1) in
  m <- divide_out fuel 2 n ;;
  m <- divide_out fuel 3 m ;;
  divide_out fuel 5 m.
(** while (1); a power of two comes before 2n *)
Fixpoint fast_size_loop (fuel : nat) (n : Z) : res Z :=
  m <- without_235 n ;;
  if m <=? 1 then Ok n
  else match fuel with
  | O => Undef OutOfFuel
  | S fuel => n <- cint (n + 1) ;; fast_size_loop fuel n
  end.
Definition kiss_fft_next_fast_size (n : Z) : res Z := fast_size_loop (Z.to_nat n) n.
(** kiss_fft.h:153-154 kiss_fftr_next_fast_size_real(n); >> rounds down, << is defined if the
    product fits *)
Definition kiss_fftr_next_fast_size_real (n : Z) : res Z :=
  n <- cint (n + 1) ;;
  m <- kiss_fft_next_fast_size (n / 2) ;;
  if m <? 0 then Undef BadShift else cint (m * 2).
