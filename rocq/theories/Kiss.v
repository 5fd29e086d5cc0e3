(** Model of lib/kissfft/kiss_fft.c, lib/kissfft/kiss_fftr.c (forward transforms,
    floating point build) and of the transform in lib/transform/kiss_fft.c.

    The code is written over a record of scalar operations, so that the same
    definitions run on floats and, for the exact-arithmetic theorems, on reals.
    Buffers are lists with checked accesses.  Pointers into a buffer are offsets;
    an [int] computation that could overflow goes through [cint].  Memory the C code
    has malloc'ed but not written is whatever the caller passes ("junk").
    Not modelled: st->inverse (always 0 here), OpenMP, fixed point and SIMD builds. *)
From Verif Require Import Base.
From Verif Require Flt.
From Flocq Require Core.Zaux IEEE754.BinarySingleNaN IEEE754.Binary IEEE754.Bits.

(** result of a signed int expression *)
Definition cint (z : Z) : res Z := if (- 2^31 <=? z) && (z <=? INT_MAX) then Ok z else Undef IntOverflow.

(** Scalars.  The last three are the trigonometric tables, as functions of the
    transform length and the index: kiss_fft.c:357-363 kf_cexp(-2*pi*i/nfft);
    kiss_fftr.c:52-58 kf_cexp(-pi*((i+1)/nfft+.5)); transform/kiss_fft.c:56-59
    cos and sin of -pi*x/(2*width). *)
Record ops (T : Type) := mkOps {
  o_add : T -> T -> T; o_sub : T -> T -> T; o_mul : T -> T -> T; o_neg : T -> T;
  o_half : T -> T;                         (* HALF_OF: _kiss_fft_guts.h:141 *)
  o_zero : T;
  o_twiddle : Z -> Z -> T * T;
  o_super : Z -> Z -> T * T;
  o_shift : Z -> Z -> T * T
}.
Arguments o_add {T}. Arguments o_sub {T}. Arguments o_mul {T}. Arguments o_neg {T}.
Arguments o_half {T}. Arguments o_zero {T}. Arguments o_twiddle {T}. Arguments o_super {T}.
Arguments o_shift {T}.

Section Kiss.
Context {T : Type} (K : ops T).
Notation cpx := (T * T)%type.
Local Notation "a +. b" := (o_add K a b) (at level 50, left associativity).
Local Notation "a -. b" := (o_sub K a b) (at level 50, left associativity).
Local Notation "a *. b" := (o_mul K a b) (at level 40, left associativity).

(** _kiss_fft_guts.h:88-127: C_ADD, C_SUB, C_MUL, C_MULBYSCALAR *)
Definition C_ADD (a b : cpx) : cpx := (fst a +. fst b, snd a +. snd b).
Definition C_SUB (a b : cpx) : cpx := (fst a -. fst b, snd a -. snd b).
Definition C_MUL (a b : cpx) : cpx :=
  (fst a *. fst b -. snd a *. snd b, fst a *. snd b +. snd a *. fst b).
Definition C_MULBYSCALAR (a : cpx) (s : T) : cpx := (fst a *. s, snd a *. s).

Definition czero : cpx := (o_zero K, o_zero K).

(** ** The butterflies.  [tw] is st->twiddles; Fout is offset [fo] in [buf]. *)

(** kiss_fft.c:15-36; do-while, so m must be positive *)
Definition kf_bfly2 (tw buf : list cpx) (fo fstride m : Z) : res (list cpx) :=
  if m <=? 0 then Undef IntOverflow
  else for_range 0 m (fun u buf =>
    a <- get buf (fo + u) ;;
    b <- get buf (fo + m + u) ;;
    w <- get tw (u * fstride) ;;
    let t := C_MUL b w in
    buf <- set buf (fo + m + u) (C_SUB a t) ;;
    set buf (fo + u) (C_ADD a t)) buf.

(** kiss_fft.c:38-84 *)
Definition kf_bfly4 (tw buf : list cpx) (fo fstride m : Z) : res (list cpx) :=
  if m <=? 0 then Undef OutOfBounds
  else for_range 0 m (fun u buf =>
    a <- get buf (fo + u) ;;
    b <- get buf (fo + u + m) ;;
    c <- get buf (fo + u + 2 * m) ;;
    d <- get buf (fo + u + 3 * m) ;;
    w1 <- get tw (u * fstride) ;;
    w2 <- get tw (u * (fstride * 2)) ;;
    w3 <- get tw (u * (fstride * 3)) ;;
    let s0 := C_MUL b w1 in
    let s1 := C_MUL c w2 in
    let s2 := C_MUL d w3 in
    let s5 := C_SUB a s1 in
    let a := C_ADD a s1 in
    let s3 := C_ADD s0 s2 in
    let s4 := C_SUB s0 s2 in
    buf <- set buf (fo + u + 2 * m) (C_SUB a s3) ;;
    buf <- set buf (fo + u) (C_ADD a s3) ;;
    buf <- set buf (fo + u + m) (fst s5 +. snd s4, snd s5 -. fst s4) ;;
    set buf (fo + u + 3 * m) (fst s5 -. snd s4, snd s5 +. fst s4)) buf.

(** kiss_fft.c:86-128 *)
Definition kf_bfly3 (tw buf : list cpx) (fo fstride m : Z) : res (list cpx) :=
  if m <=? 0 then Undef OutOfBounds
  else
    epi3 <- get tw (fstride * m) ;;
    for_range 0 m (fun u buf =>
      a <- get buf (fo + u) ;;
      b <- get buf (fo + u + m) ;;
      c <- get buf (fo + u + 2 * m) ;;
      w1 <- get tw (u * fstride) ;;
      w2 <- get tw (u * (fstride * 2)) ;;
      let s1 := C_MUL b w1 in
      let s2 := C_MUL c w2 in
      let s3 := C_ADD s1 s2 in
      let s0 := C_SUB s1 s2 in
      let fm := (fst a -. o_half K (fst s3), snd a -. o_half K (snd s3)) in
      let s0 := C_MULBYSCALAR s0 (snd epi3) in
      buf <- set buf (fo + u) (C_ADD a s3) ;;
      buf <- set buf (fo + u + 2 * m) (fst fm +. snd s0, snd fm -. fst s0) ;;
      set buf (fo + u + m) (fst fm -. snd s0, snd fm +. fst s0)) buf.

(** kiss_fft.c:130-189 *)
Definition kf_bfly5 (tw buf : list cpx) (fo fstride m : Z) : res (list cpx) :=
  ya <- get tw (fstride * m) ;;
  yb <- get tw (fstride * 2 * m) ;;
  m2 <- cint (2 * m) ;; m3 <- cint (3 * m) ;; m4 <- cint (4 * m) ;;
  for_range 0 m (fun u buf =>
    s0 <- get buf (fo + u) ;;
    f1 <- get buf (fo + m + u) ;;
    f2 <- get buf (fo + m2 + u) ;;
    f3 <- get buf (fo + m3 + u) ;;
    f4 <- get buf (fo + m4 + u) ;;
    u2 <- cint (2 * u) ;; u3 <- cint (3 * u) ;; u4 <- cint (4 * u) ;;
    w1 <- get tw (u * fstride) ;;
    w2 <- get tw (u2 * fstride) ;;
    w3 <- get tw (u3 * fstride) ;;
    w4 <- get tw (u4 * fstride) ;;
    let s1 := C_MUL f1 w1 in
    let s2 := C_MUL f2 w2 in
    let s3 := C_MUL f3 w3 in
    let s4 := C_MUL f4 w4 in
    let s7 := C_ADD s1 s4 in
    let s10 := C_SUB s1 s4 in
    let s8 := C_ADD s2 s3 in
    let s9 := C_SUB s2 s3 in
    buf <- set buf (fo + u) (fst s0 +. (fst s7 +. fst s8), snd s0 +. (snd s7 +. snd s8)) ;;
    let s5 := (fst s0 +. fst s7 *. fst ya +. fst s8 *. fst yb,
               snd s0 +. snd s7 *. fst ya +. snd s8 *. fst yb) in
    let s6 := (snd s10 *. snd ya +. snd s9 *. snd yb,
               o_neg K (fst s10 *. snd ya) -. fst s9 *. snd yb) in
    buf <- set buf (fo + m + u) (C_SUB s5 s6) ;;
    buf <- set buf (fo + m4 + u) (C_ADD s5 s6) ;;
    let s11 := (fst s0 +. fst s7 *. fst yb +. fst s8 *. fst ya,
                snd s0 +. snd s7 *. fst yb +. snd s8 *. fst ya) in
    let s12 := (o_neg K (snd s10 *. snd yb) +. snd s9 *. snd ya,
                fst s10 *. snd yb -. fst s9 *. snd ya) in
    buf <- set buf (fo + m2 + u) (C_ADD s11 s12) ;;
    set buf (fo + m3 + u) (C_SUB s11 s12)) buf.

(** kiss_fft.c:192-233.  The scratch buffer is malloc'ed; if that fails the function
    returns without doing anything. *)
Definition kf_bfly_generic (al : oracle) (nfft : Z) (tw buf : list cpx) (fo fstride m p : Z) (wd : world)
  : res (list cpx * world) :=
  match alloc al wd with
  | (None, wd) => Ok (buf, wd)
  | (Some blk, wd) =>
      buf <- for_range 0 m (fun u buf =>
        '(scratch, _) <- for_range 0 p (fun q1 '(scratch, k) =>
            v <- get buf (fo + k) ;;
            scratch <- set scratch q1 v ;;
            k <- cint (k + m) ;;
            Ok (scratch, k)) (repeat czero (Z.to_nat p), u) ;;
        '(buf, _) <- for_range 0 p (fun q1 '(buf, k) =>
            s0 <- get scratch 0 ;;
            buf <- set buf (fo + k) s0 ;;
            '(buf, _) <- for_range 1 p (fun q '(buf, twidx) =>
                twidx <- cint (wrap (twidx + wrap (fstride * k))) ;;
                twidx <- (if twidx >=? nfft then cint (twidx - nfft) else Ok twidx) ;;
                s <- get scratch q ;;
                w <- get tw twidx ;;
                v <- get buf (fo + k) ;;
                buf <- set buf (fo + k) (C_ADD v (C_MUL s w)) ;;
                Ok (buf, twidx)) (buf, 0) ;;
            k <- cint (k + m) ;;
            Ok (buf, k)) (buf, u) ;;
        Ok buf) buf ;;
      wd <- free_block blk wd ;;
      Ok (buf, wd)
  end.

(** kiss_fft.c:291-299: dispatch on the radix *)
Definition kf_bfly (al : oracle) (nfft : Z) (tw : list cpx) (fo fstride m p : Z) (s : list cpx * world)
  : res (list cpx * world) :=
  let '(buf, wd) := s in
  if p =? 2 then buf <- kf_bfly2 tw buf fo fstride m ;; Ok (buf, wd)
  else if p =? 3 then buf <- kf_bfly3 tw buf fo fstride m ;; Ok (buf, wd)
  else if p =? 4 then buf <- kf_bfly4 tw buf fo fstride m ;; Ok (buf, wd)
  else if p =? 5 then buf <- kf_bfly5 tw buf fo fstride m ;; Ok (buf, wd)
  else kf_bfly_generic al nfft tw buf fo fstride m p wd.

(** kiss_fft.c:235-300.  [f], [fi]: the input and the offset the pointer f has. The
    two do-while loops run p times when p is positive. *)
Fixpoint kf_work (al : oracle) (nfft : Z) (tw f : list cpx) (in_stride : Z) (factors : list Z)
    (fo fi fstride : Z) (s : list cpx * world) : res (list cpx * world) :=
  match factors with
  | p :: m :: factors =>
      _ <- cint (p * m) ;;
      if p <=? 0 then Undef OutOfBounds
      else
        s <- (if m =? 1 then
                for_range 0 p (fun k '(buf, wd) =>
                  v <- get f (fi + k * (fstride * in_stride)) ;;
                  buf <- set buf (fo + k) v ;;
                  Ok (buf, wd)) s
              else
                for_range 0 p (fun k s =>
                  kf_work al nfft tw f in_stride factors (fo + k * m) (fi + k * (fstride * in_stride))
                          (fstride * p) s) s) ;;
        kf_bfly al nfft tw fo fstride m p s
  | _ => Undef Uninit
  end.

(** ** kiss_fft_alloc *)

(** kiss_fft.c:310: floor(sqrt((double)n)) *)
Definition floor_sqrt (n : Z) : Z :=
  IEEE754.Binary.Btrunc 53 1024 (IEEE754.Bits.b64_sqrt IEEE754.BinarySingleNaN.mode_NE (Flt.f64_of_Z n)).

(** kiss_fft.c:314-322: while(n % p) *)
Fixpoint next_factor (fuel : nat) (n fs p : Z) : res Z :=
  if p =? 0 then Undef DivByZero
  else if Z.rem n p =? 0 then Ok p
  else match fuel with
  | O => Undef OutOfFuel
  | S fuel =>
      p <- (if p =? 4 then Ok 2 else if p =? 2 then Ok 3 else cint (p + 2)) ;;
      next_factor fuel n fs (if p >? fs then n else p)
  end.

Definition MAXFACTORS := 32.

(** kiss_fft.c:313-327: the outer do-while; [acc] is what was stored so far *)
Fixpoint factor_loop (fuel : nat) (n fs p : Z) (acc : list Z) : res (list Z) :=
  match fuel with
  | O => Undef OutOfFuel
  | S fuel =>
      p <- next_factor (Z.to_nat fs + 5) n fs p ;;
      let n := Z.quot n p in
      if zlen acc + 2 >? 2 * MAXFACTORS then Undef OutOfBounds
      else
        let acc := acc ++ [p; n] in
        if n >? 1 then factor_loop fuel n fs p acc else Ok acc
  end.

(** kiss_fft.c:306-328 *)
Definition kf_factor (n : Z) : res (list Z) :=
  factor_loop (Z.to_nat (Z.log2 n) + 1) n (floor_sqrt n) 4 [].

(** filling a malloc'ed table of [cap] entries with [f 0 ... f (n-1)] *)
Definition fill_table (n cap : Z) (f : Z -> cpx) : res (list cpx) :=
  for_range 0 n (fun i t => set t i (f i)) (repeat czero (Z.to_nat cap)).

(** struct kiss_fft_state and kiss_fftr_state (tmpbuf is working memory) *)
Record fft_state := mkFft { ft_nfft : Z; ft_factors : list Z; ft_twiddles : list cpx }.
Record fftr_state := mkFftr { fr_sub : fft_state; fr_super : list cpx; fr_tmpsize : Z }.

(** kiss_fft.c:337-368 with memory provided by the caller; the twiddle table has
    room for (memneeded - offset of twiddles) / sizeof(kiss_fft_cpx) entries. *)
Definition kiss_fft_alloc (nfft : Z) : res fft_state :=
  n1 <- cint (nfft - 1) ;;
  let memneeded := wrap (272 + wrap (8 * wrap n1)) in
  tw <- fill_table nfft ((memneeded - 264) / 8) (o_twiddle K nfft) ;;
  factors <- kf_factor nfft ;;
  Ok (mkFft nfft factors tw).

(** kiss_fftr.c:21-61, the successful path (the malloc is in Analysis.v).  tmpbuf has
    nfft entries and super_twiddles what is left of nfft*3/2. *)
Definition kiss_fftr_alloc (nfft : Z) : res (option fftr_state) :=
  if Z.odd nfft then Ok None
  else
    let nfft := nfft / 2 in
    n3 <- cint (nfft * 3) ;;
    let room := Z.quot n3 2 in
    sub <- kiss_fft_alloc nfft ;;
    sup <- fill_table (Z.quot nfft 2) (room - nfft) (o_super K nfft) ;;
    Ok (Some (mkFftr sub sup nfft)).

(** ** kiss_fftr *)

(** (const kiss_fft_cpx* )timedata *)
Fixpoint as_cpx (l : list T) : list cpx :=
  match l with
  | a :: b :: l => (a, b) :: as_cpx l
  | _ => []
  end.

(** kiss_fft.c:371-400 kiss_fft: input and output differ here *)
Definition kiss_fft (al : oracle) (st : fft_state) (fin fout : list cpx) (wd : world) : res (list cpx * world) :=
  kf_work al (ft_nfft st) (ft_twiddles st) fin 1 (ft_factors st) 0 0 1 (fout, wd).

(** kiss_fftr.c:63-117.  [tmp] is the contents of st->tmpbuf; returns freqdata and
    tmpbuf. *)
Definition kiss_fftr (al : oracle) (st : fftr_state) (timedata : list T) (tmp freqdata : list cpx) (wd : world)
  : res (list cpx * list cpx * world) :=
  let ncfft := ft_nfft (fr_sub st) in
  '(tmp, wd) <- kiss_fft al (fr_sub st) (as_cpx timedata) tmp wd ;;
  tdc <- get tmp 0 ;;
  freqdata <- set freqdata 0 (fst tdc +. snd tdc, o_zero K) ;;
  freqdata <- set freqdata ncfft (fst tdc -. snd tdc, o_zero K) ;;
  freqdata <- for_range 1 (Z.quot ncfft 2 + 1) (fun k freqdata =>
    fpk <- get tmp k ;;
    fpnk <- get tmp (ncfft - k) ;;
    let fpnk := (fst fpnk, o_neg K (snd fpnk)) in
    let f1k := C_ADD fpk fpnk in
    let f2k := C_SUB fpk fpnk in
    st <- get (fr_super st) (k - 1) ;;
    let tw := C_MUL f2k st in
    freqdata <- set freqdata k (o_half K (fst f1k +. fst tw), o_half K (snd f1k +. snd tw)) ;;
    set freqdata (ncfft - k) (o_half K (fst f1k -. fst tw), o_half K (snd tw -. snd f1k))) freqdata ;;
  Ok (freqdata, tmp, wd).

(** ** The transform *)

(** What resdet_create_plan leaves behind for one direction: transform/kiss_fft.c:33-65. *)
Record direction := mkDir { dr_cfg : fftr_state; dr_shift : list cpx }.
Definition make_direction (length : Z) : res (option direction) :=
  shift <- fill_table length (wrap (8 * length) / 8) (o_shift K length) ;;
  n2 <- cint (wrap (length * 2)) ;;
  cfg <- kiss_fftr_alloc n2 ;;
  match cfg with
  | None => Ok None
  | Some cfg => Ok (Some (mkDir cfg shift))
  end.

(** transform/kiss_fft.c:68-76.  The state: the image, mirror, F, tmpbuf, the heap. *)
Definition dct_state := (list T * list T * list cpx * list cpx * world)%type.
Definition kiss_dct (al : oracle) (d : direction) (n length stride dist : Z) (s : dct_state)
  : res dct_state :=
  for_range 0 n (fun j '(f, mirror, F, tmp, wd) =>
    mirror <- for_range 0 length (fun i mirror =>
      v <- get f (wrap (j * dist + i * stride)) ;;
      mirror <- set mirror (wrap (length * 2 - 1 - i)) v ;;
      set mirror i v) mirror ;;
    '(F, tmp, wd) <- kiss_fftr al (dr_cfg d) mirror tmp F wd ;;
    f <- for_range 0 length (fun i f =>
      F <- get F i ;;
      s <- get (dr_shift d) i ;;
      set f (wrap (j * dist + i * stride)) (fst F *. fst s -. snd F *. snd s)) f ;;
    Ok (f, mirror, F, tmp, wd)) s.

(** transform/kiss_fft.c:22-66 (table contents; bookkeeping in Analysis.v) followed by
    78-82 resdet_transform.  [mirror], [F], [tmp0], [tmp1] are the contents of the
    working memory on entry; a square image has one tmpbuf. *)
Definition kiss_transform (al : oracle) (width height : Z) (f : list T)
    (mirror : list T) (F tmp0 tmp1 : list cpx) (wd : world) : res (list T * world) :=
  d0 <- make_direction width ;;
  d1 <- (if width =? height then Ok d0 else make_direction height) ;;
  match d0, d1 with
  | Some d0, Some d1 =>
      '(f, mirror, F, tmp0, wd) <- kiss_dct al d0 height width 1 width (f, mirror, F, tmp0, wd) ;;
      '(f, _, _, _, wd) <- kiss_dct al d1 width height width 1
          (f, mirror, F, if width =? height then tmp0 else tmp1, wd) ;;
      Ok (f, wd)
  | _, _ => Undef NullDeref
  end.

End Kiss.
