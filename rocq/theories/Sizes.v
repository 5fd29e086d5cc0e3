(** Model of the byte counts the library passes to malloc, calloc and realloc, for size_t
    of any width.  The rest of the model fixes size_t to 64 bits; the WebAssembly build
    (bindings/emscripten) has 32. *)
From Verif Require Import Base Flt Util Methods Analysis.

(** what the compiler and lib/precision.h decide: bits of a size_t, and sizes in bytes of
    coeff, kiss_fft_scalar (double if coeff is long double, configure:215-218), intermediate, RDAnalysis, the two struct resdet_plan, struct kiss_fftr_state,
    struct kiss_fft_state with its one twiddle, FFTW's plan, RDResolution; at which byte of
    struct kiss_fft_state its twiddles are, and the alignment of that struct *)
Record platform := mkPlatform {
  pf_bits : Z;
  pf_coeff : Z;
  pf_scalar : Z;
  pf_inter : Z;
  pf_analysis : Z;
  pf_kplan : Z;
  pf_fplan : Z;
  pf_fftr : Z;
  pf_fft : Z;
  pf_fftw : Z;
  pf_result : Z;
  pf_first : Z;
  pf_align : Z
}.

(** lib/resdet_internal.h:68-77, lib/transform/kiss_fft.c:10-16, fftw.c:9-11,
    lib/kissfft/kiss_fftr.c:12-18, _kiss_fft_guts.h:25-30, include/resdet.h:
    pointers and size_t of 8 or 4 bytes.  FFTW's plan is opaque. *)
Definition lp64 : platform := mkPlatform 64 4 4 8 112 72 8 24 272 8 16 264 4.
Definition ilp32 : platform := mkPlatform 32 4 4 8 60 36 4 12 272 8 8 264 4.
(** configure --coeff-precision=D: double is aligned to 8 bytes on x86-64, ARM and in WebAssembly *)
Definition lp64_double : platform := mkPlatform 64 8 8 8 112 72 8 24 280 8 16 264 8.
Definition ilp32_double : platform := mkPlatform 32 8 8 8 60 36 4 12 280 8 8 264 8.

(** size_t arithmetic *)
Definition wr (P : platform) (z : Z) : Z := z mod 2 ^ pf_bits P.
Definition size_max (P : platform) : Z := 2 ^ pf_bits P - 1.

(** lib/resdet_internal.h:46-50 *)
Definition exceeds_limit (P : platform) (pixel_max width height n tsize : Z) : bool :=
  negb (negb (width =? 0) && negb (height =? 0) && negb (n =? 0) &&
        negb (pixel_max / width / height / n =? 0) &&
        negb (size_max P / width / height / n / tsize =? 0)).

(** ** Analyses *)

(** kiss_fft.c:18-20: malloc(sizeof(coeff)*width*height); fftw.c:13-15:
    fftwf_alloc_real(width*height), which multiplies by the size of an element *)
Definition coeffs_request (P : platform) (b : backend) (width height : Z) : Z :=
  match b with
  | KISS => wr P (wr P (pf_coeff P * width) * height)
  | FFTW => wr P (pf_coeff P * wr P (width * height))
  end.

(** lib/transform/kiss_fft.c:31 *)
Definition mirror_request (P : platform) (n : Z) : Z := wr P (wr P (pf_scalar P * n) * 2).
(** kiss_fft.c:32 *)
Definition F_request (P : platform) (n : Z) : Z := wr P (2 * pf_scalar P * wr P (n + 1)).
(** kiss_fft.c:33, 36 *)
Definition shift_request (P : platform) (n : Z) : Z := wr P (2 * pf_scalar P * n).
(** lib/kissfft/kiss_fft.c:344-345 memneeded; nfft-1 is an int *)
Definition fft_request (P : platform) (n : Z) : Z :=
  wr P (pf_fft P + wr P (2 * pf_scalar P * wr P (n - 1))).
(** lib/kissfft/kiss_fftr.c:34-35 memneeded, for 2n samples; nfft*3/2 is an int, and does not
    overflow because n <= INT_MAX/3 (lib/transform/kiss_fft.c:23) *)
Definition fftr_request (P : platform) (n : Z) : Z :=
  wr P (wr P (pf_fftr P + fft_request P n) + wr P (2 * pf_scalar P * wr P (Z.quot (n * 3) 2))).

(** kiss_fft.c:30-39, in order *)
Definition kiss_requests (P : platform) (width height : Z) : list Z :=
  let bufsize := if width >? height then width else height in
  [pf_kplan P; mirror_request P bufsize; F_request P bufsize; shift_request P width; fftr_request P width] ++
  (if width =? height then [] else [shift_request P height; fftr_request P height]).

(** where kiss_fft_alloc and kiss_fftr_alloc put their state: memory asked for, memory of the
    caller, or nowhere *)
Inductive placed := Asked (bytes : Z) | Given | Refused.

(** lib/kissfft/kiss_fft.c:341-351.  [mem]: the caller's pointer is not null; [lenmem]: null, or
    what it points to.  Second component: what it then points to. *)
Definition fft_memory (P : platform) (n : Z) (mem : bool) (lenmem : option Z) : placed * option Z :=
  let memneeded := fft_request P n in
  match lenmem with
  | None => (Asked memneeded, None)
  | Some len => (if mem && (memneeded <=? len) then Given else Refused, Some memneeded)
  end.

(** the bytes of the block at which kiss_fftr.c:48-50 make substate, tmpbuf and super_twiddles
    point, and the outcome of the call in line 51 *)
Record layout := mkLayout { ly_substate : Z; ly_tmpbuf : Z; ly_super : Z; ly_inner : placed }.

(** lib/kissfft/kiss_fftr.c:25-51 *)
Definition fftr_memory (P : platform) (nfft : Z) (mem : bool) (lenmem : option Z)
  : placed * option Z * option layout :=
  if Z.odd nfft then (Refused, lenmem, None)
  else
    let n := Z.shiftr nfft 1 in
    let subsize := match snd (fft_memory P n false (Some 0)) with Some s => s | None => 0 end in
    let memneeded := wr P (wr P (pf_fftr P + subsize) + wr P (2 * pf_scalar P * wr P (Z.quot (n * 3) 2))) in
    let '(st, lenmem) :=
      match lenmem with
      | None => (Asked memneeded, None)
      | Some len => (if (memneeded <=? len) && mem then Given else Refused, Some memneeded)
      end in
    (st, lenmem,
     match st with
     | Refused => None
     | _ =>
         let substate := pf_fftr P in
         let tmpbuf := substate + subsize in
         Some (mkLayout substate tmpbuf (tmpbuf + 2 * pf_scalar P * n) (fst (fft_memory P n true (Some subsize))))
     end).

(** fftw.c:23, 29 *)
Definition fftw_requests (P : platform) : list Z := [pf_fplan P; pf_fftw P].

(** lib/analysis.c:18-26.  calloc multiplies without wrapping: it fails instead. *)
Definition dimension_requests (P : platform) (length range : Z) : list Z :=
  let maxlen := if range <? wr P (length + 1) / 2 then wr P (length - wr P (range * 2)) else 0 in
  if maxlen =? 0 then [] else [maxlen * pf_inter P].

(** everything lib/analysis.c:34-97 resdet_create_analysis asks for, in order, if nothing fails *)
Definition create_requests (P : platform) (b : backend) (width height range : Z) : list Z :=
  [pf_analysis P; coeffs_request P b width height] ++
  (match b with KISS => kiss_requests P width height | FFTW => fftw_requests P end) ++
  dimension_requests P width range ++ dimension_requests P height range.

(** lib/analysis.c:142 *)
Definition results_request (P : platform) (n : Z) : Z := wr P (n * pf_result P).

(** ** Images *)

(** lib/image.c:76 *)
Definition image_request (P : platform) (width height : Z) : Z := wr P (wr P (width * height) * 4).
(** lib/image.c:235; [n] is *nimages+1 *)
Definition images_request (P : platform) (width height n : Z) : Z :=
  wr P (wr P (wr P (width * height) * n) * 4).
(** lib/image/libpng.c:114 *)
Definition png_request (P : platform) (width height channels : Z) : Z :=
  wr P (wr P (width * height) * channels).
(** lib/image/libjpeg.c:83 *)
Definition jpeg_request (P : platform) (width height : Z) : Z := wr P (width * height).

(** lib/image/y4m.c:84-98 ctx->uv_plane_size in samples *)
Inductive chroma := Cmono | C420 | C422 | C444.
Definition y4m_chroma (P : platform) (c : chroma) (width height : Z) : Z :=
  match c with
  | Cmono => 0
  | C420 => wr P (wr P (wr P (width + 1) / 2 * (wr P (height + 1) / 2)) * 2)
  | C422 => wr P (wr P (wr P (width + 1) / 2 * height) * 2)
  | C444 => wr P (wr P (width * height) * 2)
  end.

(** y4m.c:80-123: None: refused as too large (107-110); otherwise bytes of the luma plane, bytes of the
    chroma planes, bytes requested.  [fseek] says whether fseek succeeds on the stream. *)
Definition y4m_request (P : platform) (c : chroma) (depth width height : Z) (long_max : Z) (fseek : bool)
  : option (Z * Z * Z) :=
  let y := wr P (width * height) in
  let uv := y4m_chroma P c width height in
  let bytewidth := (depth + 7) / 8 in
  if size_max P / bytewidth <? wr P (y + uv) then None
  else
    let y := wr P (y * bytewidth) in
    let uv := wr P (uv * bytewidth) in
    let seekable := (wr P (y + uv) <=? long_max) && fseek in
    Some (y, uv, if seekable then y else if uv <? y then y else uv).

(** lib/image/pfm.c:172-180: bytes to skip per frame, which is also the size of the buffer for pipes *)
Definition pfm_skip (P : platform) (colour : bool) (width height : Z) : Z :=
  wr P ((if colour then wr P (wr P (width * height) * 3) else wr P (width * height)) * 4).
