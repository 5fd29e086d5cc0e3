(** How many bytes each of the library's buffers must have, in plain arithmetic. *)
From Coq Require Import ZArith List Bool.
From Verif Require Import Base Flt Util Methods Analysis Sizes.
Import ListNotations.
Open Scope list_scope.
Open Scope Z_scope.

(** the sizes of types and structures are small: any precision of lib/precision.h, any padding. *)
Definition ordinary (P : platform) : Prop :=
  (2 <= pf_scalar P <= pf_coeff P /\ pf_coeff P <= 16) /\ 1 <= pf_inter P <= 16 /\
  32 <= pf_analysis P <= 1024 /\ 1 <= pf_kplan P <= 1024 /\ 1 <= pf_fplan P <= 1024 /\
  1 <= pf_fftr P <= 1024 /\ 2 * pf_scalar P + 64 <= pf_fft P <= 1024 /\ 1 <= pf_fftw P <= 1024 /\
  1 <= pf_result P <= 32.

(** the bytes of n elements of a size *)
Definition space (n size : Z) : Z := n * size.
(** a complex number *)
Definition cpx_size (P : platform) : Z := 2 * pf_scalar P.

(** one block for kiss_fftr: its structure, the structure of the complex FFT with n twiddles
    of which it declares one, the n entries of tmpbuf and the n/2 super twiddles *)
Definition fftr_space (P : platform) (n : Z) : Z :=
  pf_fftr P + (pf_fft P + space (n - 1) (cpx_size P)) + space n (cpx_size P) + space (n / 2) (cpx_size P).

(** a KISS plan: the mirrored line of twice the longest side, its n+1 outputs, and for each
    side that differs the shift table and the FFT *)
Definition kiss_needs (P : platform) (width height : Z) : list Z :=
  let longest := Z.max width height in
  [pf_kplan P; space (2 * longest) (pf_scalar P); space (longest + 1) (cpx_size P);
   space width (cpx_size P); fftr_space P width] ++
  (if width =? height then [] else [space height (cpx_size P); fftr_space P height]).

(** one result per index of the search window, if there is one *)
Definition window_needs (P : platform) (length range : Z) : list Z :=
  if 2 * range <? length then [space (length - 2 * range) (pf_inter P)] else [].

Definition create_needs (P : platform) (b : backend) (width height range : Z) : list Z :=
  [pf_analysis P; space (width * height) (pf_coeff P)] ++
  (match b with KISS => kiss_needs P width height | FFTW => [pf_fplan P; pf_fftw P] end) ++
  window_needs P width range ++ window_needs P height range.

(** what an allocator has handed out if all these requests succeed *)
Definition total (l : list Z) : Z := fold_right Z.add 0 l.

(** the sizes resdet_create_analysis accepts on P (lib/analysis.c:65-68 and the backend's limit per side) *)
Definition accepted (P : platform) (b : backend) (pixel_max width height : Z) : Prop :=
  1 <= width <= match b with KISS => INT_MAX / 3 | FFTW => INT_MAX end /\
  1 <= height <= match b with KISS => INT_MAX / 3 | FFTW => INT_MAX end /\
  width * height <= pixel_max /\ width * height * pf_coeff P < 2 ^ pf_bits P.

(** the colour planes of a Y4M frame, in samples *)
Definition chroma_samples (c : chroma) (width height : Z) : Z :=
  match c with
  | Cmono => 0
  | C420 => 2 * ((width + 1) / 2 * ((height + 1) / 2))
  | C422 => 2 * ((width + 1) / 2 * height)
  | C444 => 2 * (width * height)
  end.

(** ** One block for all parts of an FFT *)
(** parts of a block: the first byte and how many *)
Definition within (size : Z) (p : Z * Z) : Prop := 0 <= fst p /\ fst p + snd p <= size.
Definition apart (p q : Z * Z) : Prop := fst p + snd p <= fst q \/ fst q + snd q <= fst p.
(** struct kiss_fftr_state, the fields of struct kiss_fft_state before its twiddles, n twiddles,
    n entries of tmpbuf, n/2 super twiddles *)
Definition fftr_parts (P : platform) (n : Z) (L : layout) : list (Z * Z) :=
  [(0, pf_fftr P); (ly_substate L, pf_first P); (ly_substate L + pf_first P, space n (cpx_size P));
   (ly_tmpbuf L, space n (cpx_size P)); (ly_super L, space (n / 2) (cpx_size P))].
(** the twiddle of struct kiss_fft_state is inside it *)
Definition twiddle_inside (P : platform) : Prop := 0 <= pf_first P /\ pf_first P + cpx_size P <= pf_fft P.
(** what a compiler sees to: sizes and offsets are multiples of the alignment *)
Definition compiled (P : platform) : Prop :=
  1 <= pf_align P /\ (pf_align P | pf_first P) /\ (pf_align P | pf_fft P) /\ (pf_align P | cpx_size P).
