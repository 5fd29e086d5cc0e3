(** Model of the code that fills the trigonometric tables of the KISS transform, for every
    COEFF_PRECISION and INTER_PRECISION: lib/kissfft/kiss_fft.c:355-361,
    lib/kissfft/kiss_fftr.c:52-58, lib/transform/kiss_fft.c:54-62.  The phases of kissfft are
    doubles in every build, so are cos and sin there; those of transform/kiss_fft.c are of the
    type of the intermediates.  cos, sin and atan are the C library's. *)
From Coq Require Import ZArith.
From Verif Require Import Base Flt Precision Kiss Tables KissPrecision.
Open Scope Z_scope.

(** cosf, cos or cosl and so on *)
Record maths (F : format) := mkMaths { f_cos : num F -> num F; f_sin : num F -> num F; f_atan : num F -> num F }.
Arguments f_cos {F}. Arguments f_sin {F}. Arguments f_atan {F}.

(** _kiss_fft_guts.h:136-145: kf_cexp; the results are converted to kiss_fft_scalar *)
Definition cexp_to (S F : format) (Q : maths F) (phase : num F) : num S * num S :=
  (convert F S (f_cos Q phase), convert F S (f_sin Q phase)).
(** kiss_fft.c:355-361 *)
Definition twiddles (S : format) (Q : maths binary64_format) : number_table S :=
  fun nfft i => cexp_to S binary64_format Q (twiddle_phase nfft i).
(** kiss_fftr.c:52-58 *)
Definition supers (S : format) (Q : maths binary64_format) : number_table S :=
  fun nfft i => cexp_to S binary64_format Q (super_phase nfft i).
(** transform/kiss_fft.c:54-62 *)
Definition shifting_phase (I : format) (Q : maths I) (width x : Z) : num I :=
  let pi := nmul I (f_atan Q (num_of_Z I 1)) (num_of_Z I 4) in
  ndiv I (nmul I (nopp I pi) (num_of_Z I x)) (num_of_Z I (wrap (2 * width))).
Definition shifts (S I : format) (Q : maths I) : number_table S :=
  fun width x => cexp_to S I Q (shifting_phase I Q width x).
