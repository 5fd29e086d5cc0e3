(** Model of the code that fills the trigonometric tables of the KISS transform:
    lib/kissfft/kiss_fft.c:355-361, lib/kissfft/kiss_fftr.c:52-58 and
    lib/transform/kiss_fft.c:54-62, in the default precision configuration.
    cos, sin and atan are the C library's. *)
From Verif Require Import Base Flt.
From Flocq Require Import Core.Zaux IEEE754.BinarySingleNaN IEEE754.Binary.

Record libm := mkLibm { m_cos : f64 -> f64; m_sin : f64 -> f64; m_atan : f64 -> f64 }.

(** the double nearest to the literals 3.14159265358979323846264338327... of
    kiss_fft.c:356 and kiss_fftr.c:54 *)
Definition pi_literal : f64 := binary_normalize 53 1024 eq_refl eq_refl mode_NE 884279719003555 (-48) false.

(** _kiss_fft_guts.h:141-145: kf_cexp, with the conversions of lines 136-137 *)
Definition kf_cexp (M : libm) (phase : f64) : f32 * f32 := (f32_of_f64 (m_cos M phase), f32_of_f64 (m_sin M phase)).

(** kiss_fft.c:357: -2*pi*i / nfft.  The operands i and nfft are ints. *)
Definition twiddle_phase (nfft i : Z) : f64 :=
  ddiv (dmul (dmul (f64_of_Z (-2)) pi_literal) (f64_of_Z i)) (f64_of_Z nfft).
Definition twiddle_table (M : libm) (nfft i : Z) : f32 * f32 := kf_cexp M (twiddle_phase nfft i).

(** kiss_fftr.c:53-54: -3.14... * ((double) (i+1) / nfft + .5) *)
Definition super_phase (nfft i : Z) : f64 :=
  dmul (dopp pi_literal) (dadd (ddiv (f64_of_Z (i + 1)) (f64_of_Z nfft)) (ddiv (f64_of_Z 1) (f64_of_Z 2))).
Definition super_table (M : libm) (nfft i : Z) : f32 * f32 := kf_cexp M (super_phase nfft i).

(** transform/kiss_fft.c:54-62: pi is atan(1)*4; -pi*x/(2*width), where x and width are
    of type size_t *)
Definition shift_phase (M : libm) (width x : Z) : f64 :=
  let pi := dmul (m_atan M (f64_of_Z 1)) (f64_of_Z 4) in
  ddiv (dmul (dopp pi) (f64_of_Z x)) (f64_of_Z (wrap (2 * width))).
Definition shift_table (M : libm) (width x : Z) : f32 * f32 := kf_cexp M (shift_phase M width x).
