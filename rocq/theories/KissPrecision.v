(** Model of the KISS backend for every COEFF_PRECISION.

    Kiss.v is written over any scalars; here they are floating point types (lib/precision.h:21-31,
    lib/kissfft/kiss_fft.h:81-83, configure:213-218).  configure makes kiss_fft_scalar double
    for long double coefficients as well, so the transform converts on every load and store.

    Simplifications: the sizes of memory blocks in Kiss.v are those of float; the other sizes are
    in Sizes.v.  The conversions between coefficients and scalars are parameters; the claims ask
    of them what [conversions] in SpecKissPrecision.v says. *)
From Coq Require Import ZArith List.
From Flocq Require Import IEEE754.BinarySingleNaN IEEE754.Binary IEEE754.Bits.
From Verif Require Import Base Flt Precision Kiss.
Import ListNotations.
Open Scope Z_scope.

Definition nopp (F : format) : num F -> num F := Bopp (f_prec F) (f_emax F) (f_nan1 F).
(** _kiss_fft_guts.h:138: (kiss_fft_scalar).5 *)
Definition nhalf (F : format) : num F := ndiv F (num_of_Z F 1) (num_of_Z F 2).
(** tables of sines and cosines, see Kiss.v *)
Definition number_table (F : format) := Z -> Z -> num F * num F.
Definition number_ops (F : format) (twiddle super shift : number_table F) : ops (num F) :=
  mkOps (num F) (nadd F) (nsub F) (nmul F) (nopp F) (fun a => nmul F a (nhalf F)) (n0 F) twiddle super shift.

(** configure:213-218, lib/kissfft/kiss_fft.h:81-83: kiss_fft_scalar *)
Definition kiss_scalar (coeff : precision) : format :=
  match coeff with PF => binary32_format | PD | PL => binary64_format end.

Section Mixed.
Context {T C : Type} (K : ops T) (load : C -> T) (store : T -> C).

(** transform/kiss_fft.c:68-76, with coefficients of another type than the scalars *)
Definition mixed_state := (list C * list T * list (T * T) * list (T * T) * world)%type.
Definition mixed_dct (al : oracle) (d : direction (T := T)) (n length stride dist : Z) (s : mixed_state)
  : res mixed_state :=
  for_range 0 n (fun j '(f, mirror, F, tmp, wd) =>
    mirror <- for_range 0 length (fun i mirror =>
      v <- get f (wrap (j * dist + i * stride)) ;;
      mirror <- set mirror (wrap (length * 2 - 1 - i)) (load v) ;;
      set mirror i (load v)) mirror ;;
    '(F, tmp, wd) <- kiss_fftr K al (dr_cfg d) mirror tmp F wd ;;
    f <- for_range 0 length (fun i f =>
      F <- get F i ;;
      s <- get (dr_shift d) i ;;
      set f (wrap (j * dist + i * stride)) (store (o_sub K (o_mul K (fst F) (fst s)) (o_mul K (snd F) (snd s))))) f ;;
    Ok (f, mirror, F, tmp, wd)) s.

(** transform/kiss_fft.c:22-66 and 78-82, see [kiss_transform] *)
Definition mixed_transform (al : oracle) (width height : Z) (f : list C)
    (mirror : list T) (F tmp0 tmp1 : list (T * T)) (wd : world) : res (list C * world) :=
  d0 <- make_direction K width ;;
  d1 <- (if width =? height then Ok d0 else make_direction K height) ;;
  match d0, d1 with
  | Some d0, Some d1 =>
      '(f, mirror, F, tmp0, wd) <- mixed_dct al d0 height width 1 width (f, mirror, F, tmp0, wd) ;;
      '(f, _, _, _, wd) <- mixed_dct al d1 width height width 1
          (f, mirror, F, if width =? height then tmp0 else tmp1, wd) ;;
      Ok (f, wd)
  | _, _ => Undef NullDeref
  end.
End Mixed.

(** lib/analysis.c:106-114: the coefficients of an image of floats, with scalars of format S and
    coefficients of type C.  [m], [W], [t] fill the working memory, see [kiss_env]. *)
Definition coefficients {S : format} {C : Type} (load : C -> num S) (store : num S -> C) (K : ops (num S)) (al : oracle)
    (width height : Z) (image : list f32) (m : num S) (W t : num S * num S) (wd : world) : res (list C * world) :=
  mixed_transform K load store al width height
    (map (fun v => store (convert binary32_format S v)) (firstn (Z.to_nat (width * height)) image))
    (repeat m (Z.to_nat (2 * Z.max width height))) (repeat W (Z.to_nat (Z.max width height + 1)))
    (repeat t (Z.to_nat width)) (repeat t (Z.to_nat height)) wd.
