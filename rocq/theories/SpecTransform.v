(** Fourier and cosine transforms in exact arithmetic, and scaled images. *)
From Coq Require Import ZArith List Bool Reals.
From Flocq Require IEEE754.Binary.
From Verif Require Import Base Flt Util Spec Kiss Analysis.
Import ListNotations.
Open Scope list_scope.
Open Scope R_scope.

(** ** Complex numbers *)
Definition cx := (R * R)%type.
Definition cadd (a b : cx) : cx := (fst a + fst b, snd a + snd b).
Definition cmul (a b : cx) : cx := (fst a * fst b - snd a * snd b, fst a * snd b + snd a * fst b).
Definition cis (t : R) : cx := (cos t, sin t).

(** ** Sums over the integers lo <= j < hi *)
Definition rsum (f : Z -> R) (lo hi : Z) : R := fold_right (fun j s => f j + s) 0 (zrange lo hi).
Definition csum (f : Z -> cx) (lo hi : Z) : cx := fold_right (fun j s => cadd (f j) s) (0, 0) (zrange lo hi).

(** ** Transforms of x 0, ..., x (n-1) *)
(** discrete Fourier transform *)
Definition dft (n : Z) (x : Z -> cx) (k : Z) : cx :=
  csum (fun j => cmul (x j) (cis (- (2 * PI * IZR (j * k) / IZR n)))) 0 n.
(** unnormalised DCT-II, which is FFTW's REDFT10 *)
Definition dct (n : Z) (x : Z -> R) (k : Z) : R :=
  2 * rsum (fun j => x j * cos (PI * IZR k * (IZR j + 1/2) / IZR n)) 0 n.
(** the same in two dimensions; g row column *)
Definition dct_2d (w h : Z) (g : Z -> Z -> R) (row col : Z) : R :=
  4 * rsum (fun y => rsum (fun x =>
     g y x * cos (PI * IZR col * (IZR x + 1/2) / IZR w) * cos (PI * IZR row * (IZR y + 1/2) / IZR h)) 0 w) 0 h.

(** ** Scalars *)
(** exact arithmetic, with the exact values of the trigonometric tables *)
Definition exact_ops : ops R := mkOps R Rplus Rminus Rmult Ropp (fun a => a * (1/2)) 0
  (fun n i => cis (- (2 * PI * IZR i / IZR n)))
  (fun n i => cis (- (PI * (IZR (i + 1) / IZR n + 1/2))))
  (fun n i => cis (- (PI * IZR i / (2 * IZR n)))).
(** C floats; the contents of the tables depend on the C library *)
Definition table := Z -> Z -> f32 * f32.
Definition float_ops (twiddle super shift : table) : ops f32 :=
  mkOps f32 fadd fsub fmul fopp (fun a => fmul a (fdiv (f32_of_Z 1) (f32_of_Z 2))) f0 twiddle super shift.
(** a coefficient that has the sign of the real number r, neither being zero *)
Definition agrees (a : f32) (r : R) : Prop := ffinite a = true /\ 0 < Binary.B2R 24 128 a * r.

(** the environment with the KISS transform; the working memory's initial contents are
    [m], [F], [t].  (The plan is refused for larger sizes: lib/transform/kiss_fft.c:23.) *)
Definition kiss_env (c : config) (al : oracle) (K : ops f32)
    (qsort : (rdres -> rdres -> Z) -> list rdres -> list rdres) (m : f32) (F t : f32 * f32) : env :=
  mkEnv c al (fun w h v =>
    if ((1 <=? w) && (w <=? INT_MAX / 3) && (1 <=? h) && (h <=? INT_MAX / 3))%Z then
      match kiss_transform K (fun _ => true) w h v (repeat m (Z.to_nat (2 * Z.max w h))) (repeat F (Z.to_nat (Z.max w h + 1)))
              (repeat t (Z.to_nat w)) (repeat t (Z.to_nat h)) world0 with
      | Ok (v', _) => v'
      | Undef _ => []
      end
    else v) qsort.

(** ** Scaled images *)
(** every column (row) of g repeated s times *)
Definition widened (s : Z) (g : Z -> Z -> R) (y x : Z) : R := g y (x / s)%Z.
Definition heightened (s : Z) (g : Z -> Z -> R) (y x : Z) : R := g (y / s)%Z x.

Open Scope Z_scope.
(** an analysed plane has the signs of the exact transform of [g], on the given mirrored
    columns (rows) *)
Definition signs_exact_x (w h N range : Z) (plane : list f32) (g : Z -> Z -> R) : Prop :=
  forall y i, 0 <= y < h -> 1 <= i <= range ->
    agrees (at_ f0 plane (y * w + (N - i))) (dct_2d w h g y (N - i)) /\
    agrees (at_ f0 plane (y * w + (N + i))) (dct_2d w h g y (N + i)).
Definition signs_exact_y (w h N range : Z) (plane : list f32) (g : Z -> Z -> R) : Prop :=
  forall x i, 0 <= x < w -> 1 <= i <= range ->
    agrees (at_ f0 plane ((N - i) * w + x)) (dct_2d w h g (N - i) x) /\
    agrees (at_ f0 plane ((N + i) * w + x)) (dct_2d w h g (N + i) x).

Close Scope Z_scope.

(** a factor table of n: p1, m1, p2, m2, ..., pk, 1 with n = p1 m1, m1 = p2 m2, ... *)
Fixpoint factor_table (n : Z) (l : list Z) : Prop :=
  match l with
  | p :: m :: rest => n = (p * m)%Z /\ (1 <= p)%Z /\ (1 <= m)%Z /\ ((m = 1%Z /\ rest = []) \/ ((1 < m)%Z /\ factor_table m rest))
  | _ => False
  end.
Fixpoint radices_of (l : list Z) : list Z :=
  match l with p :: _ :: l => p :: radices_of l | _ => [] end.
