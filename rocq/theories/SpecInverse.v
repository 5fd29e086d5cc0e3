(** Inverse transforms and lengths that are easy to factor. *)
From Coq Require Import ZArith List Reals.
From Verif Require Import Base Spec Kiss SpecTransform.
Import ListNotations.
Open Scope R_scope.

(** the inverse of dft, apart from the factor 1/n *)
Definition inverse_dft (n : Z) (x : Z -> cx) (k : Z) : cx :=
  csum (fun j => cmul (x j) (cis (2 * PI * IZR (j * k) / IZR n))) 0 n.

(** the 2n coefficients of real data, from F 0, ..., F n; those of F 0 and F n are real *)
Definition real_spectrum (n : Z) (F : Z -> cx) (k : Z) : cx :=
  if (k =? 0)%Z then (fst (F 0%Z), 0)
  else if (k =? n)%Z then (fst (F n), 0)
  else if (k <? n)%Z then F k
  else (fst (F (2 * n - k)%Z), - snd (F (2 * n - k)%Z)).

(** exact arithmetic, with the exact values of the tables for the inverse *)
Definition exact_inverse_ops : ops R := mkOps R Rplus Rminus Rmult Ropp (fun a => a * (1/2)) 0
  (fun n i => cis (2 * PI * IZR i / IZR n))
  (fun n i => cis (PI * (IZR (i + 1) / IZR n + 1/2)))
  (fun n i => cis (- (PI * IZR i / (2 * IZR n)))).

Open Scope Z_scope.
(** products of twos, threes and fives *)
Definition smooth (n : Z) : Prop := exists a b c, 0 <= a /\ 0 <= b /\ 0 <= c /\ n = 2 ^ a * 3 ^ b * 5 ^ c.
