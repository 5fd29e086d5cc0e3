(** Vocabulary shared by the specifications: integer ranges, counting, and reading
    a sample of a plane.  Nothing here refers to the model. *)
From Coq Require Import ZArith List Bool.
Import ListNotations.
Open Scope Z_scope.

(** lo, lo+1, ..., lo+n-1 *)
Fixpoint zseq (n : nat) (lo : Z) : list Z :=
  match n with O => [] | S n => lo :: zseq n (lo + 1) end.
(** the integers x with lo <= x < hi, ascending *)
Definition zrange (lo hi : Z) : list Z := zseq (Z.to_nat (hi - lo)) lo.

(** how many x in [lo,hi) satisfy P *)
Definition how_many (P : Z -> bool) (lo hi : Z) : Z :=
  Z.of_nat (length (filter P (zrange lo hi))).

(** how many pairs (y,i), 0 <= y < n, 1 <= i <= range, satisfy P *)
Definition how_many_pairs (P : Z -> Z -> bool) (n range : Z) : Z :=
  Z.of_nat (length (filter (fun p => P (fst p) (snd p))
                           (list_prod (zrange 0 n) (zrange 1 (range + 1))))).

(** element i of a list, with a default that the theorems never rely on *)
Definition at_ {A} (d : A) (l : list A) (i : Z) : A := nth (Z.to_nat i) l d.
