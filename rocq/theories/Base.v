(** Common ground for the model: outcomes, bounds-checked buffers, machine
    integers, loops and the allocation world.  This file models no particular
    source file; it fixes the meaning of the C constructs the other files use. *)
From Coq Require Export String ZArith List Bool Lia.
From Coq Require Import ZifyBool.
Export ListNotations.
Open Scope list_scope.
Open Scope Z_scope.

(** ** Outcomes.  [Undef] is C undefined behaviour. *)
Inductive ub : Set :=
| OutOfBounds      (* access outside an object *)
| Uninit           (* use of an indeterminate value *)
| BadFree          (* free of something not live, double free *)
| NullDeref
| BadShift         (* shift amount not below the width *)
| IntOverflow      (* signed overflow or unrepresentable conversion *)
| DivByZero
| BadCtype         (* isdigit, tolower etc. outside EOF and unsigned char *)
| OutOfFuel.       (* not UB: the recursion bound of the model was too small *)

Inductive res (A : Type) : Type :=
| Ok (a : A)
| Undef (u : ub).
Arguments Ok {A} a.
Arguments Undef {A} u.

Definition bind {A B} (m : res A) (k : A -> res B) : res B :=
  match m with Ok a => k a | Undef u => Undef u end.

Declare Scope res_scope.
Delimit Scope res_scope with res.
Notation "x <- m ;; k" := (bind m (fun x => k))
  (at level 61, m at next level, right associativity) : res_scope.
Notation "' p <- m ;; k" := (bind m (fun x => let 'p := x in k))
  (at level 61, p pattern, m at next level, right associativity) : res_scope.
Open Scope res_scope.

(** ** Buffers: a C array is a list; every access is checked. *)
Definition zlen {A} (l : list A) : Z := Z.of_nat (length l).

Definition in_range {A} (l : list A) (i : Z) : bool := (0 <=? i) && (i <? zlen l).

Definition get {A} (l : list A) (i : Z) : res A :=
  if in_range l i
  then match nth_error l (Z.to_nat i) with Some a => Ok a | None => Undef OutOfBounds end
  else Undef OutOfBounds.

Fixpoint upd {A} (l : list A) (n : nat) (a : A) : list A :=
  match l, n with
  | [], _ => []
  | _ :: t, O => a :: t
  | h :: t, S n' => h :: upd t n' a
  end.

Definition set {A} (l : list A) (i : Z) (a : A) : res (list A) :=
  if in_range l i then Ok (upd l (Z.to_nat i) a) else Undef OutOfBounds.

(** ** Machine integers: LP64. *)
Definition SIZE_MAX : Z := 2^64 - 1.
Definition UINT32_MAX : Z := 2^32 - 1.
Definition INT_MAX : Z := 2^31 - 1.
Definition wrap (z : Z) : Z := z mod 2^64.              (* size_t arithmetic *)
(** unsigned division *)
Definition udiv (a b : Z) : res Z := if b =? 0 then Undef DivByZero else Ok (a / b).
Definition is_size (z : Z) : Prop := 0 <= z <= SIZE_MAX.

(** ** Loops.  [for_n n i body s] runs the body for i, i+1, ..., i+n-1. *)
Fixpoint for_n {S} (n : nat) (i : Z) (body : Z -> S -> res S) (s : S) : res S :=
  match n with
  | O => Ok s
  | Datatypes.S n' => s' <- body i s ;; for_n n' (i + 1) body s'
  end.

(** [for(i = lo; i < hi; i++) body] *)
Definition for_range {S} (lo hi : Z) (body : Z -> S -> res S) (s : S) : res S :=
  for_n (Z.to_nat (hi - lo)) lo body s.

(** ** Error codes: include/resdet.h (enum RDErrors).  Negative values are
    negated errno codes. *)
Definition RDEOK := 0.
Definition RDENOMEM := 1.
Definition RDEINTERNAL := 2.
Definition RDEINVAL := 3.
Definition RDEUNSUPP := 4.
Definition RDETOOBIG := 5.
Definition RDEPARAM := 6.
Definition RDENOIMG := 7.

(** ** The world: heap bookkeeping and open files.

    Block contents live in the values that own them; the world only records which
    blocks are live, so that leaks and double frees are visible.  The [n]-th
    allocation request of an execution succeeds iff [oracle n]. *)
Record world := mkWorld {
  w_count : nat;            (* allocation requests made so far *)
  w_live  : list nat;       (* live blocks, named by their request number *)
  w_nfile : nat;            (* fopen successes so far *)
  w_files : list nat        (* open FILE handles other than stdin *)
}.
Definition world0 : world := mkWorld 0 [] 0 [].
Definition oracle := nat -> bool.

(** malloc/calloc: None is NULL. *)
Definition alloc (al : oracle) (w : world) : option nat * world :=
  let n := w_count w in
  if al n then (Some n, mkWorld (S n) (n :: w_live w) (w_nfile w) (w_files w))
  else (None, mkWorld (S n) (w_live w) (w_nfile w) (w_files w)).

(** malloc(size): [size] is the exact mathematical request.  When the C expression
    computing it would wrap, the model must not pretend the block is big enough, so
    callers pass the wrapped size and the capacity is what was really requested. *)

Fixpoint remove1 (n : nat) (l : list nat) : option (list nat) :=
  match l with
  | [] => None
  | h :: t => if Nat.eqb h n then Some t
              else match remove1 n t with Some t' => Some (h :: t') | None => None end
  end.

(** free(p) for a non-NULL p. *)
Definition free_block (b : nat) (w : world) : res world :=
  match remove1 b (w_live w) with
  | Some l => Ok (mkWorld (w_count w) l (w_nfile w) (w_files w))
  | None => Undef BadFree
  end.

(** free(p) where NULL is allowed. *)
Definition free_opt (b : option nat) (w : world) : res world :=
  match b with None => Ok w | Some b => free_block b w end.

(** realloc of block b: the old block stays when it fails *)
Definition realloc_block (al : oracle) (b : nat) (w : world) : res (option nat * world) :=
  match alloc al w with
  | (None, w) => Ok (None, w)
  | (Some b', w) => w <- free_block b w ;; Ok (Some b', w)
  end.

(** fclose *)
Definition close_file (f : nat) (w : world) : res world :=
  match remove1 f (w_files w) with
  | Some l => Ok (mkWorld (w_count w) (w_live w) (w_nfile w) l)
  | None => Undef BadFree
  end.

Definition open_file (w : world) : nat * world :=
  (w_nfile w, mkWorld (w_count w) (w_live w) (S (w_nfile w)) (w_nfile w :: w_files w)).
