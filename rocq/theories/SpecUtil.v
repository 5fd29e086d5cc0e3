(** Specification of the parameter setters (doc/libresdet.md, "Parameters"). *)
From Coq Require Import ZArith List Bool Reals.
From Flocq Require Import Core IEEE754.Binary.
From Verif Require Import Flt History.
Import ListNotations.
Open Scope Z_scope.

(** a number of the closed unit interval *)
Definition unit_number (t : f32) : Prop :=
  is_finite 24 128 t = true /\ (0 <= B2R 24 128 t <= 1)%R.

(** values the documentation allows *)
Definition documented (s : setting) : Prop :=
  match s with
  | Range v => 1 <= v
  | Threshold t => unit_number t
  | Filter v => v <= 31
  end.

(** values of the C argument types: size_t, float, uint8_t *)
Definition typed (s : setting) : Prop :=
  match s with
  | Range v => 0 <= v < 2^64
  | Threshold _ => True
  | Filter v => 0 <= v < 256
  end.

(** the last documented value of one kind in a history, or d *)
Inductive last_value {A : Type} (pick : setting -> option A) (d : A) : list setting -> A -> Prop :=
| last_none : last_value pick d [] d
| last_this l s v : pick s = Some v -> documented s -> last_value pick d (l ++ [s]) v
| last_skip l s v : (pick s = None \/ ~ documented s) -> last_value pick d l v ->
    last_value pick d (l ++ [s]) v.

Definition range_of s := match s with Range v => Some v | _ => None end.
Definition threshold_of s := match s with Threshold t => Some t | _ => None end.
Definition filter_of s := match s with Filter v => Some v | _ => None end.
