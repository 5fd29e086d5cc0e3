(** Why a file is refused. *)
From Verif Require Import Base Flt Util Methods Analysis Stdio Pgm Image.
Open Scope list_scope.
Open Scope Z_scope.

(** the reason for the error [e] of a reader that was given [filename] *)
Definition reason (E : env) (Y : system) (filename : string) (e : Z) : Prop :=
  (e = RDENOMEM /\ exists k, e_alloc E k = false) \/
  (filename <> "-"%string /\ exists t errno, y_fopen Y t filename = inr errno /\ e = - errno) \/
  e = RDETOOBIG \/ e = RDEINVAL.
