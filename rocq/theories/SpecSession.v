(** What is assumed of the clients of a session. *)
From Verif Require Import Base Flt Util Methods Analysis History Stdio Pgm Image ImageHistory Session SpecReport SpecImage.
Open Scope list_scope.
Open Scope Z_scope.

(** Sizes and parameters are as the API demands, images and buffers are large enough.  The
    file named is not standard input, of which there is only one. *)
Definition task_ok (R : readers) (E : env) (Y : system) (t : task) : Prop :=
  match t with
  | Analysing m width height p cs => client_ok E width height p /\ Forall (call_ok width height) cs /\ countable cs
  | Reading filename o ptrs want cs =>
      filename <> Some "-"%string /\
      forall w im width height buf e w', open_by R E Y filename o ptrs want w = Ok (im, width, height, buf, e, w') ->
        Forall (image_call_ok width height) cs
  end.

(** memory never runs out *)
Definition plenty (E : env) : Prop := forall k, e_alloc E k = true.

(** A client that is done was given a documented answer to each of its calls; if no analysis
    could be created, it made no more calls. *)
Definition finished (t : task) (s : stage) : Prop :=
  match t, s with
  | Analysing _ _ _ _ cs, AfterAnalysis e did =>
      Forall2 reply_ok (map fst did) (map snd did) /\ (e = RDEOK /\ map fst did = cs \/ e <> RDEOK /\ did = [])
  | Reading _ _ _ _ cs, AfterImage _ _ _ _ _ rs => Forall2 image_reply_ok cs rs
  | _, _ => False
  end.
