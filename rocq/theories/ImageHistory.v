(** What a client of the image API can do, and what it relies on.  No source file is
    modelled here; the property theorems quantify over these. *)
From Coq Require Import Permutation.
From Verif Require Import Base Flt Util Methods Analysis Stdio Pgm Pfm Y4m Image.
Open Scope list_scope.
Open Scope Z_scope.

(** compared with world [w0], exactly the blocks [bs] are live and exactly the files [fs]
    are open in addition in [w] *)
Definition holds (w w0 : world) (bs fs : list nat) : Prop :=
  Permutation (w_live w) (bs ++ w_live w0) /\ Permutation (w_files w) (fs ++ w_files w0).

(** What is assumed of a reader that is not modelled.  [size c] is the number of samples
    of the frames of context [c]. *)
Definition ext_ok (X : ext_system) : Prop :=
  exists size : nat -> Z,
    (forall n f e, x_open X n f = inr e -> e <> 0) /\
    (forall n f c width height, x_open X n f = inl (c, width, height) ->
       is_size width /\ is_size height /\ size c = width * height) /\
    (forall c b e l c', x_read X c = (b, e, l, c') ->
       size c' = size c /\ zlen l <= size c /\
       (b = true -> e = RDEOK /\ zlen l = size c /\ (x_frames X c' < x_frames X c)%nat)) /\
    (forall c k b e calls c', x_seek X c k = (b, e, calls, c') -> size c' = size c).

(** the streams are possible, errno is positive, the other readers behave *)
Definition system_ok (Y : system) : Prop :=
  (forall n, stream_ok (y_stdin Y n)) /\
  (forall n f s, y_fopen Y n f = inl s -> stream_ok s) /\
  (forall n f errno, y_fopen Y n f = inr errno -> 0 < errno) /\
  (forall x, ext_ok (y_ext Y x)).

(** a host that gives a meaning to what the C standard leaves undefined *)
Definition relaxed (Y : system) : Prop := h_strict (y_host Y) = false.

(** ** Client programs: open, then reads and seeks, then close *)
Inductive way := ByType (filetype : option string) | ByReader (name : option string).
Definition open_by (R : readers) (E : env) (Y : system) (filename : option string) (o : way) (ptrs want : bool) (w : world)
  : res opened :=
  match o with
  | ByType t => resdet_open_image R E Y filename t ptrs want w
  | ByReader n => resdet_open_image_with_reader R E Y filename n ptrs want w
  end.

(** reads go to a buffer with what it held before; None is a NULL pointer *)
Inductive image_call := IRead (buf : option (list (option f32))) | ISeek (offset : Z).
Inductive image_reply := IFrame (b : bool) (e : Z) (buf : option (list (option f32))) | ISought (b : bool) (e : Z) (calls : list Z).
Definition do_image_call (E : env) (Y : system) (c : image_call) (im : option rdimage) (w : world)
  : res (image_reply * option rdimage * world) :=
  match c with
  | IRead buf => '(b, e, buf, im) <- resdet_read_image_frame Y im buf ;; Ok (IFrame b e buf, im, w)
  | ISeek k => '(b, e, calls, im, w) <- resdet_seek_frame E Y im k w ;; Ok (ISought b e calls, im, w)
  end.
Fixpoint do_image_calls (E : env) (Y : system) (cs : list image_call) (im : option rdimage) (w : world)
  : res (list image_reply * option rdimage * world) :=
  match cs with
  | [] => Ok ([], im, w)
  | c :: cs =>
      '(r, im, w) <- do_image_call E Y c im w ;;
      '(rs, im, w) <- do_image_calls E Y cs im w ;;
      Ok (r :: rs, im, w)
  end.
(** open, any calls, close.  The calls are made even if opening failed. *)
Definition image_program (R : readers) (E : env) (Y : system) (filename : option string) (o : way) (ptrs want : bool)
    (cs : list image_call) (w : world) : res (opened * list image_reply * world) :=
  '(im, width, height, buf, e, w) <- open_by R E Y filename o ptrs want w ;;
  '(rs, im', w') <- do_image_calls E Y cs im w ;;
  w' <- resdet_close_image im' w' ;;
  Ok ((im, width, height, buf, e, w), rs, w').
