(** Several clients at once: every client has an analysis or an image of its own, and their
    calls are interleaved in some order.  No source file is modelled here; the property
    theorems quantify over these sessions.

    Simplification: calls are not interleaved with each other half way.  The library has no
    mutable global data (lib/: the only file level data are the constant tables of methods.c,
    image_readers.c and error.c), so calls for different analyses and images only share the
    heap and the open files, which [world] accounts for. *)
From Verif Require Import Base Flt Util Methods Analysis Resdetect History Stdio Pgm Pfm Y4m Image ImageHistory.
Open Scope list_scope.
Open Scope Z_scope.

(** what a client is going to do: create an analysis, make the calls and destroy it, or open
    an image, make the calls and close it *)
Inductive task :=
| Analysing (m : option method) (width height : Z) (p : option params) (cs : list call)
| Reading (filename : option string) (o : way) (ptrs want : bool) (cs : list image_call).

(** how far a client has come: what it did and what it was told, and what it still has to do.
    The width, height, buffer and error are those an image was opened with. *)
Inductive stage :=
| Waiting (t : task)
| InAnalysis (a : option analysis) (did : list (call * reply)) (cs : list call)
| AfterAnalysis (e : Z) (did : list (call * reply))
| InImage (im : option rdimage) (width height : Z) (buf : option buffer) (e : Z) (rs : list image_reply) (cs : list image_call)
| AfterImage (ok : bool) (width height : Z) (buf : option buffer) (e : Z) (rs : list image_reply).

Definition present {A} (o : option A) : bool := match o with Some _ => true | None => false end.

(** the next call of a client *)
Definition advance (R : readers) (E : env) (Y : system) (s : stage) (w : world) : res (stage * world) :=
  match s with
  | Waiting (Analysing m width height p cs) =>
      '(a, e, w) <- resdet_create_analysis E m width height p w ;;
      Ok (match a with Some a => InAnalysis (Some a) [] cs | None => AfterAnalysis e [] end, w)
  | InAnalysis a did (c :: cs) =>
      '(r, a, w) <- do_call E c a w ;; Ok (InAnalysis a (did ++ [(c, r)]) cs, w)
  | InAnalysis a did [] =>
      w <- resdet_destroy_analysis a w ;; Ok (AfterAnalysis RDEOK did, w)
  | Waiting (Reading filename o ptrs want cs) =>
      '(im, width, height, buf, e, w) <- open_by R E Y filename o ptrs want w ;;
      Ok (InImage im width height buf e [] cs, w)
  | InImage im width height buf e rs (c :: cs) =>
      '(r, im, w) <- do_image_call E Y c im w ;; Ok (InImage im width height buf e (rs ++ [r]) cs, w)
  | InImage im width height buf e rs [] =>
      w <- resdet_close_image im w ;; Ok (AfterImage (present im) width height buf e rs, w)
  | AfterAnalysis _ _ | AfterImage _ _ _ _ _ _ => Ok (s, w)
  end.

(** the clients in the order of [schedule]; numbers without a client are idle *)
Fixpoint put {A} (l : list A) (i : nat) (a : A) : list A :=
  match l, i with
  | [], _ => []
  | _ :: l, O => a :: l
  | b :: l, S i => b :: put l i a
  end.
Fixpoint together (R : readers) (E : env) (Y : system) (schedule : list nat) (ss : list stage) (w : world)
  : res (list stage * world) :=
  match schedule with
  | [] => Ok (ss, w)
  | i :: schedule =>
      match nth_error ss i with
      | None => together R E Y schedule ss w
      | Some s => '(s, w) <- advance R E Y s w ;; together R E Y schedule (put ss i s) w
      end
  end.

(** ** What a client is told, without the numbers of memory blocks *)
Definition contents {A} (o : option (nat * A)) : option A := option_map snd o.
Inductive told := ToldAnalysed (e : Z) | ToldResults (e : Z) (rw : option (list rdres)) (cw : Z) (rh : option (list rdres)) (ch : Z).
Definition tell (r : reply) : told :=
  match r with
  | RAnalyze e => ToldAnalysed e
  | RResults e o => ToldResults e (contents (o_rw o)) (o_cw o) (contents (o_rh o)) (o_ch o)
  end.
Inductive account :=
| AnalysisAccount (e : Z) (l : list told)
| ImageAccount (ok : bool) (width height : Z) (buf : option (list (option f32))) (e : Z) (rs : list image_reply).
(** the account of a client that is done *)
Definition account_of (s : stage) : option account :=
  match s with
  | AfterAnalysis e did => Some (AnalysisAccount e (map (fun '(_, r) => tell r) did))
  | AfterImage ok width height buf e rs => Some (ImageAccount ok width height (contents buf) e rs)
  | _ => None
  end.
(** the account of a client that has the library to itself *)
Definition alone (R : readers) (E : env) (Y : system) (t : task) : res account :=
  match t with
  | Analysing m width height p cs =>
      '(e, rs, _) <- program E m width height p cs world0 ;; Ok (AnalysisAccount e (map tell rs))
  | Reading filename o ptrs want cs =>
      '(im, width, height, buf, e, _, rs, _) <- image_program R E Y filename o ptrs want cs world0 ;;
      Ok (ImageAccount (present im) width height (contents buf) e rs)
  end.

(** ** What clients leave behind *)
(** the result lists and the frame buffer handed to the client *)
Definition given (s : stage) : list nat :=
  match s with
  | Waiting _ => []
  | InAnalysis _ did _ | AfterAnalysis _ did =>
      flat_map (fun '(c, r) => reply_blocks [c] [r]) did
  | InImage _ _ _ buf _ _ _ | AfterImage _ _ _ buf _ _ => match buf with Some (b, _) => [b] | None => [] end
  end.
(** calls a client makes altogether *)
Definition calls_of (t : task) : nat :=
  match t with
  | Analysing _ _ _ _ cs => S (S (length cs))
  | Reading _ _ _ _ cs => S (S (length cs))
  end.

(** ** What is assumed of clients and of the system *)
(** files are what they are, whenever they are opened *)
Definition steady (Y : system) : Prop :=
  (forall n n' f, y_fopen Y n f = y_fopen Y n' f) /\
  (forall x n n' f, x_open (y_ext Y x) n f = x_open (y_ext Y x) n' f).
