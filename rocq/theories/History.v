(** Client histories: which analyses a client can hold, and which frames they have
    accepted.  No source file is modelled here; the property theorems quantify over
    these histories. *)
From Coq Require Import Permutation.
From Verif Require Import Base Flt Util Methods Analysis Resdetect.

(** compared with world [w0], exactly the blocks [bs] are live in addition in [w], and
    the same files are open *)
Definition owns (w w0 : world) (bs : list nat) : Prop :=
  Permutation (w_live w) (bs ++ w_live w0) /\ w_nfile w = w_nfile w0 /\ w_files w = w_files w0.

(** [reaches E m w h p images a]: [a] was created for w x h images with method m and
    parameters p, then received any number of images, of which exactly [images], in
    this order, were accepted (RDEOK); the others were refused as invalid.  Between
    the calls the heap may change in any way.  A call that ran out of memory ends
    the history (see [analysis_after_nomem]). *)
Inductive reaches (E : env) (m : option method) (width height : Z) (p : option params)
  : list (list f32) -> analysis -> Prop :=
| reaches_create a wd wd' :
    resdet_create_analysis E m width height p wd = Ok (Some a, RDEOK, wd') ->
    reaches E m width height p [] a
| reaches_accept images a image a' wd wd' :
    reaches E m width height p images a ->
    width * height <= zlen image ->
    resdet_analyze_image E (Some a) (Some image) wd = Ok (RDEOK, Some a', wd') ->
    reaches E m width height p (images ++ [image]) a'
| reaches_refuse images a image a' wd wd' :
    reaches E m width height p images a ->
    width * height <= zlen image ->
    resdet_analyze_image E (Some a) (Some image) wd = Ok (RDEINVAL, Some a', wd') ->
    reaches E m width height p images a'.

(** ** Complete client programs *)
Inductive call :=
| CAnalyze (image : list f32)
| CResults (q : wants) (o : outs).
Inductive reply :=
| RAnalyze (e : Z)
| RResults (e : Z) (o : outs).

Definition do_call (E : env) (c : call) (a : option analysis) (wd : world)
  : res (reply * option analysis * world) :=
  match c with
  | CAnalyze image =>
      '(e, a, wd) <- resdet_analyze_image E a (Some image) wd ;; Ok (RAnalyze e, a, wd)
  | CResults q o =>
      '(e, o, wd) <- resdet_analysis_results E a q o wd ;; Ok (RResults e o, a, wd)
  end.

Fixpoint do_calls (E : env) (cs : list call) (a : option analysis) (wd : world)
  : res (list reply * option analysis * world) :=
  match cs with
  | [] => Ok ([], a, wd)
  | c :: cs =>
      '(r, a, wd) <- do_call E c a wd ;;
      '(rs, a, wd) <- do_calls E cs a wd ;;
      Ok (r :: rs, a, wd)
  end.

(** create, any calls, destroy *)
Definition program (E : env) (m : option method) (width height : Z) (p : option params)
    (cs : list call) (wd : world) : res (Z * list reply * world) :=
  '(a, e, wd) <- resdet_create_analysis E m width height p wd ;;
  match a with
  | None => Ok (e, [], wd)
  | Some a =>
      '(rs, a, wd) <- do_calls E cs (Some a) wd ;;
      wd <- resdet_destroy_analysis a wd ;;
      Ok (e, rs, wd)
  end.

(** the blocks of the result lists a program received *)
Definition out_blocks (q : wants) (o : outs) : list nat :=
  (if want_rw q then match o_rw o with Some (b, _) => [b] | None => [] end else []) ++
  (if want_rh q then match o_rh o with Some (b, _) => [b] | None => [] end else []).
Fixpoint reply_blocks (cs : list call) (rs : list reply) : list nat :=
  match cs, rs with
  | CResults q _ :: cs, RResults _ o :: rs => out_blocks q o ++ reply_blocks cs rs
  | _ :: cs, _ :: rs => reply_blocks cs rs
  | _, _ => []
  end.

(** ** Histories of parameter setter calls *)
Inductive setting := Range (v : Z) | Threshold (t : f32) | Filter (v : Z).

(** one setter call through the API: the reply and the new pointee *)
Definition set_param (p : option params) (s : setting) : Z * option params :=
  match s with
  | Range v => resdet_parameters_set_range p v
  | Threshold t => resdet_parameters_set_threshold p t
  | Filter v => resdet_parameters_set_compression_filter p v
  end.
Fixpoint set_all (p : option params) (l : list setting) : list Z * option params :=
  match l with
  | [] => ([], p)
  | s :: l => let '(e, p) := set_param p s in let '(es, p) := set_all p l in (e :: es, p)
  end.

(** ** The sequential API, by hand *)
Fixpoint analyze_frames (E : env) (frames : list (list f32)) (a : option analysis) (wd : world)
  : res (Z * option analysis * world) :=
  match frames with
  | [] => Ok (RDEOK, a, wd)
  | f :: fs =>
      '(e, a, wd) <- resdet_analyze_image E a (Some f) wd ;;
      if negb (e =? 0) then Ok (e, a, wd) else analyze_frames E fs a wd
  end.

(** create, analyse the frames until one fails, fetch the results if none did, destroy *)
Definition by_hand (E : env) (frames : list (list f32)) (width height : Z) (q : wants)
    (m : option method) (p : option params) (o : outs) (wd : world) : res (Z * outs * world) :=
  '(a, e, wd) <- resdet_create_analysis E m width height p wd ;;
  match a with
  | None => Ok (e, clear_outs q o, wd)
  | Some a =>
      '(e, a, wd) <- analyze_frames E frames (Some a) wd ;;
      '(e, o, wd) <- (if e =? 0 then resdet_analysis_results E a q o wd
                      else Ok (e, clear_outs q o, wd)) ;;
      wd <- resdet_destroy_analysis a wd ;;
      Ok (e, o, wd)
  end.

(** the n consecutive frames of [size] samples in a buffer *)
Fixpoint frames_of (n : nat) (size : Z) (buffer : list f32) : list (list f32) :=
  match n with
  | O => []
  | S n => firstn (Z.to_nat size) buffer :: frames_of n size (skipn (Z.to_nat size) buffer)
  end.

(** ** Parameter objects changed after creation *)
Inductive param_event := PSet (s : setting) | PFree.
Definition param_step (p : option params) (e : param_event) : option params :=
  match e with PSet s => snd (set_param p s) | PFree => None end.
