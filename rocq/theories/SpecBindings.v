(** What the properties of the bindings speak about. *)
From Coq Require Import String.
From Flocq Require Import IEEE754.Binary.
From Verif Require Import Base Flt Util Methods Analysis History Spec SpecAnalysis SpecUtil SpecReport Stdio Pgm Pfm Y4m Image SpecImage SpecCli SpecTools Bindings.
Open Scope string_scope.
Open Scope list_scope.
Open Scope Z_scope.

(** ** Errors *)
(** exception [x] stands for error code [e] and carries its message *)
Definition error_classes : list exn_class :=
  [MemoryError; InternalError; InvalidImageError; UnsupportedFormatError; ImageTooBigErrror; ParameterError; NoImagesError].
Definition reflects (e : Z) (x : exn) : Prop :=
  exists msg, resdet_error_str e = Ok msg /\ msg <> NoMsg /\ x_msg x = Some msg /\
    ((e < 0 /\ x_class x = OSError (- e)) \/ (1 <= e /\ nth_error error_classes (Z.to_nat (e - 1)) = Some (x_class x))).

(** ** Settings *)
(** the setting a dictionary entry asks for: what the value becomes as a C argument *)
Inductive asks : string * pyvalue -> setting -> Prop :=
| asks_range z : asks ("range", PyInt z) (Range (z mod 2^64))
| asks_threshold x : asks ("threshold", PyFloat x) (Threshold (f32_of_f64 x))
| asks_threshold_int z : is_finite 53 1024 (f64_of_Z z) = true -> asks ("threshold", PyInt z) (Threshold (f32_of_f64 (f64_of_Z z)))
| asks_filter z : asks ("compression_filter", PyInt z) (Filter (z mod 256)).
Definition setting_names := ["range"; "threshold"; "compression_filter"].
(** the value in effect: the documented one the dictionary asks for, or else the default *)
Definition in_effect {A} (pick : setting -> option A) (default : A) (d : dict) (v : A) : Prop :=
  (exists kv s, In kv d /\ asks kv s /\ documented s /\ pick s = Some v) \/
  (v = default /\ forall kv s, In kv d -> asks kv s -> documented s -> pick s = None).

(** the settings of a JavaScript object, in the order they are made *)
Definition js_settings (o : js_params) : list setting :=
  (match jp_range o with Some v => [Range v] | None => [] end) ++
  (match jp_threshold o with Some x => [Threshold (f32_of_f64 x)] | None => [] end) ++
  (match jp_filter o with Some v => [Filter v] | None => [] end).

(** the documented value the object asks for, or else the default *)
Definition js_in_effect {A} (pick : setting -> option A) (default : A) (o : js_params) (v : A) : Prop :=
  (exists s, In s (js_settings o) /\ documented s /\ pick s = Some v) \/
  (v = default /\ forall s, In s (js_settings o) -> documented s -> pick s = None).
(** the error thrown stands for this code and carries its message *)
Definition js_reflects (e : Z) (x : js_error) : Prop :=
  exists msg, x = RDError e msg /\ resdet_error_str e = Ok msg /\ msg <> NoMsg.

(** ** Detection *)
(** [r] are the lists of these frames, or an exception that stands for an error *)
Definition detected (E : env) (m : option method) (w h : Z) (p : option params) (fs : list (list f32)) (lists : both) : Prop :=
  Forall (valid_image w h) fs /\
  reported E m w h p fs (seen_x E w h fs) w (fst lists) /\ reported E m w h p fs (seen_y E w h fs) h (snd lists).

(** Python takes an empty string for none *)
Definition unless_empty (t : option string) : option string := match t with Some s => if String.eqb s "" then None else Some s | None => None end.
(** the file opens with this type and its frames are [fs] *)
Definition reads_typed (R : readers) (E : env) (Y : system) (filename : string) (t : option string) (width height : Z) (fs : list (list f32)) : Prop :=
  exists w i ob w1 i', resdet_open_image R E Y (Some filename) t true true w = Ok (Some i, width, height, ob, RDEOK, w1) /\ frames Y i fs RDEOK i'.

(** ** Python analyses: what the replies to a series of calls say, [images] having been
    accepted before.  After a MemoryError of analyze_image nothing is promised. *)
Inductive py_history (E : env) (m : option method) (w h : Z) (p : option params) : list (list f32) -> list py_call -> list py_reply -> Prop :=
| ph_end images : py_history E m w h p images [] []
| ph_accept images i cs rs : valid_image w h i -> py_history E m w h p (images ++ [i]) cs rs ->
    py_history E m w h p images (PyAnalyze i :: cs) (PyAnalyzed None :: rs)
| ph_refuse images i x cs rs : ~ valid_image w h i -> reflects RDEINVAL x -> py_history E m w h p images cs rs ->
    py_history E m w h p images (PyAnalyze i :: cs) (PyAnalyzed (Some x) :: rs)
| ph_nomem images i x cs rs : reflects RDENOMEM x -> used_method m = Morig -> (exists k, e_alloc E k = false) -> length rs = length cs ->
    py_history E m w h p images (PyAnalyze i :: cs) (PyAnalyzed (Some x) :: rs)
| ph_lists images lists cs rs : images <> [] -> reported E m w h p images (seen_x E w h images) w (fst lists) ->
    reported E m w h p images (seen_y E w h images) h (snd lists) -> py_history E m w h p images cs rs ->
    py_history E m w h p images (PyResults :: cs) (PyLists (Return lists) :: rs)
| ph_none images x cs rs : (images = [] /\ reflects RDENOIMG x) \/ (images <> [] /\ reflects RDENOMEM x /\ exists k, e_alloc E k = false) ->
    py_history E m w h p images cs rs ->
    py_history E m w h p images (PyResults :: cs) (PyLists (Raise x) :: rs).
Definition py_call_ok (w h : Z) (c : py_call) : Prop :=
  match c with PyAnalyze i => w * h <= Z.of_nat (length i) | PyResults => True end.

(** ** Buffers *)
(** the buffer holds these frames, possibly with unused memory behind them *)
Definition contains (b : imagebuffer) (width height : Z) (fs : list (list f32)) : Prop :=
  ib_dims b = Some (width, height, Z.of_nat (length fs)) /\ ib_passed b = None /\
  1 <= width /\ 1 <= height /\ width * height * Z.of_nat (length fs) * 4 < 2^64 /\
  Forall (fun f => Z.of_nat (length f) = width * height) fs /\
  exists blk rest, ib_data b = Some (blk, map Some (concat fs) ++ rest).
(** sample x of row y *)
Definition sample (width : Z) (f : list f32) (x y : Z) : f32 := at_ f0 f (y * width + x).
(** a two-dimensional array in the convention of numpy: row y, column x is the sample *)
Definition holds_image (a : ndarray) (width height : Z) (f : list f32) : Prop :=
  nd_shape a = [height; width] /\ nd_item a = 4 /\
  forall x y, 0 <= x < width -> 0 <= y < height -> nd_at a [y; x] = Ok (sample width f x y).
