(** What the properties of the objects of the bindings speak about. *)
From Coq Require Import String.
From Flocq Require Import IEEE754.Binary.
From Verif Require Import Base Flt Util Methods Analysis History Spec SpecUtil SpecAnalysis SpecReport Stdio Pgm Pfm Y4m Image ImageHistory
  SpecImage SpecFormats SpecCli SpecTools Bindings SpecBindings Handles.
Open Scope string_scope.
Open Scope list_scope.
Open Scope Z_scope.

(** ** Image objects *)
(** the answer for an error code: a value if there is no error, else the exception for it *)
Inductive answers {A} (e : Z) (v : A) : py A -> Prop :=
| answers_value : e = RDEOK -> answers e v (Return v)
| answers_error x : e <> RDEOK -> reflects e x -> answers e v (Raise x).

(** [py_shows err opened fs buf cs rs]: [rs] are the right replies to the calls [cs] on an
    image that is still open or not, with the frames [fs] still to come, after which there is
    the error [err], and with a buffer that holds [buf] *)
Inductive py_shows (err : Z) : bool -> list (list f32) -> list (option f32) -> list py_image_call -> list py_image_reply -> Prop :=
| shows_end o fs buf : py_shows err o fs buf [] []
| shows_frame f fs buf cs rs : py_shows err true fs (map Some f) cs rs ->
    py_shows err true (f :: fs) buf (PyRead :: cs) (PyFrame (Return true) (map Some f) :: rs)
| shows_no_frame buf r cs rs : answers err false r -> py_shows err true [] buf cs rs ->
    py_shows err true [] buf (PyRead :: cs) (PyFrame r buf :: rs)
| shows_seek fs buf (k : nat) z (progress : bool) cs rs : z mod 2^64 = Z.of_nat k -> (k <= length fs)%nat -> py_shows err true (skipn k fs) buf cs rs ->
    py_shows err true fs buf (PySeek (PyInt z) progress :: cs) (PySought (Return true) (if progress then zrange 1 (Z.of_nat k + 1) else []) :: rs)
| shows_no_seek fs buf z (progress : bool) r cs rs : Z.of_nat (length fs) < z mod 2^64 -> answers err false r -> py_shows err true [] buf cs rs ->
    py_shows err true fs buf (PySeek (PyInt z) progress :: cs) (PySought r (if progress then zrange 1 (Z.of_nat (length fs) + 1) else []) :: rs)
| shows_seek_type o fs buf (v : pyvalue) (progress : bool) cs rs : (forall z, v <> PyInt z) -> py_shows err o fs buf cs rs ->
    py_shows err o fs buf (PySeek v progress :: cs) (PySought (Raise (mkExn ArgumentError None)) [] :: rs)
| shows_close o fs buf cs rs : py_shows err false fs buf cs rs -> py_shows err o fs buf (PyClose :: cs) (PyClosed :: rs)
| shows_closed_read fs buf x cs rs : reflects RDEPARAM x -> py_shows err false fs buf cs rs ->
    py_shows err false fs buf (PyRead :: cs) (PyFrame (Raise x) buf :: rs)
| shows_closed_seek fs buf z progress x cs rs : reflects RDEPARAM x -> py_shows err false fs buf cs rs ->
    py_shows err false fs buf (PySeek (PyInt z) progress :: cs) (PySought (Raise x) [] :: rs).

(** the first call that reaches the image is a read, or a seek by at least one frame *)
Fixpoint py_moves (cs : list py_image_call) : Prop :=
  match cs with
  | PySeek (PyInt z) _ :: _ => z mod 2^64 <> 0
  | PySeek _ _ :: cs => py_moves cs
  | _ => True
  end.
(** what the calls need on a film, as for the library *)
Definition py_film_calls (E : env) (name : string) (width height : Z) (s : stream) (cs : list py_image_call) : Prop :=
  name = "PFM" -> py_moves cs /\ width * height * 12 <= SIZE_MAX /\ (s_seekable s = true \/ forall n, e_alloc E n = true).

(** any file: the replies belong to the calls, the exceptions to errors, and a closed image
    is a parameter error *)
Definition raises_code {A} (r : py A) : Prop := match r with Return _ => True | Raise x => exists e, reflects e x end.
Inductive py_series : bool -> list py_image_call -> list py_image_reply -> Prop :=
| series_end o : py_series o [] []
| series_read r l cs rs : raises_code r -> py_series true cs rs -> py_series true (PyRead :: cs) (PyFrame r l :: rs)
| series_seek z (progress : bool) r told cs rs : raises_code r -> (progress = false -> told = []) -> py_series true cs rs ->
    py_series true (PySeek (PyInt z) progress :: cs) (PySought r told :: rs)
| series_seek_type o (v : pyvalue) (progress : bool) cs rs : (forall z, v <> PyInt z) -> py_series o cs rs ->
    py_series o (PySeek v progress :: cs) (PySought (Raise (mkExn ArgumentError None)) [] :: rs)
| series_close o cs rs : py_series false cs rs -> py_series o (PyClose :: cs) (PyClosed :: rs)
| series_closed_read x l cs rs : reflects RDEPARAM x -> py_series false cs rs -> py_series false (PyRead :: cs) (PyFrame (Raise x) l :: rs)
| series_closed_seek z (progress : bool) x cs rs : reflects RDEPARAM x -> py_series false cs rs ->
    py_series false (PySeek (PyInt z) progress :: cs) (PySought (Raise x) [] :: rs).

(** ** Iteration *)
(** the image opens with this size, and its frames are [fs], ended by the error [er] *)
Definition opens_to (R : readers) (E : env) (Y : system) (filename : string) (t name : option string) (width height : Z) (fs : list (list f32)) (er : Z) : Prop :=
  exists w i ob w1 i',
    open_by R E Y (Some filename) (match unless_empty name with Some n => ByReader (Some n) | None => ByType (unless_empty t) end) true true w =
      Ok (Some i, width, height, ob, RDEOK, w1) /\ frames Y i fs er i'.
Definition ended (er : Z) (x : option exn) : Prop :=
  match x with None => er = RDEOK | Some x => er <> RDEOK /\ reflects er x end.

(** ** Methods *)
(** the documented methods, in order *)
Definition method_names : list string := ["sign"; "mag"; "orig"; "zerox"].
(** the object describes this method of the library: its name, its threshold and its address *)
Definition describes (p base : Z) (o : method_object) (m : method) : Prop :=
  mo_name o = method_name m /\ B2R 53 1024 (mo_threshold o) = B2R 24 128 (method_threshold m) /\ method_arg p base (Some o) = Some m.
Definition pointer_size (p : Z) : Prop := p = 4 \/ p = 8.
