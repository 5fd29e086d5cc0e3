(** Model of the objects of the bindings that stand for something of the library: images and
    the iteration over them, buffers as sequences, methods and the lists of methods and image
    readers.  bindings/python/resdet.py, resdet_numpy.py, resdet_PIL.py and
    bindings/emscripten/resdet.mts.

    Simplification: strings handed to the library contain no NUL character. *)
From Coq Require Import String.
From Flocq Require Import IEEE754.Binary.
From Verif Require Import Base Flt Util Methods Analysis Resdetect Stdio Pgm Pfm Y4m Image Bindings.
Open Scope string_scope.
Open Scope list_scope.
Open Scope Z_scope.

(** * Python *)
(** ** class Image *)
(** [None] is an image that was closed: its _rdimage is None *)
(** resdet.py:173-178 read_image_frame *)
Definition py_read_frame_of (Y : system) (im : option rdimage) (b : imagebuffer) : res (py bool * option rdimage * imagebuffer) :=
  match im with
  | Some im => '(r, im, b) <- py_read_frame Y im b ;; Ok (r, Some im, b)
  | None =>
      '(ok, e, _, _) <- resdet_read_image_frame Y None (option_map snd (ib_data b)) ;;
      if negb (e =? 0) then x <- py_exception e ;; Ok (Raise x, None, b)
      else Ok (Return ok, None, b)
  end.
(** resdet.py:180-192 seek_frame; libresdet_api.py:86: the offset is a uint64_t.  The list:
    what the callback is told.  Exceptions in the callback are printed and ignored by ctypes. *)
Definition py_seek_frame (E : env) (Y : system) (im : option rdimage) (offset : pyvalue) (progress : bool) (w : world)
    : res (py bool * list Z * option rdimage * world) :=
  match as_size_t offset with
  | None => Ok (Raise (mkExn ArgumentError None), [], im, w)
  | Some k =>
      '(ok, e, calls, im, w) <- resdet_seek_frame E Y im k w ;;
      let told := if progress then calls else [] in
      if negb (e =? 0) then x <- py_exception e ;; Ok (Raise x, told, im, w)
      else Ok (Return ok, told, im, w)
  end.
(** resdet.py:193-195 close_image *)
Definition py_close_image (im : option rdimage) (w : world) : res (option rdimage * world) :=
  w <- resdet_close_image im w ;; Ok (None, w).

(** with ImageBuffer() as buffer: with Image(filename, type, image_reader, buffer) as image:
    calls.  A frame comes with what the buffer holds then. *)
Inductive py_image_call := PySeek (offset : pyvalue) (progress : bool) | PyRead | PyClose.
Inductive py_image_reply := PySought (r : py bool) (told : list Z) | PyFrame (r : py bool) (held : list (option f32)) | PyClosed.
Definition py_image_call_do (E : env) (Y : system) (c : py_image_call) (im : option rdimage) (b : imagebuffer) (w : world)
    : res (py_image_reply * option rdimage * imagebuffer * world) :=
  match c with
  | PySeek offset progress =>
      '(r, told, im, w) <- py_seek_frame E Y im offset progress w ;; Ok (PySought r told, im, b, w)
  | PyRead =>
      '(r, im, b) <- py_read_frame_of Y im b ;;
      Ok (PyFrame r (match ib_data b with Some (_, l) => l | None => [] end), im, b, w)
  | PyClose => '(im, w) <- py_close_image im w ;; Ok (PyClosed, im, b, w)
  end.
Fixpoint py_image_calls_do (E : env) (Y : system) (cs : list py_image_call) (im : option rdimage) (b : imagebuffer) (w : world)
    : res (list py_image_reply * option rdimage * imagebuffer * world) :=
  match cs with
  | [] => Ok ([], im, b, w)
  | c :: cs =>
      '(r, im, b, w) <- py_image_call_do E Y c im b w ;;
      '(rs, im, b, w) <- py_image_calls_do E Y cs im b w ;;
      Ok (r :: rs, im, b, w)
  end.
Definition py_image_session (R : readers) (E : env) (Y : system) (filename : string) (t name : option string)
    (cs : list py_image_call) (w : world) : res (py (list py_image_reply) * world) :=
  '(i, b, w) <- py_open_image R E Y filename t name py_empty_buffer w ;;
  match i with
  | Raise x => '(_, w) <- py_close_buffer b w ;; Ok (Raise x, w)
  | Return im =>
      '(rs, im, b, w) <- py_image_calls_do E Y cs (Some im) b w ;;
      '(_, w) <- py_close_image im w ;;
      '(_, w) <- py_close_buffer b w ;;
      Ok (Return rs, w)
  end.

(** ** class ImageBuffer as a sequence *)
(** list(buffer): __getitem__ with 0, 1, ... until an IndexError *)
Fixpoint py_items (fuel : nat) (b : imagebuffer) (i : Z) : res (py (list f32)) :=
  match fuel with
  | O => Undef OutOfFuel
  | S fuel =>
      v <- py_getitem b (At i) ;;
      match v with
      | Return v =>
          l <- py_items fuel b (i + 1) ;;
          Ok (match l with Return l => Return (v :: l) | Raise x => Raise x end)
      | Raise (mkExn IndexError _) => Ok (Return [])
      | Raise x => Ok (Raise x)
      end
  end.
Definition py_list_buffer (b : imagebuffer) : res (py (list f32)) :=
  py_items (S (match ib_data b with Some (_, l) => length l | None => O end)) b 0.

(** ** resdet_numpy.Image and resdet_PIL.Image *)
(** resdet_numpy.py:14-24: the arrays a for loop over the image gets, and the exception that
    ends it *)
Fixpoint numpy_loop (fuel : nat) (Y : system) (im : rdimage) (b : imagebuffer)
    : res (list ndarray * option exn * rdimage * imagebuffer) :=
  match fuel with
  | O => Undef OutOfFuel
  | S fuel =>
      '(r, im, b) <- py_read_frame Y im b ;;
      match r with
      | Raise x => Ok ([], Some x, im, b)
      | Return false => Ok ([], None, im, b)
      | Return true =>
          a <- py_as_ndarray b ;;
          match a with
          | Raise x => Ok ([], Some x, im, b)
          | Return a =>
              '(l, x, im, b) <- numpy_loop fuel Y im b ;;
              Ok (a :: l, x, im, b)
          end
      end
  end.
(** resdet_numpy.py:9-12 and the loop; then the image and its buffer are released *)
Definition numpy_iterate (R : readers) (E : env) (Y : system) (filename : string) (t name : option string) (w : world)
    : res (py (list ndarray * option exn) * world) :=
  '(i, b, w) <- py_open_image R E Y filename t name py_empty_buffer w ;;
  match i with
  | Raise x => '(_, w) <- py_close_buffer b w ;; Ok (Raise x, w)
  | Return im =>
      '(l, x, im, b) <- numpy_loop (S (frames_bound Y (im_ctx im))) Y im b ;;
      '(_, w) <- py_close_image (Some im) w ;;
      '(_, w) <- py_close_buffer b w ;;
      Ok (Return (l, x), w)
  end.
(** resdet_PIL.py:9-21: the same with PIL images *)
Definition pil_iterate (R : readers) (E : env) (Y : system) (filename : string) (t name : option string) (w : world)
    : res (py (list (option pil) * option exn) * world) :=
  '(r, w) <- numpy_iterate R E Y filename t name w ;;
  Ok (match r with Return (l, x) => Return (map pil_fromarray l, x) | Raise x => Raise x end, w).

(** ** Lists that end with NULL *)
Fixpoint up_to_null {A} (l : list (option A)) : res (list A) :=
  match l with
  | [] => Undef OutOfBounds
  | None :: _ => Ok []
  | Some a :: l => l <- up_to_null l ;; Ok (a :: l)
  end.
(** resdet.py:334-340 list_image_readers; lib/image_readers.c:59-91 ends the array with NULL *)
Definition py_list_image_readers (R : readers) : res (list string) :=
  up_to_null (map Some (resdet_list_image_readers R) ++ [None]).

(** * Methods, in both bindings *)
(** The memory of lib/methods.c:99-118 for pointers of [p] bytes, at [base]: entries of
    a name, a function pointer and a float threshold (struct RDMethod of resdet.h), and one of
    zeros. *)
Inductive cell := CName (s : option string) | CFunc (m : option method) | CThreshold (t : f32).
Definition method_entry (i : Z) : option (option method) :=
  if (0 <=? i) && (i <? zlen resdet_methods) then Some (nth_error resdet_methods (Z.to_nat i))
  else if i =? zlen resdet_methods then Some None else None.
Definition entry_size (p : Z) : Z := 3 * p.        (* padded to the alignment of pointers *)
Definition load (p base a : Z) : res cell :=
  match method_entry ((a - base) / entry_size p) with
  | None => Undef OutOfBounds
  | Some m =>
      let o := (a - base) mod entry_size p in
      if o =? 0 then Ok (CName (option_map method_name m))
      else if o =? p then Ok (CFunc m)
      else if o =? 2 * p then Ok (CThreshold (match m with Some m => method_threshold m | None => f32_of_Z 0 end))
      else Undef OutOfBounds
  end.
Definition load_name (p base a : Z) : res (option string) :=
  c <- load p base a ;; match c with CName s => Ok s | _ => Undef OutOfBounds end.
Definition load_float (p base a : Z) : res f32 :=
  c <- load p base a ;; match c with CThreshold t => Ok t | _ => Undef OutOfBounds end.
(** the method whose entry is at an address: what the library takes a pointer for *)
Definition method_at (p base a : Z) : option method :=
  if (a - base) mod entry_size p =? 0 then
    match method_entry ((a - base) / entry_size p) with Some m => m | None => None end
  else None.
Definition address_of (p base : Z) (m : method) : Z :=
  base + entry_size p * match m with Msign => 0 | Mmag => 1 | Morig => 2 | Mzerox => 3 end.

(** resdet.py:67-80, resdet.mts:35-52: an object has the address of its entry *)
Record method_object := mkMethod { mo_name : string; mo_threshold : f64; mo_pointer : Z }.
Definition read_method (p base toff a : Z) : res method_object :=
  s <- load_name p base a ;;
  t <- load_float p base (a + toff) ;;
  Ok (mkMethod (match s with Some s => s | None => "" end) (f64_of_f32 t) a).
Fixpoint walk_methods (fuel : nat) (p base stride toff a : Z) : res (list method_object) :=
  match fuel with
  | O => Undef OutOfFuel
  | S fuel =>
      s <- load_name p base a ;;
      match s with
      | None => Ok []
      | Some _ =>
          m <- read_method p base toff a ;;
          l <- walk_methods fuel p base stride toff (a + stride) ;;
          Ok (m :: l)
      end
  end.
(** resdet.py:82-85 get and :323-329 methods; ctypes lays RDMethod out as C does
    (libresdet_api.py:23-28) *)
Definition py_methods (p base : Z) : res (list method_object) := walk_methods 9 p base (3 * p) (2 * p) base.
Definition py_get_method (p base : Z) (name : string) : res (option method_object) :=
  match resdet_get_method (Some name) with
  | None => Ok None
  | Some m => m <- read_method p base (2 * p) (address_of p base m) ;; Ok (Some m)
  end.
(** resdet.mts:54-59 get and :164-169 methods; WebAssembly has pointers of 4 bytes *)
Definition js_methods (base : Z) : res (list method_object) := walk_methods 9 4 base 12 8 base.
Definition js_get_method (base : Z) (name : string) : res (option method_object) :=
  match resdet_get_method (Some name) with
  | None => Ok None
  | Some m => m <- read_method 4 base 8 (address_of 4 base m) ;; Ok (Some m)
  end.
(** the method argument of the library's functions: NULL for None, null and undefined *)
Definition method_arg (p base : Z) (m : option method_object) : option method :=
  match m with None => None | Some m => method_at p base (mo_pointer m) end.
