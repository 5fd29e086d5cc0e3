(** Model of the bindings: bindings/python/resdet.py, libresdet_api.py, resdet_numpy.py and
    resdet_PIL.py, and bindings/emscripten/resdet.mts.

    A Python or JavaScript call returns a value or raises; undefined behaviour of the C code
    underneath is [Undef] as everywhere.  Garbage collection is not modelled: an object whose
    memory is released by close or by leaving a with statement is released there. *)
From Coq Require Import String.
From Flocq Require Import IEEE754.Binary.
From Verif Require Import Base Flt Util Methods Analysis Resdetect Stdio Pgm Pfm Y4m Image.
Open Scope string_scope.
Open Scope list_scope.
Open Scope Z_scope.

(** * Python *)
(** resdet.py:47-65 and the built-in exceptions that can occur *)
Inductive exn_class :=
| MemoryError | InternalError | InvalidImageError | UnsupportedFormatError | ImageTooBigErrror
| ParameterError | NoImagesError | OSError (errno : Z) | Exception_
| IndexError | ArgumentError | AttributeError | ValueError | TypeError.
Record exn := mkExn { x_class : exn_class; x_msg : option message }.
Inductive py (A : Type) := Return (a : A) | Raise (x : exn).
Arguments Return {A} a.
Arguments Raise {A} x.

(** resdet.py:270-291 _rderror_to_exception; a NULL message has no decode *)
Definition py_exception (e : Z) : res exn :=
  m <- resdet_error_str e ;;
  match m with
  | NoMsg => Ok (mkExn AttributeError None)
  | _ =>
      Ok (mkExn
        (if e =? RDENOMEM then MemoryError
         else if e =? RDEINTERNAL then InternalError
         else if e =? RDEINVAL then InvalidImageError
         else if e =? RDEUNSUPP then UnsupportedFormatError
         else if e =? RDETOOBIG then ImageTooBigErrror
         else if e =? RDEPARAM then ParameterError
         else if e =? RDENOIMG then NoImagesError
         else if e <? 0 then OSError (- e)
         else Exception_) (Some m))
  end.
Definition py_raise {A} (e : Z) (w : world) : res (py A * world) :=
  x <- py_exception e ;; Ok (Raise x, w).

(** ** Parameters *)
(** Values in a parameter dictionary: integers (also bool and everything with __index__),
    floats, and others. *)
Inductive pyvalue := PyInt (z : Z) | PyFloat (x : f64) | PyOther.
(** ctypes conversions, libresdet_api.py:54-61: integers are masked to the C type, other types
    are refused; for c_float an integer is first converted to double *)
Definition as_size_t (v : pyvalue) : option Z := match v with PyInt z => Some (z mod 2^64) | _ => None end.
Definition as_uint8 (v : pyvalue) : option Z := match v with PyInt z => Some (z mod 256) | _ => None end.
Definition as_float (v : pyvalue) : option f32 :=
  match v with
  | PyInt z => let d := f64_of_Z z in if is_finite 53 1024 d then Some (f32_of_f64 d) else None
  | PyFloat d => Some (f32_of_f64 d)
  | PyOther => None
  end.
Definition dict := list (string * pyvalue).
Definition lookup (k : string) (d : dict) : option pyvalue :=
  option_map snd (find (fun kv => String.eqb (fst kv) k) d).
(** resdet.py:302-307, one of the three: None if the argument was refused.  What the setter
    returns is dropped. *)
Definition py_set {A} (d : dict) (k : string) (conv : pyvalue -> option A)
    (setter : option params -> A -> Z * option params) (p : option params) : option (option params) :=
  match lookup k d with
  | None => Some p
  | Some v => match conv v with Some a => Some (snd (setter p a)) | None => None end
  end.
Definition known_key (k : string) : bool :=
  String.eqb k "range" || String.eqb k "threshold" || String.eqb k "compression_filter".
(** resdet.py:293-309 _dict_to_rdparameters *)
Definition py_parameters (E : env) (d : dict) (w : world) : py (option (nat * params)) * world :=
  match d with
  | [] => (Return None, w)
  | _ =>
      if negb (forallb (fun kv => known_key (fst kv)) d) then (Raise (mkExn Exception_ None), w)
      else
        let '(r, w) := resdet_alloc_default_parameters (e_cfg E) (e_alloc E) w in
        let refused := (Raise (mkExn ArgumentError None), w) in
        match py_set d "range" as_size_t resdet_parameters_set_range (option_map snd r) with
        | None => refused
        | Some p =>
        match py_set d "threshold" as_float resdet_parameters_set_threshold p with
        | None => refused
        | Some p =>
        match py_set d "compression_filter" as_uint8 resdet_parameters_set_compression_filter p with
        | None => refused
        | Some p => (Return (match r, p with Some (b, _), Some p => Some (b, p) | _, _ => None end), w)
        end end end
  end.

(** ** Detection *)
Definition both := (list rdres * list rdres)%type.
Definition all_wanted := mkWants true true true true.
Definition null_outs := mkOuts None 0 None 0.
(** resdet.py:313-315 *)
Fixpoint copy_list (n : nat) (i : Z) (l : list rdres) : res (list rdres) :=
  match n with
  | O => Ok []
  | S n => r <- get l i ;; rs <- copy_list n (i + 1) l ;; Ok (r :: rs)
  end.
(** resdet.py:311-316 _resolution_list_from_rdresolutions; NULL has no contents *)
Definition py_list (o : option (nat * list rdres)) (count : Z) : res (py (list rdres)) :=
  if count =? 0 then Ok (Return [])
  else
    match o with
    | None => Ok (Raise (mkExn ValueError None))
    | Some (_, l) => l <- copy_list (Z.to_nat count) 0 l ;; Ok (Return l)
    end.
(** resdet.py:247-252 = 372-377 = 410-415 *)
Definition py_collect (o : outs) (w : world) : res (py both * world) :=
  widths <- py_list (o_rw o) (o_cw o) ;;
  match widths with
  | Raise x => Ok (Raise x, w)
  | Return widths =>
      w <- free_opt (option_map fst (o_rw o)) w ;;
      heights <- py_list (o_rh o) (o_ch o) ;;
      match heights with
      | Raise x => Ok (Raise x, w)
      | Return heights =>
          w <- free_opt (option_map fst (o_rh o)) w ;;
          Ok (Return (widths, heights), w)
      end
  end.
(** resdet.py:356-377 resdetect on a pointer; integers are masked *)
Definition py_resdetect (E : env) (image : option (list f32)) (nimages width height : Z) (m : option method) (d : dict)
    (w : world) : res (py both * world) :=
  match py_parameters E d w with
  | (Raise x, w) => Ok (Raise x, w)
  | (Return p, w) =>
      '(e, o, w) <- resdetect E image (wrap nimages) (wrap width) (wrap height) all_wanted m (option_map snd p) null_outs w ;;
      w <- free_opt (option_map fst p) w ;;
      if negb (e =? 0) then py_raise e w else py_collect o w
  end.
(** resdet.py:388-391: on a list; its length is not compared with the dimensions *)
Definition py_resdetect_list (E : env) (image : list f32) (nimages width height : Z) (m : option method) (d : dict)
    (w : world) : res (py both * world) :=
  py_resdetect E (Some image) nimages width height m d w.
(** type.encode("utf-8") if type else None *)
Definition type_arg (t : option string) : option string :=
  match t with Some "" => None | _ => t end.
(** resdet.py:393-415 resdetect_file *)
Definition py_resdetect_file (R : readers) (E : env) (Y : system) (filename : string) (t : option string) (m : option method) (d : dict)
    (w : world) : res (py both * world) :=
  match py_parameters E d w with
  | (Raise x, w) => Ok (Raise x, w)
  | (Return p, w) =>
      '(e, o, w) <- resdetect_file R E Y (Some filename) (type_arg t) all_wanted m (option_map snd p) null_outs w ;;
      w <- free_opt (option_map fst p) w ;;
      if negb (e =? 0) then py_raise e w else py_collect o w
  end.
(** resdet.py:356-357: resdetect on a value of an unregistered type, such as the string of the
    README, with no further arguments *)
Definition py_resdetect_path (filename : string) : py both := Raise (mkExn TypeError None).

(** ** class Analysis *)
(** resdet.py:208-215 __init__ *)
Definition py_new_analysis (E : env) (width height : Z) (m : option method) (d : dict) (w : world) : res (py analysis * world) :=
  match py_parameters E d w with
  | (Raise x, w) => Ok (Raise x, w)
  | (Return p, w) =>
      '(a, e, w) <- resdet_create_analysis E m (wrap width) (wrap height) (option_map snd p) w ;;
      w <- free_opt (option_map fst p) w ;;
      match a with
      | None => py_raise e w
      | Some a => Ok (Return a, w)
      end
  end.
(** resdet.py:217-221 analyze_image; [a] is None after destroy_analysis *)
Definition py_analyze (E : env) (a : option analysis) (image : option (list f32)) (w : world)
    : res (option exn * option analysis * world) :=
  '(e, a, w) <- resdet_analyze_image E a image w ;;
  if negb (e =? 0) then x <- py_exception e ;; Ok (Some x, a, w) else Ok (None, a, w).
(** resdet.py:237-252 analysis_results *)
Definition py_results (E : env) (a : option analysis) (w : world) : res (py both * world) :=
  '(e, o, w) <- resdet_analysis_results E a all_wanted null_outs w ;;
  if negb (e =? 0) then py_raise e w else py_collect o w.
(** what a client does with an analysis; exceptions are caught *)
Inductive py_call := PyAnalyze (image : list f32) | PyResults.
Inductive py_reply := PyAnalyzed (x : option exn) | PyLists (r : py both).
Definition py_do_call (E : env) (c : py_call) (a : option analysis) (w : world) : res (py_reply * option analysis * world) :=
  match c with
  | PyAnalyze image => '(x, a, w) <- py_analyze E a (Some image) w ;; Ok (PyAnalyzed x, a, w)
  | PyResults => '(r, w) <- py_results E a w ;; Ok (PyLists r, a, w)
  end.
Fixpoint py_do_calls (E : env) (cs : list py_call) (a : option analysis) (w : world) : res (list py_reply * option analysis * world) :=
  match cs with
  | [] => Ok ([], a, w)
  | c :: cs =>
      '(r, a, w) <- py_do_call E c a w ;;
      '(rs, a, w) <- py_do_calls E cs a w ;;
      Ok (r :: rs, a, w)
  end.
(** with Analysis(width, height, method, parameters) as analysis: calls *)
Definition py_session (E : env) (width height : Z) (m : option method) (d : dict) (cs : list py_call) (w : world)
    : res (py (list py_reply) * world) :=
  '(r, w) <- py_new_analysis E width height m d w ;;
  match r with
  | Raise x => Ok (Raise x, w)
  | Return a =>
      '(rs, a, w) <- py_do_calls E cs (Some a) w ;;
      w <- resdet_destroy_analysis a w ;;
      Ok (Return rs, w)
  end.

(** ** class ImageBuffer *)
(** [ib_passed]: None while _as_parameter_ and data are the same object; after close it is what
    _as_parameter_ still points to *)
Record imagebuffer := mkBuf {
  ib_data : option buffer;
  ib_passed : option (option nat);
  ib_dims : option (Z * Z * Z)            (* width, height, nimages, once they are assigned *)
}.
(** resdet.py:98-100 *)
Definition py_empty_buffer : imagebuffer := mkBuf None None None.
(** resdet.py:102-108 with_dimensions *)
Definition py_with_dimensions (E : env) (width height nimages : Z) (w : world) : imagebuffer * world :=
  let '(b, w) := alloc (e_alloc E) w in
  (mkBuf (option_map (fun b => (b, repeat None (Z.to_nat (wrap (width * height * 4) / 4)))) b) None (Some (width, height, nimages)), w).
(** resdet.py:110-114 shape *)
Definition py_shape (b : imagebuffer) : option (list Z) :=
  match ib_dims b with
  | None => None
  | Some (width, height, nimages) => Some ([width; height] ++ (if nimages >? 1 then [nimages] else []))
  end.
Inductive py_index := At (i : Z) | Tuple (l : list Z).
(** resdet.py:131-133; pointers take indices that fit Py_ssize_t *)
Definition py_flat (b : imagebuffer) (width height nimages i : Z) : res (py f32) :=
  if i >=? width * height * nimages then Ok (Raise (mkExn IndexError None))
  else if (i <? - 2^63) || (2^63 <=? i) then Ok (Raise (mkExn IndexError None))
  else
    match ib_data b with
    | None => Ok (Raise (mkExn ValueError None))
    | Some (_, l) =>
        v <- get l i ;;
        match v with Some v => Ok (Return v) | None => Undef Uninit end
    end.
(** resdet.py:116-133 __getitem__ *)
Definition py_getitem (b : imagebuffer) (i : py_index) : res (py f32) :=
  let index_error := Ok (Raise (mkExn IndexError None)) in
  match i, ib_dims b with
  | At i, None => Ok (Raise (mkExn AttributeError None))
  | At i, Some (width, height, nimages) => py_flat b width height nimages i
  | Tuple l, dims =>
      if (3 <? length l)%nat then Ok (Raise (mkExn Exception_ None))
      else
        let l := if (length l <? 3)%nat then 0 :: l else l in
        match dims with
        | None => Ok (Raise (mkExn AttributeError None))
        | Some (width, height, nimages) =>
            match l with
            | n :: l =>
                if n >=? nimages then index_error
                else
                  match l with
                  | y :: l =>
                      if y >=? height then index_error
                      else
                        match l with
                        | x :: _ => if x >=? width then index_error
                                    else py_flat b width height nimages ((n * height + y) * width + x)
                        | [] => index_error
                        end
                  | [] => index_error
                  end
            | [] => index_error
            end
        end
  end.
(** resdet.py:135-137 close *)
Definition py_close_buffer (b : imagebuffer) (w : world) : res (imagebuffer * world) :=
  w <- free_opt (option_map fst (ib_data b)) w ;;
  Ok (mkBuf None (Some (match ib_passed b with Some p => p | None => option_map fst (ib_data b) end)) (ib_dims b), w).
(** resdet.py:342-354 read_image *)
Definition py_read_image (R : readers) (E : env) (Y : system) (filename : string) (t : option string) (w : world)
    : res (py imagebuffer * world) :=
  '(buf, n, width, height, e, w) <- resdet_read_image R E Y (Some filename) (type_arg t) true w ;;
  if negb (e =? 0) then py_raise e w
  else Ok (Return (mkBuf buf None (Some (width, height, n))), w).

(** ** class Image *)
(** resdet.py:153-171 __init__ with a buffer; the library overwrites buffer.data *)
Definition py_open_image (R : readers) (E : env) (Y : system) (filename : string) (t : option string) (name : option string)
    (b : imagebuffer) (w : world) : res (py rdimage * imagebuffer * world) :=
  '(im, width, height, buf, e, w) <-
    (match type_arg name with
     | Some name => resdet_open_image_with_reader R E Y (Some filename) (Some name) true true w
     | None => resdet_open_image R E Y (Some filename) (type_arg t) true true w
     end) ;;
  match im with
  | None => x <- py_exception e ;; Ok (Raise x, mkBuf buf (ib_passed b) (ib_dims b), w)
  | Some im => Ok (Return im, mkBuf buf (ib_passed b) (Some (width, height, 1)), w)
  end.
(** resdet.py:173-178 read_image_frame: the library gets _as_parameter_ *)
Definition py_read_frame (Y : system) (im : rdimage) (b : imagebuffer) : res (py bool * rdimage * imagebuffer) :=
  match ib_passed b with
  | Some (Some _) => Undef OutOfBounds        (* freed memory *)
  | _ =>
      let data := match ib_passed b with Some _ => None | None => ib_data b end in
      '(ok, e, l, im') <- resdet_read_image_frame Y (Some im) (option_map snd data) ;;
      let im := match im' with Some im => im | None => im end in
      let b := match data, l with Some (blk, _), Some l => mkBuf (Some (blk, l)) (ib_passed b) (ib_dims b) | _, _ => b end in
      if negb (e =? 0) then x <- py_exception e ;; Ok (Raise x, im, b)
      else Ok (Return ok, im, b)
  end.

(** ** The example of the README (bindings/python/README.md:74-82): a buffer, an image and an
    analysis, each closed when it is left; the loop reads and analyses *)
Fixpoint py_example_loop (fuel : nat) (E : env) (Y : system) (im : rdimage) (b : imagebuffer) (a : option analysis) (w : world)
    : res (option exn * rdimage * imagebuffer * option analysis * world) :=
  match fuel with
  | O => Undef OutOfFuel
  | S fuel =>
      '(r, im, b) <- py_read_frame Y im b ;;
      match r with
      | Raise x => Ok (Some x, im, b, a, w)
      | Return false => Ok (None, im, b, a, w)
      | Return true =>
          image <- (match ib_data b with Some (_, l) => l <- filled l ;; Ok (Some l) | None => Ok None end) ;;
          '(x, a, w) <- py_analyze E a image w ;;
          match x with
          | Some x => Ok (Some x, im, b, a, w)
          | None => py_example_loop fuel E Y im b a w
          end
      end
  end.
Definition py_example (R : readers) (E : env) (Y : system) (filename : string) (w : world) : res (py both * world) :=
  '(i, b, w) <- py_open_image R E Y filename None None py_empty_buffer w ;;
  '(r, b, w) <-
    match i with
    | Raise x => Ok (Raise x, b, w)
    | Return im =>
        '(r, im, b, w) <-
          ('(a, w) <- py_new_analysis E (im_width im) (im_height im) None [] w ;;
           match a with
           | Raise x => Ok (Raise x, im, b, w)
           | Return a =>
               '(x, im, b, a, w) <- py_example_loop (S (frames_bound Y (im_ctx im))) E Y im b (Some a) w ;;
               '(r, w) <- (match x with Some x => Ok (Raise x, w) | None => py_results E a w end) ;;
               w <- resdet_destroy_analysis a w ;;
               Ok (r, im, b, w)
           end) ;;
        w <- resdet_close_image (Some im) w ;;
        Ok (r, b, w)
    end ;;
  '(_, w) <- py_close_buffer b w ;;
  Ok (r, w).

(** ** resdet_numpy.py and resdet_PIL.py *)
(** a C-contiguous ndarray: its shape, the bytes per element, and its memory read as floats *)
Record ndarray := mkNd { nd_shape : list Z; nd_item : Z; nd_floats : list f32 }.
Definition product (l : list Z) : Z := fold_right Z.mul 1 l.
Definition nd_ok (a : ndarray) : Prop :=
  Forall (fun n => 0 <= n) (nd_shape a) /\ zlen (nd_floats a) = product (nd_shape a) * nd_item a / 4.
(** element [idx] of a float32 array: row-major order *)
Fixpoint nd_offset (shape idx : list Z) : Z :=
  match shape, idx with
  | n :: shape, i :: idx => i * product shape + nd_offset shape idx
  | _, _ => 0
  end.
Definition nd_at (a : ndarray) (idx : list Z) : res f32 := get (nd_floats a) (nd_offset (nd_shape a) idx).
(** resdet_numpy.py:14-16 read_image_frame_as_ndarray, after a successful read: as_array takes
    the product of the shape from the pointer *)
Definition py_as_ndarray (b : imagebuffer) : res (py ndarray) :=
  match py_shape b, ib_data b with
  | Some shape, Some (_, l) =>
      let n := Z.to_nat (product shape) in
      if (length l <? n)%nat then Undef OutOfBounds
      else l <- filled (firstn n l) ;; Ok (Return (mkNd shape 4 l))
  | None, _ => Ok (Raise (mkExn AttributeError None))
  | _, None => Ok (Raise (mkExn ValueError None))
  end.
(** resdet_numpy.py:30-33 resdetect *)
Definition numpy_resdetect (E : env) (a : ndarray) (m : option method) (d : dict) (w : world) : res (py both * world) :=
  match nd_shape a with
  | s0 :: s1 :: rest => py_resdetect E (Some (nd_floats a)) (match rest with n :: _ => n | [] => 1 end) s0 s1 m d w
  | _ => Ok (Raise (mkExn IndexError None), w)
  end.
(** A PIL image of mode F: size and pixels, row by row *)
Record pil := mkPil { pl_width : Z; pl_height : Z; pl_pixels : list f32 }.
(** PIL.Image.fromarray(ndarray,"F") of resdet_PIL.py:11: rows and columns are the first and
    second dimension *)
Definition pil_fromarray (a : ndarray) : option pil :=
  match nd_shape a with
  | [rows; columns] => Some (mkPil columns rows (nd_floats a))
  | _ => None
  end.
(** numpy.array of such an image, resdet_PIL.py:23 *)
Definition numpy_of_pil (p : pil) : ndarray := mkNd [pl_height p; pl_width p] 4 (pl_pixels p).
(** resdet_PIL.py:26-38 resdetect on an image with the given frames, of which [pos] is the
    current one: the frames from there on *)
Fixpoint pil_frames (E : env) (fs : list pil) (a : option analysis) (w : world) : res (option exn * option analysis * world) :=
  match fs with
  | [] => Ok (None, a, w)
  | f :: fs =>
      '(x, a, w) <- py_analyze E a (Some (nd_floats (numpy_of_pil f))) w ;;
      match x with
      | Some x => Ok (Some x, a, w)
      | None => pil_frames E fs a w
      end
  end.
Definition pil_resdetect (E : env) (width height : Z) (fs : list pil) (pos : nat) (m : option method) (d : dict) (w : world)
    : res (py both * world) :=
  '(a, w) <- py_new_analysis E width height m d w ;;
  match a with
  | Raise x => Ok (Raise x, w)
  | Return a =>
      '(x, a, w) <- pil_frames E (skipn pos fs) (Some a) w ;;
      '(r, w) <- (match x with Some x => Ok (Raise x, w) | None => py_results E a w end) ;;
      w <- resdet_destroy_analysis a w ;;
      Ok (r, w)
  end.

(** * JavaScript *)
(** Simplification: the WebAssembly build has a 32-bit size_t, the model of the library a
    64-bit one.  For sizes below 2^32 and a configured pixel limit of at most 2^30 - 1 they
    compute the same. *)
(** resdet.mts:20-33, and plain errors *)
Inductive js_error := OutOfMemoryError | RDError (e : Z) (msg : message) | PlainError.
Inductive js (A : Type) := JsReturn (a : A) | JsThrow (x : js_error).
Arguments JsReturn {A} a.
Arguments JsThrow {A} x.
(** an object with parameters: range and filter are numbers of the C types; [jp_other]: it has
    other keys *)
Record js_params := mkJs { jp_range : option Z; jp_threshold : option f64; jp_filter : option Z; jp_other : bool }.
Definition js_rderror {A} (e : Z) (w : world) : res (js A * world) :=
  m <- resdet_error_str e ;; Ok (JsThrow (RDError e m), w).
(** resdet.mts:185-190, one of the three: the error variable and the parameters *)
Definition js_set {A} (v : option A) (setter : option params -> A -> Z * option params) (s : option Z * option params)
    : option Z * option params :=
  match v with
  | None => s
  | Some a => let '(e, p) := setter (snd s) a in (Some e, p)
  end.
(** resdet.mts:172-195 parametersFromObj *)
Definition js_parameters (E : env) (o : js_params) (w : world) : res (js (option (nat * params)) * world) :=
  match jp_range o, jp_threshold o, jp_filter o, jp_other o with
  | None, None, None, false => Ok (JsReturn None, w)
  | _, _, _, true => Ok (JsThrow PlainError, w)
  | _, _, _, false =>
      let '(r, w) := resdet_alloc_default_parameters (e_cfg E) (e_alloc E) w in
      match r with
      | None => Ok (JsThrow OutOfMemoryError, w)
      | Some (b, p) =>
          let s := js_set (jp_range o) resdet_parameters_set_range (None, Some p) in
          let s := js_set (option_map f32_of_f64 (jp_threshold o)) resdet_parameters_set_threshold s in
          let s := js_set (jp_filter o) resdet_parameters_set_compression_filter s in
          match s with
          | (Some e, p) => if negb (e =? 0) then js_rderror e w
                           else Ok (JsReturn (option_map (fun p => (b, p)) p), w)
          | (None, p) => Ok (JsReturn (option_map (fun p => (b, p)) p), w)
          end
      end
  end.
(** resdet.mts:128-133 = 205-210: four result pointers, or None if a request failed *)
Definition js_pointers (E : env) (w : world) : option (list nat) * world :=
  let '(a, w) := alloc (e_alloc E) w in
  let '(b, w) := alloc (e_alloc E) w in
  let '(c, w) := alloc (e_alloc E) w in
  let '(d, w) := alloc (e_alloc E) w in
  (match a, b, c, d with Some a, Some b, Some c, Some d => Some [a; b; c; d] | _, _, _, _ => None end, w).
(** countwp, counthp, reswp, reshp are freed as reswp, reshp, countwp, counthp *)
Definition js_free_pointers (ps : list nat) (w : world) : res world :=
  match ps with
  | [cw; ch; rw; rh] =>
      w <- free_block rw w ;; w <- free_block rh w ;; w <- free_block cw w ;; free_block ch w
  | _ => Undef NullDeref
  end.
(** resdet.mts:137-160 = 215-238 *)
Definition js_collect (e : Z) (o : outs) (ps : list nat) (w : world) : res (js both * world) :=
  if negb (e =? 0) then w <- js_free_pointers ps w ;; js_rderror e w
  else
    rw <- copy_list (Z.to_nat (o_cw o)) 0 (match o_rw o with Some (_, l) => l | None => [] end) ;;
    rh <- copy_list (Z.to_nat (o_ch o)) 0 (match o_rh o with Some (_, l) => l | None => [] end) ;;
    w <- free_opt (option_map fst (o_rw o)) w ;;
    w <- free_opt (option_map fst (o_rh o)) w ;;
    w <- js_free_pointers ps w ;;
    Ok (JsReturn (rw, rh), w).
(** resdet.mts:197-239 resDetect *)
Definition js_resdetect (E : env) (image : list f32) (nimages width height : Z) (m : option method) (o : js_params) (w : world)
    : res (js both * world) :=
  '(p, w) <- js_parameters E o w ;;
  match p with
  | JsThrow x => Ok (JsThrow x, w)
  | JsReturn p =>
      let '(buf, w) := alloc (e_alloc E) w in
      match buf with
      | None => Ok (JsThrow OutOfMemoryError, w)
      | Some buf =>
          let '(ps, w) := js_pointers E w in
          match ps with
          | None => Ok (JsThrow OutOfMemoryError, w)
          | Some ps =>
              '(e, o, w) <- resdetect E (Some image) nimages width height all_wanted m (option_map snd p) null_outs w ;;
              w <- free_opt (option_map fst p) w ;;
              w <- free_block buf w ;;
              js_collect e o ps w
          end
      end
  end.
(** resdet.mts:97-112 the constructor of Analysis *)
Definition js_new_analysis (E : env) (width height : Z) (m : option method) (o : js_params) (w : world) : res (js analysis * world) :=
  '(p, w) <- js_parameters E o w ;;
  match p with
  | JsThrow x => Ok (JsThrow x, w)
  | JsReturn p =>
      let '(errp, w) := alloc (e_alloc E) w in
      match errp with
      | None => Ok (JsThrow OutOfMemoryError, w)
      | Some errp =>
          '(a, e, w) <- resdet_create_analysis E m width height (option_map snd p) w ;;
          w <- free_opt (option_map fst p) w ;;
          w <- free_block errp w ;;
          if negb (e =? 0) then js_rderror e w
          else match a with Some a => Ok (JsReturn a, w) | None => Undef NullDeref end
      end
  end.
(** resdet.mts:114-125 analyzeImage *)
Definition js_analyze (E : env) (a : option analysis) (image : list f32) (w : world) : res (js unit * option analysis * world) :=
  let '(buf, w) := alloc (e_alloc E) w in
  match buf with
  | None => Ok (JsThrow OutOfMemoryError, a, w)
  | Some buf =>
      '(e, a, w) <- resdet_analyze_image E a (Some image) w ;;
      w <- free_block buf w ;;
      '(r, w) <- (if negb (e =? 0) then js_rderror e w else Ok (JsReturn tt, w)) ;;
      Ok (r, a, w)
  end.
(** resdet.mts:127-161 analysisResults *)
Definition js_results (E : env) (a : option analysis) (w : world) : res (js both * world) :=
  let '(ps, w) := js_pointers E w in
  match ps with
  | None => Ok (JsThrow OutOfMemoryError, w)
  | Some ps =>
      '(e, o, w) <- resdet_analysis_results E a all_wanted null_outs w ;;
      js_collect e o ps w
  end.
