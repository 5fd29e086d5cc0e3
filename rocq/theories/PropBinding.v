(**     Properties C51 to C53 and C58 to C60: the Python and JavaScript bindings. *)
From Coq Require Import String.
From Flocq Require Import IEEE754.Binary.
From Verif Require Import Base Flt Util Methods Analysis Resdetect History Spec SpecAnalysis SpecUtil SpecReport Stdio Pgm Pfm Y4m Image ImageHistory SpecImage Cli SpecCli Tools SpecTools Bindings SpecBindings Demo DemoImages DemoFormats.
From Verif Require Import BaseProofs WorldProofs UtilProofs AnalysisProofs ClientProofs ProgramProofs ImageSafe FileProofs AnalysisClaims CliClaims BindingProofs BindingRun BindingReadme BindingObjects BindingJs.
Open Scope string_scope.
Open Scope list_scope.
Open Scope Z_scope.
From Verif Require Import BindingClaims.

(** C51.  No parameters are made of an empty dictionary.  Unknown names and values of the
    wrong type raise; otherwise each parameter has the value asked for if the library
    accepts it and its default if not.  If memory is short the defaults are used. *)
Theorem python_parameters : forall E d wd, env_ok E -> NoDup (map fst d) ->
  (d = [] /\ py_parameters E d wd = (Return None, wd)) \/
  ((exists kv, In kv d /\ ~ In (fst kv) setting_names) /\ py_parameters E d wd = (Raise (mkExn Exception_ None), wd)) \/
  (d <> [] /\ (forall kv, In kv d -> In (fst kv) setting_names) /\ exists wd',
    (((exists kv, In kv d /\ forall s, ~ asks kv s) /\ py_parameters E d wd = (Raise (mkExn ArgumentError None), wd') /\
        (exists leak, holds wd' wd leak [] /\ (e_alloc E (w_count wd) = true -> exists b, leak = [b]))) \/
     ((forall kv, In kv d -> exists s, asks kv s) /\
        ((e_alloc E (w_count wd) = false /\ py_parameters E d wd = (Return None, wd') /\ holds wd' wd [] []) \/
         (e_alloc E (w_count wd) = true /\ exists b p, py_parameters E d wd = (Return (Some (b, p)), wd') /\ holds wd' wd [b] [] /\ client_params (e_cfg E) (Some p) /\
            in_effect range_of (c_default_range (e_cfg E)) d (p_range p) /\
            in_effect threshold_of (f32_of_Z (-1)) d (p_threshold p) /\
            in_effect filter_of 0 d (p_filter p)))))).
Proof. exact python_parameters_claim. Qed.
Print Assumptions python_parameters.

Example python_parameters_witness : env_ok demo_env /\ NoDup (map fst demo_dict) /\
  match fst (py_parameters demo_env demo_dict w0) with Return (Some (_, p)) => p_range p = 2 /\ p_filter p = 3 | _ => False end.
Proof. exact python_parameters_example. Qed.

(** C51 as first stated, refuted: a range the library rejects raises nothing, and the
    default is used. *)
Theorem python_rejected_refuted : exists E d wd b p wd' z, env_ok E /\ In ("range", PyInt z) d /\ asks ("range", PyInt z) (Range z) /\
  ~ documented (Range z) /\ py_parameters E d wd = (Return (Some (b, p)), wd') /\ p_range p = c_default_range (e_cfg E).
Proof. exact python_rejected_refuted_claim. Qed.
Print Assumptions python_rejected_refuted.

(** C51.  Nor does an integer outside the C type: it is reduced to another value. *)
Theorem python_masked_refuted : exists E d wd b p wd' z, env_ok E /\ In ("compression_filter", PyInt z) d /\ 255 < z /\
  py_parameters E d wd = (Return (Some (b, p)), wd') /\ p_filter p = 3.
Proof. exact python_masked_refuted_claim. Qed.
Print Assumptions python_masked_refuted.

(** C51.  A value of the wrong type leaves the parameters allocated. *)
Theorem python_argument_leak_refuted : exists E d wd x wd', env_ok E /\ py_parameters E d wd = (Raise x, wd') /\ w_live wd = [] /\ w_live wd' <> [].
Proof. exact python_argument_leak_refuted_claim. Qed.
Print Assumptions python_argument_leak_refuted.

(** C52.  Unknown names throw.  Of the settings given only the last one decides: if the
    library rejects it the code thrown is that of a parameter error, and otherwise each
    parameter has the value asked for if the library accepts it and its default if not. *)
Theorem js_object : forall E o wd, Forall typed (js_settings o) ->
  (jp_other o = false /\ js_settings o = [] /\ js_parameters E o wd = Ok (JsReturn None, wd)) \/
  (jp_other o = true /\ js_parameters E o wd = Ok (JsThrow PlainError, wd)) \/
  (jp_other o = false /\ exists before last wd', js_settings o = before ++ [last] /\
    ((e_alloc E (w_count wd) = false /\ js_parameters E o wd = Ok (JsThrow OutOfMemoryError, wd') /\ holds wd' wd [] []) \/
     (e_alloc E (w_count wd) = true /\ exists b, holds wd' wd [b] [] /\
       ((documented last /\ exists p, js_parameters E o wd = Ok (JsReturn (Some (b, p)), wd') /\ client_params (e_cfg E) (Some p) /\
           js_in_effect range_of (c_default_range (e_cfg E)) o (p_range p) /\
           js_in_effect threshold_of (f32_of_Z (-1)) o (p_threshold p) /\
           js_in_effect filter_of 0 o (p_filter p)) \/
        (~ documented last /\ exists x, js_parameters E o wd = Ok (JsThrow x, wd') /\ js_reflects RDEPARAM x))))).
Proof. exact js_object_claim. Qed.
Print Assumptions js_object.

Example js_object_witness : Forall typed (js_settings demo_object) /\
  match js_parameters demo_env demo_object w0 with Ok (JsReturn (Some (_, p)), _) => p_range p = 2 | _ => False end.
Proof. exact js_object_example. Qed.

(** C52 as first stated, refuted: a rejected range is ignored if a threshold follows. *)
Theorem js_rejected_refuted : exists E o wd b p wd' s, env_ok E /\ Forall typed (js_settings o) /\ In s (js_settings o) /\ ~ documented s /\
  js_parameters E o wd = Ok (JsReturn (Some (b, p)), wd').
Proof. exact js_rejected_refuted_claim. Qed.
Print Assumptions js_rejected_refuted.

(** C52.  A rejected parameter leaves the parameters allocated. *)
Theorem js_rejected_leak_refuted : exists E o wd x wd', env_ok E /\ Forall typed (js_settings o) /\ js_parameters E o wd = Ok (JsThrow x, wd') /\ w_live wd = [] /\ w_live wd' <> [].
Proof. exact js_rejected_leak_refuted_claim. Qed.
Print Assumptions js_rejected_leak_refuted.

(** C53.  Nonnegative coordinates give the sample of the frame, or an IndexError if there is
    none.  A pair means the first frame, and a single index counts samples in that order. *)
Theorem python_index : forall b width height fs n y x, contains b width height fs -> 0 <= n -> 0 <= y -> 0 <= x ->
  (n < Z.of_nat (length fs) /\ y < height /\ x < width ->
     py_getitem b (Tuple [n; y; x]) = Ok (Return (sample width (nth (Z.to_nat n) fs []) x y)) /\
     py_getitem b (At ((n * height + y) * width + x)) = Ok (Return (sample width (nth (Z.to_nat n) fs []) x y))) /\
  (~ (n < Z.of_nat (length fs) /\ y < height /\ x < width) -> py_getitem b (Tuple [n; y; x]) = Ok (Raise (mkExn IndexError None))) /\
  py_getitem b (Tuple [y; x]) = py_getitem b (Tuple [0; y; x]) /\
  (forall i, width * height * Z.of_nat (length fs) <= i -> py_getitem b (At i) = Ok (Raise (mkExn IndexError None))).
Proof. exact python_index_claim. Qed.
Print Assumptions python_index.

Example python_index_witness : contains demo_buffer 3 2 [demo_frame; demo_frame] /\
  py_getitem demo_buffer (Tuple [1; 1; 2]) = Ok (Return (f32_of_Z 6)) /\ py_getitem demo_buffer (Tuple [1; 2; 0]) = Ok (Raise (mkExn IndexError None)).
Proof. exact python_index_example. Qed.

(** C53.  read_image returns such a buffer with the frames of the file, or raises the
    exception that stands for the library's error and keeps no memory. *)
Theorem python_read_image : forall R E Y file t w, env_ok E -> machine_ok Y ->
  exists r w', py_read_image R E Y file t w = Ok (r, w') /\
    ((exists b blk width height fs, r = Return b /\ reads_typed R E Y file (unless_empty t) width height fs /\ contains b width height fs /\ option_map fst (ib_data b) = Some blk /\ holds w' w [blk] []) \/
     (exists e x, r = Raise x /\ reflects e x /\ holds w' w [] [])).
Proof. exact python_read_image_claim. Qed.
Print Assumptions python_read_image.

Example python_read_image_witness : env_ok demo_env /\ machine_ok (system_of demo_host demo_pgm_file) /\
  match py_read_image native_readers demo_env (system_of demo_host demo_pgm_file) "a.pgm" None w0 with Ok (Return b, _) => py_shape b = Some [3; 2] | _ => False end.
Proof. exact python_read_image_example. Qed.

(** C53 as first stated, refuted: a negative index reads before the buffer. *)
Theorem python_negative_refuted : exists b width height fs i, contains b width height fs /\ py_getitem b (At i) = Undef OutOfBounds.
Proof. exact python_negative_refuted_claim. Qed.
Print Assumptions python_negative_refuted.

(** C53.  A negative column reads a sample of the row before. *)
Theorem python_column_refuted : exists b width height fs y x v, contains b width height fs /\ ~ 0 <= x < width /\ py_getitem b (Tuple [0; y; x]) = Ok (Return v).
Proof. exact python_column_refuted_claim. Qed.
Print Assumptions python_column_refuted.

(** C53.  with_dimensions allocates one frame, however many it is asked for: coordinates
    within the dimensions of the buffer are outside its memory. *)
Theorem python_dimensions_refuted : exists E width height nimages n y x w, env_ok E /\ 0 <= n < nimages /\ 0 <= y < height /\ 0 <= x < width /\
  py_getitem (fst (py_with_dimensions E width height nimages w)) (Tuple [n; y; x]) = Undef OutOfBounds.
Proof. exact python_dimensions_refuted_claim. Qed.
Print Assumptions python_dimensions_refuted.

(** C53.  A buffer that was closed and is given to another image is written to where it was. *)
Theorem python_closed_refuted : demo_reopen = Undef OutOfBounds.
Proof. exact python_closed_refuted_claim. Qed.
Print Assumptions python_closed_refuted.

(** C53.  The memory of a buffer given to a second image is lost. *)
Theorem python_reused_refuted : exists w, demo_reuse = Ok w /\ w_live w0 = [] /\ length (w_live w) = 1%nat.
Proof. exact python_reused_refuted_claim. Qed.
Print Assumptions python_reused_refuted.

(** C58.  An array of frames read by the binding is analysed with the size of the image:
    detection on it is detection on the frames. *)
Theorem numpy_frames : forall E b width height fs m d wd, contains b width height fs -> fs <> [] ->
  exists a, py_as_ndarray b = Ok (Return a) /\ nd_ok a /\
    numpy_resdetect E a m d wd = py_resdetect E (Some (concat fs)) (Z.of_nat (length fs)) width height m d wd.
Proof. exact numpy_frames_claim. Qed.
Print Assumptions numpy_frames.

Example numpy_frames_witness : contains demo_buffer 3 2 [demo_frame; demo_frame] /\
  match py_as_ndarray demo_buffer with Ok (Return a) => nd_shape a = [3; 2; 2] | _ => False end.
Proof. exact numpy_frames_example. Qed.

(** C58 for arrays in numpy's order, refuted: they are analysed with width and height
    exchanged. *)
Theorem numpy_rows_refuted : exists E a width height f, env_ok E /\ nd_ok a /\ holds_image a width height f /\
  widths_of (py_resdetect E (Some f) 1 width height None [("range", PyInt 2)] w0) = [3; 4; 7] /\ heights_of (py_resdetect E (Some f) 1 width height None [("range", PyInt 2)] w0) = [5] /\
  widths_of (numpy_resdetect E a None [("range", PyInt 2)] w0) = [5] /\ heights_of (numpy_resdetect E a None [("range", PyInt 2)] w0) = [7].
Proof. exact numpy_rows_refuted_claim. Qed.
Print Assumptions numpy_rows_refuted.

(** C58.  Arrays the binding makes of frames are not in numpy's order either, unless the
    image is square. *)
Theorem numpy_order : forall b width height f a, contains b width height [f] -> py_as_ndarray b = Ok (Return a) -> holds_image a width height f -> width = height.
Proof. exact numpy_order_claim. Qed.
Print Assumptions numpy_order.

Example numpy_order_witness : exists b f a, contains b 2 2 [f] /\ py_as_ndarray b = Ok (Return a) /\ holds_image a 2 2 f.
Proof. exact numpy_order_example. Qed.

(** C58.  Arrays of other element types are read as floats, beyond their end. *)
Theorem numpy_bytes_refuted : exists E a, env_ok E /\ nd_ok a /\ nd_item a = 1 /\ numpy_resdetect E a None [] w0 = Undef OutOfBounds.
Proof. exact numpy_bytes_refuted_claim. Qed.
Print Assumptions numpy_bytes_refuted.

(** C58.  Detection on a PIL image reports the lists of its frames from the current one on,
    with the size of the image, or raises what stands for the library's error. *)
Theorem pil_detect : forall E w h fs pos m d wd p wd1, env_ok E -> NoDup (map fst d) -> 0 <= w < 2^64 -> 0 <= h < 2^64 -> py_parameters E d wd = (Return p, wd1) ->
  let frames := map pl_pixels (skipn pos fs) in
  Forall (fun f => w * h <= Z.of_nat (length f)) frames -> countable frames ->
  exists r wd' leak, pil_resdetect E w h fs pos m d wd = Ok (r, wd') /\ holds wd' wd leak [] /\ leak_ok E leak /\
    ((exists lists, r = Return lists /\ frames <> [] /\ detected E m w h (option_map snd p) frames lists) \/
     (exists e x, r = Raise x /\ reflects e x /\ In e [RDEINVAL; RDETOOBIG; RDENOMEM; RDEINTERNAL; RDENOIMG] /\
        (e = RDENOIMG -> frames = []))).
Proof. exact pil_detect_claim. Qed.
Print Assumptions pil_detect.

Example pil_detect_witness : env_ok demo_env /\ Forall (fun f => 7 * 5 <= Z.of_nat (length f)) (map pl_pixels [mkPil 7 5 demo_image]) /\
  widths_of (pil_resdetect demo_env 7 5 [mkPil 7 5 demo_image; mkPil 7 5 demo_image] 1 None [("range", PyInt 2)] w0) = [3; 4; 7].
Proof. exact pil_detect_example. Qed.

(** C58 for images read through the binding, refuted: read_image_frame_as_pil_image makes
    an image with width and height exchanged, and detection on it misses the resolution. *)
Theorem pil_read_refuted : exists E b width height f a i, env_ok E /\ contains b width height [f] /\ py_as_ndarray b = Ok (Return a) /\ pil_fromarray a = Some i /\
  pl_width i = height /\ pl_height i = width /\ width <> height /\
  widths_of (py_resdetect E (Some f) 1 width height None [("range", PyInt 2)] w0) = [3; 4; 7] /\
  heights_of (pil_resdetect E (pl_width i) (pl_height i) [i] 0 None [("range", PyInt 2)] w0) = [7].
Proof. exact pil_read_refuted_claim. Qed.
Print Assumptions pil_read_refuted.

(** C59.  Detection on pixels long enough returns the lists the library reports for the
    frames, or raises the exception that stands for its error.  Only what the library
    leaks remains allocated. *)
Theorem python_detect : forall E image n w h m d wd p wd1, env_ok E -> NoDup (map fst d) -> 0 <= w < 2^64 -> 0 <= h < 2^64 -> 0 <= n < 2^64 ->
  Z.of_nat (length image) < 2^62 -> n * (w * h) <= Z.of_nat (length image) -> py_parameters E d wd = (Return p, wd1) ->
  let fs := frames_of (Z.to_nat n) (w * h) image in
  exists r wd' leak, py_resdetect E (Some image) n w h m d wd = Ok (r, wd') /\ holds wd' wd leak [] /\ leak_ok E leak /\
   ((exists lists, r = Return lists /\ 1 <= n /\ detected E m w h (option_map snd p) fs lists) \/
    (exists e x, r = Raise x /\ reflects e x /\ (e = RDENOIMG <-> n = 0) /\ In e [RDEINVAL; RDETOOBIG; RDENOMEM; RDEINTERNAL; RDENOIMG] /\
       (e = RDEINVAL -> w = 0 \/ h = 0 \/ ~ Forall (valid_image w h) fs))).
Proof. exact python_detect_claim. Qed.
Print Assumptions python_detect.

Example python_detect_witness : env_ok demo_env /\ NoDup (map fst demo_dict) /\ 1 * (7 * 5) <= Z.of_nat (length demo_image) /\
  widths_of (py_resdetect demo_env (Some demo_image) 1 7 5 None [("range", PyInt 2)] w0) = [3; 4; 7].
Proof. exact python_detect_example. Qed.

(** C59.  Detection on a file: the lists of its frames, or the exception for the error of
    the library's resdetect_file. *)
Theorem python_detect_file : forall R E Y file t m d wd p wd1, env_ok E -> machine_ok Y -> NoDup (map fst d) -> py_parameters E d wd = (Return p, wd1) ->
  exists r wd' leak, py_resdetect_file R E Y file t m d wd = Ok (r, wd') /\ holds wd' wd leak [] /\ leak_ok E leak /\
    ((exists lists width height fs, r = Return lists /\ reads_typed R E Y file (unless_empty t) width height fs /\ fs <> [] /\ detected E m width height (option_map snd p) fs lists) \/
     (exists e x o wd2, r = Raise x /\ reflects e x /\ resdetect_file R E Y (Some file) (unless_empty t) everything m (option_map snd p) no_outs wd1 = Ok (e, o, wd2))).
Proof. exact python_detect_file_claim. Qed.
Print Assumptions python_detect_file.

Example python_detect_file_witness : env_ok demo_env /\ machine_ok (system_of demo_host demo_pgm_file) /\
  widths_of (py_resdetect_file native_readers demo_env (system_of demo_host demo_pgm_file) "a.pgm" None None demo_dict w0) = [3].
Proof. exact python_detect_file_example. Qed.

(** C59.  The program of the README, which reads and analyses frame by frame, returns or
    raises the same as resdetect_file, and keeps nothing either. *)
Theorem python_readme : forall R E Y file w, env_ok E -> machine_ok Y ->
  exists r w1 leak1 w2 leak2, py_example R E Y file w = Ok (r, w1) /\ holds w1 w leak1 [] /\ leak_ok E leak1 /\
    py_resdetect_file R E Y file None None [] w = Ok (r, w2) /\ holds w2 w leak2 [] /\ leak_ok E leak2.
Proof. exact python_readme_claim. Qed.
Print Assumptions python_readme.

Example python_readme_witness : env_ok demo_env /\ machine_ok (system_of demo_host demo_pgm_file) /\
  widths_of (py_example native_readers demo_env (system_of demo_host demo_pgm_file) "a.pgm" w0) = [3].
Proof. exact python_readme_example. Qed.

(** C59.  An analysis answers every series of calls as the library's properties say: images
    that are accepted count, refused ones do not, and results can be asked for repeatedly. *)
Theorem python_session : forall E w h m d cs wd p wd1, env_ok E -> NoDup (map fst d) -> 0 <= w < 2^64 -> 0 <= h < 2^64 -> py_parameters E d wd = (Return p, wd1) ->
  Forall (py_call_ok w h) cs -> countable cs ->
  exists r wd' leak, py_session E w h m d cs wd = Ok (r, wd') /\ holds wd' wd leak [] /\ leak_ok E leak /\
    ((exists rs, r = Return rs /\ py_history E m w h (option_map snd p) [] cs rs) \/
     (exists e x, r = Raise x /\ reflects e x /\ In e [RDEINVAL; RDETOOBIG; RDENOMEM; RDEINTERNAL])).
Proof. exact python_session_claim. Qed.
Print Assumptions python_session.

Example python_session_witness : env_ok demo_env /\ Forall (py_call_ok 7 5) demo_calls /\
  match py_session demo_env 7 5 None [("range", PyInt 2)] demo_calls w0 with
  | Ok (Return [PyLists (Raise x); PyAnalyzed None; PyLists (Return l); PyAnalyzed None; PyLists (Return l')], _) =>
      x_class x = NoImagesError /\ map r_index (fst l) = [3; 4; 7] /\ map r_index (fst l') = [3; 4; 7]
  | _ => False
  end.
Proof. exact python_session_example. Qed.

(** C59 without the condition, refuted: a list shorter than its dimensions say is read
    beyond its end. *)
Theorem python_short_list_refuted : exists E image n w h, env_ok E /\ py_resdetect_list E image n w h None [] w0 = Undef OutOfBounds.
Proof. exact python_short_list_refuted_claim. Qed.
Print Assumptions python_short_list_refuted.

(** C60.  resDetect on pixels long enough returns the lists the library reports for the
    frames and frees everything, or throws an error with the library's code and message,
    or an OutOfMemoryError if a request failed. *)
Theorem js_detect : forall E image n w h m o wd p wd1, env_ok E -> Forall typed (js_settings o) -> 0 <= w < 2^64 -> 0 <= h < 2^64 -> 0 <= n < 2^64 ->
  Z.of_nat (length image) < 2^62 -> n * (w * h) <= Z.of_nat (length image) -> js_parameters E o wd = Ok (JsReturn p, wd1) ->
  let fs := frames_of (Z.to_nat n) (w * h) image in
  exists r wd' held, js_resdetect E image n w h m o wd = Ok (r, wd') /\ holds wd' wd held [] /\
   ((exists lists, r = JsReturn lists /\ 1 <= n /\ held = [] /\ detected E m w h (option_map snd p) fs lists) \/
    (exists e x, r = JsThrow x /\ js_reflects e x /\ leak_ok E held /\ (e = RDENOIMG <-> n = 0) /\ In e [RDEINVAL; RDETOOBIG; RDENOMEM; RDEINTERNAL; RDENOIMG] /\
       (e = RDEINVAL -> w = 0 \/ h = 0 \/ ~ Forall (valid_image w h) fs)) \/
    (r = JsThrow OutOfMemoryError /\ exists k, e_alloc E k = false)).
Proof. exact js_detect_claim. Qed.
Print Assumptions js_detect.

Example js_detect_witness : env_ok demo_env /\ Forall typed (js_settings demo_object) /\
  match js_resdetect demo_env demo_image 1 7 5 None demo_object w0 with Ok (JsReturn l, wd) => map r_index (fst l) = [3; 4; 2; 7] /\ w_live wd = [] | _ => False end.
Proof. exact js_detect_example. Qed.

(** C60.  A new Analysis is one of the library, or its error is thrown. *)
Theorem js_analysis_created : forall E w h m o wd p wd1, env_ok E -> Forall typed (js_settings o) -> 0 <= w < 2^64 -> 0 <= h < 2^64 -> js_parameters E o wd = Ok (JsReturn p, wd1) ->
  client_ok E w h (option_map snd p) /\
  exists r wd' held, js_new_analysis E w h m o wd = Ok (r, wd') /\ holds wd' wd held [] /\
    ((exists a, r = JsReturn a /\ reaches E m w h (option_map snd p) [] a /\ held = an_blocks a) \/
     (exists e x, r = JsThrow x /\ js_reflects e x /\ In e [RDEINVAL; RDETOOBIG; RDENOMEM; RDEINTERNAL] /\ leak_ok E held) \/
     (r = JsThrow OutOfMemoryError /\ exists k, e_alloc E k = false)).
Proof. exact js_analysis_created_claim. Qed.
Print Assumptions js_analysis_created.

Example js_analysis_created_witness : env_ok demo_env /\ match js_new_analysis demo_env 7 5 None demo_object w0 with Ok (JsReturn _, _) => True | _ => False end.
Proof. exact js_analysis_created_example. Qed.

(** C60.  analyzeImage adds a valid image and refuses another, and keeps no memory. *)
Theorem js_analyze_image : forall E m w h p imgs a image wd, client_ok E w h p -> reaches E m w h p imgs a -> countable imgs -> w * h <= Z.of_nat (length image) ->
  exists r a' wd', js_analyze E (Some a) image wd = Ok (r, Some a', wd') /\ holds wd' wd [] [] /\ an_blocks a' = an_blocks a /\
    ((valid_image w h image /\ r = JsReturn tt /\ reaches E m w h p (imgs ++ [image]) a') \/
     (~ valid_image w h image /\ (exists x, r = JsThrow x /\ js_reflects RDEINVAL x) /\ reaches E m w h p imgs a') \/
     ((exists k, e_alloc E k = false) /\ used_method m = Morig /\ exists x, r = JsThrow x /\ js_reflects RDENOMEM x) \/
     ((exists k, e_alloc E k = false) /\ r = JsThrow OutOfMemoryError /\ a' = a)).
Proof. exact js_analyze_image_claim. Qed.
Print Assumptions js_analyze_image.

Example js_analyze_image_witness : exists a, client_ok demo_env 7 5 demo_params /\ reaches demo_env None 7 5 demo_params [] a /\ 7 * 5 <= Z.of_nat (length demo_image).
Proof. exact js_analyze_image_example. Qed.

(** C60.  analysisResults returns the lists of the images, or throws. *)
Theorem js_analysis_results : forall E m w h p imgs a wd, client_ok E w h p -> reaches E m w h p imgs a -> countable imgs ->
  exists r wd' held, js_results E (Some a) wd = Ok (r, wd') /\ holds wd' wd held [] /\
    ((exists lists, r = JsReturn lists /\ held = [] /\ imgs <> [] /\ reported E m w h p imgs (seen_x E w h imgs) w (fst lists) /\ reported E m w h p imgs (seen_y E w h imgs) h (snd lists)) \/
     (imgs = [] /\ held = [] /\ exists x, r = JsThrow x /\ js_reflects RDENOIMG x) \/
     ((exists k, e_alloc E k = false) /\ held = [] /\ exists x, r = JsThrow x /\ js_reflects RDENOMEM x) \/
     ((exists k, e_alloc E k = false) /\ r = JsThrow OutOfMemoryError)).
Proof. exact js_analysis_results_claim. Qed.
Print Assumptions js_analysis_results.

Example js_analysis_results_witness : match js_new_analysis demo_env 7 5 None demo_object w0 with
  | Ok (JsReturn a, w) =>
      match js_analyze demo_env (Some a) demo_image w with
      | Ok (JsReturn _, a, w) => match js_results demo_env a w with Ok (JsReturn l, _) => map r_index (fst l) = [3; 4; 2; 7] | _ => False end
      | _ => False
      end
  | _ => False end.
Proof. exact js_analysis_results_example. Qed.

(** C60.  When a request of the binding fails, what it had allocated before is lost. *)
Theorem js_memory_leak_refuted : exists E image n w h wd, env_ok E /\ n * (w * h) <= Z.of_nat (length image) /\
  js_resdetect E image n w h None (mkJs None None None false) w0 = Ok (JsThrow OutOfMemoryError, wd) /\ w_live w0 = [] /\ length (w_live wd) = 3%nat.
Proof. exact js_memory_leak_refuted_claim. Qed.
Print Assumptions js_memory_leak_refuted.
