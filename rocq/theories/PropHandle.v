(**     Properties C75 to C77: image objects, method objects and iteration in the bindings. *)
From Coq Require Import String.
From Flocq Require Import IEEE754.Binary IEEE754.Bits.
From Verif Require Import Base Flt Util Methods Analysis Resdetect History Spec SpecAnalysis SpecUtil SpecReport Stdio Pgm Pfm Y4m Image ImageHistory SpecImage SpecFormats Cli SpecCli Tools SpecTools Bindings SpecBindings Handles SpecHandles Demo DemoImages DemoFormats.
From Verif Require Import BaseProofs FileProofs AnalysisClaims CliClaims BindingClaims HandleProofs HandleMore.
Open Scope string_scope.
Open Scope list_scope.
Open Scope Z_scope.
From Verif Require Import HandleClaims.

(** C75.  A well-formed file opened in Python with a buffer: every sequence of reads, seeks
    and closes gets the replies that belong to its frames.  A read puts the next frame into
    the buffer and returns True, or returns False after the last one.  A seek skips frames,
    tells the callback 1, 2, ... for the frames passed, and returns False if there are too
    few.  Calls on a closed image raise.  Otherwise opening raises, because memory ran out
    or because the image is over the limit.  Nothing stays allocated or open. *)
Theorem python_film : forall R E Y f w s width height name limit fs cs,
  env_ok E -> machine_ok Y -> provides R name -> delivers Y f s ->
  1 <= width <= SIZE_MAX -> 1 <= height <= SIZE_MAX -> film E (y_host Y) width height (s_rest s) name limit fs -> py_film_calls E name width height s cs ->
  exists r w', py_image_session R E Y f None (Some name) cs w = Ok (r, w') /\ holds w' w [] [] /\
    ((limit /\ exists rs, r = Return rs /\ py_shows (film_end name s) true fs (repeat None (Z.to_nat (width * height))) cs rs) \/
     (exists e x, r = Raise x /\ reflects e x /\ ((e = RDENOMEM /\ exists k, e_alloc E k = false) \/ (e = RDETOOBIG /\ ~ limit)))).
Proof. exact python_film_claim. Qed.
Print Assumptions python_film.

Example python_film_witness :
  env_ok demo_env /\ machine_ok film_machine /\ provides native_readers "Y4M" /\ delivers film_machine "a.y4m" (file_of demo_y4m_file) /\
  film demo_env demo_host 2 2 demo_y4m_file "Y4M" (y4m_within demo_env 2 2 S420 8) film_frames /\
  py_film_calls demo_env "Y4M" 2 2 (file_of demo_y4m_file) [PySeek (PyInt 1) true; PyRead; PyRead; PySeek PyOther true; PyClose; PyRead] /\
  sees (py_image_session native_readers demo_env film_machine "a.y4m" None (Some "Y4M") [PySeek (PyInt 1) true; PyRead; PyRead; PySeek PyOther true; PyClose; PyRead] w0) =
    Some ([SawSeek (Return true) [1]; SawFrame (Return true) (bits (map value_of [255; 0; 51; 102])); SawFrame (Return false) (bits (map value_of [255; 0; 51; 102]));
           SawSeek (Raise (mkExn ArgumentError None)) []; SawClosed; SawFrame (Raise (mkExn ParameterError (Some (Msg "Parameter missing or invalid")))) (bits (map value_of [255; 0; 51; 102]))], [], []).
Proof. exact python_film_example. Qed.

(** C75.  On any file the replies belong to the calls in kind and order, every exception is
    the one for an error code of the library, and nothing stays allocated or open. *)
Theorem python_image_session : forall R E Y f t name cs w, env_ok E -> machine_ok Y ->
  exists r w', py_image_session R E Y f t name cs w = Ok (r, w') /\ holds w' w [] [] /\
    ((exists rs, r = Return rs /\ py_series true cs rs) \/ (exists e x, r = Raise x /\ reflects e x)).
Proof. exact python_image_session_claim. Qed.
Print Assumptions python_image_session.

Example python_image_session_witness : env_ok demo_env /\ machine_ok film_machine /\
  sees (py_image_session native_readers demo_env film_machine "a.y4m" (Some "y4m") None [PyRead; PyClose] w0) =
    Some ([SawFrame (Return true) (bits (map value_of [0; 51; 102; 255])); SawClosed], [], []) /\
  match py_image_session native_readers demo_env film_machine "a.y4m" None (Some "PGM") [PyRead; PyClose] w0 with
  | Ok (Raise x, _) => x = mkExn InvalidImageError (Some (Msg "Invalid image"))
  | _ => False
  end.
Proof. exact python_image_session_example. Qed.

(** C75, finding: a negative offset is not rejected.  It is taken modulo 2^64, so the seek
    passes every frame of the file, tells the callback so, and nothing is left to read. *)
Theorem python_negative_seek : forall R E Y f w s width height name limit fs z,
  env_ok E -> machine_ok Y -> provides R name -> delivers Y f s ->
  1 <= width <= SIZE_MAX -> 1 <= height <= SIZE_MAX -> film E (y_host Y) width height (s_rest s) name limit fs ->
  py_film_calls E name width height s [PySeek (PyInt z) true; PyRead] -> film_end name s = RDEOK ->
  -2^63 <= z < 0 -> Z.of_nat (length fs) < 2^63 ->
  exists r w', py_image_session R E Y f None (Some name) [PySeek (PyInt z) true; PyRead] w = Ok (r, w') /\ holds w' w [] [] /\
    (r = Return [PySought (Return false) (zrange 1 (Z.of_nat (length fs) + 1)); PyFrame (Return false) (repeat None (Z.to_nat (width * height)))] \/
     (exists e x, r = Raise x /\ reflects e x /\ ((e = RDENOMEM /\ exists k, e_alloc E k = false) \/ (e = RDETOOBIG /\ ~ limit)))).
Proof. exact python_negative_seek_claim. Qed.
Print Assumptions python_negative_seek.

Example python_negative_seek_witness :
  env_ok demo_env /\ machine_ok film_machine /\ provides native_readers "Y4M" /\ delivers film_machine "a.y4m" (file_of demo_y4m_file) /\
  film demo_env demo_host 2 2 demo_y4m_file "Y4M" (y4m_within demo_env 2 2 S420 8) film_frames /\ film_end "Y4M" (file_of demo_y4m_file) = RDEOK /\
  py_film_calls demo_env "Y4M" 2 2 (file_of demo_y4m_file) [PySeek (PyInt (-1)) true; PyRead] /\ zrange 1 (Z.of_nat (length film_frames) + 1) = [1; 2].
Proof. exact python_negative_seek_example. Qed.

(** C76.  methods() in both languages lists one object per method of the library, in its
    order, whatever the address of the table and for pointers of 4 and 8 bytes.  Each has
    the name and threshold of its method, and passing it to a function passes that
    method. *)
Theorem method_lists : forall p base, pointer_size p ->
  (exists l, py_methods p base = Ok l /\ map mo_name l = method_names /\ Forall2 (describes p base) l resdet_methods) /\
  (exists l, js_methods base = Ok l /\ map mo_name l = method_names /\ Forall2 (describes 4 base) l resdet_methods).
Proof. exact method_lists_claim. Qed.
Print Assumptions method_lists.

Example method_lists_witness : pointer_size 8 /\
  match py_methods 8 4096 with Ok l => map (fun o => (mo_name o, mo_pointer o)) l = [("sign", 4096); ("mag", 4120); ("orig", 4144); ("zerox", 4168)] | _ => False end.
Proof. exact method_lists_example. Qed.

(** C76.  Method.get in both languages returns the object of the list with this name, or
    None and undefined if there is no such method. *)
Theorem method_get : forall p base name, pointer_size p ->
  ((exists l o, In name method_names /\ py_methods p base = Ok l /\ py_get_method p base name = Ok (Some o) /\ In o l /\ mo_name o = name) \/
   (~ In name method_names /\ py_get_method p base name = Ok None)) /\
  ((exists l o, In name method_names /\ js_methods base = Ok l /\ js_get_method base name = Ok (Some o) /\ In o l /\ mo_name o = name) \/
   (~ In name method_names /\ js_get_method base name = Ok None)).
Proof. exact method_get_claim. Qed.
Print Assumptions method_get.

Example method_get_witness : pointer_size 4 /\ In "zerox" method_names /\ ~ In "Sign" method_names.
Proof. exact method_get_example. Qed.

(** C76, finding: an unknown method name is not an error.  What Method.get returns for it
    makes every function use the default method, as Method.get("sign") does. *)
Theorem unknown_method : forall p base name o s, pointer_size p -> ~ In name method_names ->
  py_get_method p base name = Ok o -> py_get_method p base "sign" = Ok (Some s) ->
  (forall E image n width height d wd,
     py_resdetect E image n width height (method_arg p base o) d wd = py_resdetect E image n width height (method_arg p base (Some s)) d wd) /\
  (forall R E Y f t d wd, py_resdetect_file R E Y f t (method_arg p base o) d wd = py_resdetect_file R E Y f t (method_arg p base (Some s)) d wd) /\
  (forall E width height d wd, py_new_analysis E width height (method_arg p base o) d wd = py_new_analysis E width height (method_arg p base (Some s)) d wd).
Proof. exact unknown_method_claim. Qed.
Print Assumptions unknown_method.

Example unknown_method_witness : exists s, pointer_size 8 /\ ~ In "Mag" method_names /\ py_get_method 8 4096 "Mag" = Ok None /\ py_get_method 8 4096 "sign" = Ok (Some s).
Proof. exact unknown_method_example. Qed.

(** C76.  list_image_readers() in Python is the list of the library, up to its NULL. *)
Theorem python_readers : forall R, py_list_image_readers R = Ok (resdet_list_image_readers R).
Proof. exact python_readers_claim. Qed.
Print Assumptions python_readers.

Example python_readers_witness : py_list_image_readers native_readers = Ok ["PGM"; "PFM"; "Y4M"].
Proof. exact python_readers_example. Qed.

(** C77.  Iterating over resdet_numpy.Image of a well-formed file gives one array per frame,
    in order, each a copy with the samples of its frame. *)
Theorem numpy_film : forall R E Y f w s width height name limit fs, env_ok E -> machine_ok Y -> provides R name -> delivers Y f s ->
  1 <= width <= SIZE_MAX -> 1 <= height <= SIZE_MAX -> film E (y_host Y) width height (s_rest s) name limit fs ->
  exists r w', numpy_iterate R E Y f None (Some name) w = Ok (r, w') /\ holds w' w [] [] /\
    ((limit /\ exists x, r = Return (map (mkNd [width; height] 4) fs, x) /\ ended (film_end name s) x) \/
     (exists e x, r = Raise x /\ reflects e x /\ ((e = RDENOMEM /\ exists k, e_alloc E k = false) \/ (e = RDETOOBIG /\ ~ limit)))).
Proof. exact numpy_film_claim. Qed.
Print Assumptions numpy_film.

Example numpy_film_witness : y4m_within demo_env 2 2 S420 8 /\ (forall k, e_alloc demo_env k = true) /\ length film_frames = 2%nat /\
  match numpy_iterate native_readers demo_env film_machine "a.y4m" None (Some "Y4M") w0 with
  | Ok (Return (l, None), w) => map (fun a => (nd_shape a, bits (nd_floats a))) l = map (fun f => ([2; 2], bits f)) film_frames /\ w_live w = [] /\ w_files w = []
  | _ => False
  end.
Proof. exact numpy_film_example. Qed.

(** C77.  On any file that opens, iteration gives exactly the frames of the image, and ends
    with an exception if and only if reading ended with an error. *)
Theorem numpy_iteration : forall R E Y f t name w, env_ok E -> machine_ok Y ->
  exists r w', numpy_iterate R E Y f t name w = Ok (r, w') /\ holds w' w [] [] /\
    ((exists width height fs er x, r = Return (map (mkNd [width; height] 4) fs, x) /\ opens_to R E Y f t name width height fs er /\ ended er x) \/
     (exists e x, r = Raise x /\ reflects e x)).
Proof. exact numpy_iteration_claim. Qed.
Print Assumptions numpy_iteration.

Example numpy_iteration_witness : env_ok demo_env /\ machine_ok film_machine.
Proof. exact numpy_iteration_example. Qed.

(** C77.  The same for resdet_PIL.Image, whose images have the height of the frame as their
    width and the width as their height. *)
Theorem pil_iteration : forall R E Y f t name w, env_ok E -> machine_ok Y ->
  exists r w', pil_iterate R E Y f t name w = Ok (r, w') /\ holds w' w [] [] /\
    ((exists width height fs er x, r = Return (map (fun f => Some (mkPil height width f)) fs, x) /\ opens_to R E Y f t name width height fs er /\ ended er x) \/
     (exists e x, r = Raise x /\ reflects e x)).
Proof. exact pil_iteration_claim. Qed.
Print Assumptions pil_iteration.

Example pil_iteration_witness : match pil_iterate native_readers demo_env (system_of demo_host demo_pgm_file) "a.pgm" None None w0 with
  | Ok (Return ([Some p], None), _) => pl_width p = 2 /\ pl_height p = 3
  | _ => False
  end.
Proof. exact pil_iteration_example. Qed.

(** C77.  list(buffer) is the samples of the frames in the buffer, in order. *)
Theorem buffer_list : forall b width height fs, contains b width height fs -> py_list_buffer b = Ok (Return (concat fs)).
Proof. exact buffer_list_claim. Qed.
Print Assumptions buffer_list.

Example buffer_list_witness : contains demo_buffer 3 2 [demo_frame; demo_frame] /\
  match py_list_buffer demo_buffer with Ok (Return l) => bits l = bits (demo_frame ++ demo_frame) | _ => False end.
Proof. exact buffer_list_example. Qed.
