(** The tests of test/bindings/python/test_resdet.py and test/bindings/emscripten/resdet.test.js
    on the model, except those of the version.  Each example has the name of its test. *)
From Coq Require Import String.
From Flocq Require Import IEEE754.Binary IEEE754.Bits.
From Verif Require Import Base Flt Util Methods Analysis Stdio Pgm Pfm Y4m Image ImageHistory Bindings Handles Demo DemoImages SuiteFiles.
Open Scope string_scope.
Open Scope list_scope.
Open Scope Z_scope.

Definition S0 : system := suite_system [].
Definition floats (l : list Z) : list f32 := map f32_of_Z l.
Definition shown (l : list f32) : list Z := map bits_of_b32 l.
Definition ones (l : list Z) : list Z := shown (floats l).
Definition test_file : string := "test/files/checkerboard.pfm".
Definition frame1 : list Z := [1; 0; 0; 1].
Definition frame2 : list Z := [0; 1; 1; 0].

(** * test_resdet.py *)
(** the result of a detection, in numbers, or the exception *)
Definition told (l : list rdres) : list (Z * Z) := map (fun r => (r_index r, bits_of_b32 (r_conf r))) l.
Definition finds (r : res (py both * world)) : res (py (list (Z * Z) * list (Z * Z)) * (list nat * list nat)) :=
  '(r, w) <- r ;; Ok (match r with Return (a, b) => Return (told a, told b) | Raise x => Raise x end, (w_live w, w_files w)).
Definition widths_found (r : res (py both * world)) : option nat :=
  match r with Ok (Return (a, _), _) => Some (length a) | _ => None end.
(** test_file_resolution_dict *)
Definition only_two : res (py (list (Z * Z) * list (Z * Z)) * (list nat * list nat)) :=
  Ok (Return ([(2, bits_of_b32 (f32_of_Z (-1)))], [(2, bits_of_b32 (f32_of_Z (-1)))]), ([], [])).
(** resdetect(list, nimages, width, height, parameters = d) *)
Definition detect (l : list Z) (n width height : Z) (d : dict) : res (py both * world) :=
  py_resdetect_list demo_env (floats l) n width height None d w0.

Example test_get_method : match py_get_method 8 4096 "zerox" with Ok (Some m) => mo_name m = "zerox" | _ => False end.
Proof. vm_compute. reflexivity. Qed.
Example test_methods : match py_methods 8 4096 with Ok l => map mo_name l = ["sign"; "mag"; "orig"; "zerox"] | _ => False end.
Proof. vm_compute. reflexivity. Qed.
Example test_sets_parameters :
  widths_found (detect [0; 1; 0; 1] 1 4 1 []) = Some 1%nat /\
  widths_found (detect [0; 1; 0; 1] 1 4 1 [("range", PyInt 1); ("threshold", PyInt 0)]) = Some 3%nat /\
  widths_found (detect [0; 1; 0; 1] 1 4 1 [("range", PyInt 1); ("threshold", PyInt 0); ("compression_filter", PyInt 2)]) = Some 2%nat.
Proof. split; [|split]; vm_compute; reflexivity. Qed.
Definition class_of {A} (r : res (py A * world)) : option exn_class := match r with Ok (Raise x, _) => Some (x_class x) | _ => None end.
Example test_raises_invalid_image_error : class_of (detect [1] 1 0 0 []) = Some InvalidImageError.
Proof. vm_compute. reflexivity. Qed.
Example test_raises_no_images_error : class_of (detect [1] 0 1 1 []) = Some NoImagesError.
Proof. vm_compute. reflexivity. Qed.
Definition first_of {A B} (r : res (A * B * world)) : res (A * world) := '(a, _, w) <- r ;; Ok (a, w).
(** FileNotFoundError is the OSError with ENOENT *)
Example test_raises_file_not_found_error :
  class_of (py_resdetect_file native_readers demo_env S0 "doesntexist.pgm" None None [] w0) = Some (OSError ENOENT) /\
  class_of (first_of (py_open_image native_readers demo_env S0 "doesntexist.pgm" None None py_empty_buffer w0)) = Some (OSError ENOENT).
Proof. split; vm_compute; reflexivity. Qed.
Example test_raises_with_unrecognized_parameter : class_of (detect [1] 1 1 1 [("unrecognized", PyInt 1)]) = Some Exception_.
Proof. vm_compute. reflexivity. Qed.
Example test_resdetect_list : finds (detect frame1 1 2 2 []) = only_two.
Proof. vm_compute. reflexivity. Qed.
Example test_resdetect_array : finds (py_resdetect demo_env (Some (floats frame1)) 1 2 2 None [] w0) = only_two.
Proof. vm_compute. reflexivity. Qed.
(** an image with a buffer, the first frame read, and what is done with the samples *)
Definition with_frame {A} (f : list f32 -> world -> res (A * world)) : res (A * world) :=
  '(im, b, w) <- py_open_image native_readers demo_env S0 test_file None None py_empty_buffer w0 ;;
  match im with
  | Raise _ => Undef NullDeref
  | Return im =>
      '(r, im, b) <- py_read_frame S0 im b ;;
      match r with
      | Return true =>
          l <- filled (match ib_data b with Some (_, l) => l | None => [] end) ;;
          '(r, w) <- f l w ;;
          '(_, w) <- py_close_image (Some im) w ;;
          '(_, w) <- py_close_buffer b w ;;
          Ok (r, w)
      | _ => Undef NullDeref
      end
  end.
Example test_resdetect_image_buffer : finds (with_frame (fun l w => py_resdetect demo_env (Some l) 1 2 2 None [] w)) = only_two.
Proof. vm_compute. reflexivity. Qed.
Definition analyzes (width height : Z) (l : list f32) (w : world) : res (py both * world) :=
  '(a, w) <- py_new_analysis demo_env width height None [] w ;;
  match a with
  | Raise x => Ok (Raise x, w)
  | Return a =>
      '(x, a, w) <- py_analyze demo_env (Some a) (Some l) w ;;
      '(r, w) <- (match x with Some x => Ok (Raise x, w) | None => py_results demo_env a w end) ;;
      w <- resdet_destroy_analysis a w ;;
      Ok (r, w)
  end.
Example test_analyzes_image_buffer : finds (with_frame (analyzes 2 2)) = only_two.
Proof. vm_compute. reflexivity. Qed.
Example test_analyzes_list : finds (analyzes 2 2 (floats frame1) w0) = only_two.
Proof. vm_compute. reflexivity. Qed.
Example test_lists_image_readers_in_python : match py_list_image_readers native_readers with Ok l => hd_error l = Some "PGM" | _ => False end.
Proof. reflexivity. Qed.
Example test_seeks_in_image :
  match py_image_session native_readers demo_env S0 test_file None None [PySeek (PyInt 2) true] w0 with
  | Ok (Return [PySought (Return true) frames], w) => frames = [1; 2] /\ w_live w = [] /\ w_files w = []
  | _ => False
  end.
Proof. vm_compute. auto. Qed.
Definition opens (t name : option string) : option exn_class :=
  class_of (py_image_session native_readers demo_env S0 "test/files/checkerboard" t name [] w0).
Example test_opens_image_by_type : opens (Some "pfm") None = None.
Proof. vm_compute. reflexivity. Qed.
Example test_opens_image_with_reader : opens None (Some "PFM") = None.
Proof. vm_compute. reflexivity. Qed.
Example test_wrong_image_reader_raises : opens None (Some "PGM") = Some InvalidImageError.
Proof. vm_compute. reflexivity. Qed.

Definition with_image {A} (f : imagebuffer -> A) (d : A) : A :=
  match py_read_image native_readers demo_env S0 test_file None w0 with Ok (Return b, _) => f b | _ => d end.
Definition listed (b : imagebuffer) : option (list Z) := match py_list_buffer b with Ok (Return l) => Some (shown l) | _ => None end.
Example test_reads_image : with_image (fun b => (py_shape b, listed b)) (None, None) = (Some [2; 2; 2], Some (ones (frame1 ++ frame2))).
Proof. vm_compute. reflexivity. Qed.
Definition item (i : py_index) : option (Z + exn_class) :=
  with_image (fun b => match py_getitem b i with Ok (Return v) => Some (inl (bits_of_b32 v)) | Ok (Raise x) => Some (inr (x_class x)) | _ => None end) None.
Definition one : option (Z + exn_class) := Some (inl (bits_of_b32 (f32_of_Z 1))).
Example test_buffer_elements_are_accessible_by_integer_index : item (At 0) = one /\ item (At 8) = Some (inr IndexError).
Proof. split; vm_compute; reflexivity. Qed.
Example test_buffer_elements_are_accessible_by_tuple_index :
  item (Tuple [1; 1]) = one /\ item (Tuple [1; 1; 0]) = one /\
  item (Tuple [2; 0]) = Some (inr IndexError) /\ item (Tuple [0; 2]) = Some (inr IndexError) /\ item (Tuple [2; 0; 0]) = Some (inr IndexError) /\
  item (Tuple [0; 0; 0; 0]) = Some (inr Exception_).
Proof. repeat split; vm_compute; reflexivity. Qed.
(** the shape and samples of a buffer after a frame was read into it *)
Definition read_into (dimensions : option (Z * Z)) : option (option (list Z) * option (list Z)) :=
  let '(b, w) := match dimensions with Some (x, y) => py_with_dimensions demo_env x y 1 w0 | None => (py_empty_buffer, w0) end in
  match py_open_image native_readers demo_env S0 test_file None None b w with
  | Ok (Return im, b', _) =>
      match py_read_frame S0 im (match dimensions with Some _ => b | None => b' end) with
      | Ok (Return true, _, b) => Some (py_shape b, listed b)
      | _ => None
      end
  | _ => None
  end.
Example test_reads_image_from_input_buffer : read_into None = Some (Some [2; 2], Some (ones frame1)).
Proof. vm_compute. reflexivity. Qed.
Example test_reads_image_from_allocated_buffer : read_into (Some (2, 2)) = Some (Some [2; 2], Some (ones frame1)).
Proof. vm_compute. reflexivity. Qed.
Example test_read_image_frame_reads_all_frames :
  match py_image_session native_readers demo_env S0 test_file None None [PyRead; PyRead; PyRead] w0 with
  | Ok (Return [PyFrame (Return true) a; PyFrame (Return true) b; PyFrame (Return false) _], w) =>
      pattern a = checkerboard frame1 /\ pattern b = checkerboard frame2 /\ w_live w = [] /\ w_files w = []
  | _ => False
  end.
Proof. vm_compute. auto. Qed.

(** ** TestResdetNumPy *)
(** The array of the first two tests has integers of 8 bytes.  The binding passes its memory
    as floats, so the library sees 1.4e-45, 0, 0, 0; the tests pass because an image as small
    as this is not analysed. *)
Definition numpy_array : ndarray := mkNd [2; 2] 8 (map b32_of_bits [1; 0; 0; 0; 0; 0; 1; 0]).
Example test_resdetect_numpy_array : finds (numpy_resdetect demo_env numpy_array None [] w0) = only_two.
Proof. vm_compute. reflexivity. Qed.
Example test_analyzes_numpy_array : finds (analyzes 2 2 (nd_floats numpy_array) w0) = only_two.
Proof. vm_compute. reflexivity. Qed.
Example test_enumerates_numpy_array :
  match numpy_iterate native_readers demo_env S0 test_file None None w0 with
  | Ok (Return (l, None), w) => map (fun a => (nd_shape a, shown (nd_floats a))) l = [([2; 2], ones frame1); ([2; 2], ones frame2)] /\ w_live w = []
  | _ => False
  end.
Proof. vm_compute. auto. Qed.

(** ** TestResdetPIL *)
Definition pil_image : pil := mkPil 2 2 (map f32_of_Z [255; 0; 0; 255]).
Example test_resdetect_PIL_image : finds (pil_resdetect demo_env 2 2 [pil_image] 0 None [] w0) = only_two.
Proof. vm_compute. reflexivity. Qed.
Example test_enumerates_PIL_array :
  match pil_iterate native_readers demo_env S0 test_file None None w0 with
  | Ok (Return (l, None), w) => map (option_map (fun p => shown (pl_pixels p))) l = [Some (ones frame1); Some (ones frame2)]
  | _ => False
  end.
Proof. vm_compute. auto. Qed.

(** * resdet.test.js *)
Definition js_finds (r : res (js both * world)) : res (js (list (Z * Z) * list (Z * Z)) * (list nat * list nat)) :=
  '(r, w) <- r ;; Ok (match r with JsReturn (a, b) => JsReturn (told a, told b) | JsThrow x => JsThrow x end, (w_live w, w_files w)).
Definition js_only_two : res (js (list (Z * Z) * list (Z * Z)) * (list nat * list nat)) :=
  Ok (JsReturn ([(2, bits_of_b32 (f32_of_Z (-1)))], [(2, bits_of_b32 (f32_of_Z (-1)))]), ([], [])).
Definition no_options : js_params := mkJs None None None false.
Definition js_detect (l : list Z) (n width height : Z) (o : js_params) : res (js both * world) :=
  js_resdetect demo_env (floats l) n width height None o w0.
Definition js_widths (r : res (js both * world)) : option nat := match r with Ok (JsReturn (a, _), _) => Some (length a) | _ => None end.
Definition thrown {A} (r : res (js A * world)) : option js_error := match r with Ok (JsThrow x, _) => Some x | _ => None end.

Example methods : match js_methods 1024 with Ok l => map mo_name l = ["sign"; "mag"; "orig"; "zerox"] | _ => False end.
Proof. vm_compute. reflexivity. Qed.
Example gets_method : match js_get_method 1024 "zerox" with Ok (Some m) => mo_name m = "zerox" | _ => False end.
Proof. vm_compute. reflexivity. Qed.
Example detects_resolutions : js_finds (js_detect frame1 1 2 2 no_options) = js_only_two.
Proof. vm_compute. reflexivity. Qed.
Example sets_parameters :
  js_widths (js_detect [0; 1; 0; 1] 1 4 1 no_options) = Some 1%nat /\
  js_widths (js_detect [0; 1; 0; 1] 1 4 1 (mkJs (Some 1) (Some (f64_of_Z 0)) None false)) = Some 3%nat /\
  js_widths (js_detect [0; 1; 0; 1] 1 4 1 (mkJs (Some 1) (Some (f64_of_Z 0)) (Some 4) false)) = Some 2%nat.
Proof. split; [|split]; vm_compute; reflexivity. Qed.
Example raises_invalid_image_error : thrown (js_detect [1] 1 0 0 no_options) = Some (RDError RDEINVAL (Msg "Invalid image")).
Proof. vm_compute. reflexivity. Qed.
Example raises_no_images_error : thrown (js_detect [1] 0 1 1 no_options) = Some (RDError RDENOIMG (Msg "No images were analyzed")).
Proof. vm_compute. reflexivity. Qed.
Example raises_with_unrecognized_parameter : thrown (js_detect [1] 1 1 1 (mkJs None None None true)) = Some PlainError.
Proof. vm_compute. reflexivity. Qed.
Example analyzes_resolutions :
  js_finds ('(a, w) <- js_new_analysis demo_env 2 2 None no_options w0 ;;
            match a with
            | JsThrow x => Ok (JsThrow x, w)
            | JsReturn a =>
                '(_, a, w) <- js_analyze demo_env (Some a) (floats frame1) w ;;
                '(r, w) <- js_results demo_env a w ;;
                w <- resdet_destroy_analysis a w ;;
                Ok (r, w)
            end) = js_only_two.
Proof. vm_compute. reflexivity. Qed.
