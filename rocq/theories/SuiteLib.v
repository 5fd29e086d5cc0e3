(** The tests of test/lib on the model: test_utils.c, test_analysis.c, test_resdetect.c,
    test_resdetect_file.c and test_image.c, except those that need the sample photograph
    and the version.  Each example has the name of its test. *)
From Coq Require Import Ascii String.
From Flocq Require Import IEEE754.Binary IEEE754.Bits.
From Verif Require Import Base Flt Util Methods Analysis Resdetect History Stdio Pgm Pfm Y4m Image ImageHistory Demo DemoImages SuiteFiles.
Open Scope list_scope.
Open Scope Z_scope.

(** * test_utils.c *)
Example test_resdet_error_str_returns_error_message : resdet_error_str RDENOMEM = Ok (Msg "Out of memory").
Proof. reflexivity. Qed.
Example test_resdet_error_str_returns_errno_message : resdet_error_str (-34) = Ok (SysMsg 34).
Proof. reflexivity. Qed.
Example test_resdet_error_str_returns_null_on_unknown_error : resdet_error_str (resdet_get_max_error + 1) = Ok NoMsg.
Proof. reflexivity. Qed.
Example test_all_rderror_values_return_an_error_message :
  map (fun e => match resdet_error_str (Z.of_nat e) with Ok (Msg _) => true | _ => false end)
    (seq 0 (S (Z.to_nat resdet_get_max_error))) = repeat true 8.
Proof. reflexivity. Qed.
Example test_methods_return_sign_by_default : option_map method_name (hd_error resdet_methods) = Some "sign"%string.
Proof. reflexivity. Qed.
Example test_get_method_returns_sign_method : option_map method_name (resdet_get_method (Some "sign"%string)) = Some "sign"%string.
Proof. reflexivity. Qed.
Example test_returns_default_range : resdet_default_range default_config <> 0.
Proof. discriminate. Qed.
Definition some_params : option params := Some (default_params default_config).
Example test_sets_range : fst (resdet_parameters_set_range some_params 10) = RDEOK.
Proof. reflexivity. Qed.
Example test_sets_threshold : fst (resdet_parameters_set_threshold some_params (f32_of_Z 0)) = RDEOK.
Proof. reflexivity. Qed.
Example test_zero_range_returns_error : fst (resdet_parameters_set_range some_params 0) = RDEPARAM.
Proof. reflexivity. Qed.
Example test_negative_threshold_returns_error : fst (resdet_parameters_set_threshold some_params (f32_of_Z (-1))) = RDEPARAM.
Proof. reflexivity. Qed.
Example test_setting_threshold_with_no_params_returns_error : fst (resdet_parameters_set_threshold None (f32_of_Z 0)) = RDEPARAM.
Proof. reflexivity. Qed.
Example test_setting_range_with_no_params_returns_error : fst (resdet_parameters_set_range None 10) = RDEPARAM.
Proof. reflexivity. Qed.

(** * test_analysis.c *)
Definition created (width height : Z) : res (bool * Z) :=
  '(a, e, w) <- resdet_create_analysis demo_env None width height None w0 ;;
  Ok (match a with Some _ => true | None => false end, e).
Example test_creates_analysis : created 768 768 = Ok (true, RDEOK).
Proof. vm_compute. reflexivity. Qed.
Example test_create_analysis_returns_error_on_zero_size_image : created 0 0 = Ok (false, RDEINVAL).
Proof. vm_compute. reflexivity. Qed.
Example test_create_analysis_returns_error_on_oversized_image : created SIZE_MAX SIZE_MAX = Ok (false, RDETOOBIG).
Proof. vm_compute. reflexivity. Qed.
Example test_analyze_image_with_no_analysis_returns_error :
  resdet_analyze_image demo_env None (Some demo_image) w0 = Ok (RDEPARAM, None, w0).
Proof. reflexivity. Qed.
(** in the rest, an analysis of an image of 768x768 *)
Definition with_analysis {A} (f : option analysis -> world -> res A) : res A :=
  '(a, e, w) <- resdet_create_analysis demo_env None 768 768 None w0 ;; f a w.
Example test_analyze_image_with_no_image_returns_error :
  with_analysis (fun a w => '(e, _, _) <- resdet_analyze_image demo_env a None w ;; Ok e) = Ok RDEPARAM.
Proof. vm_compute. reflexivity. Qed.
(** the outputs hold something before the call *)
Definition junk : outs := mkOuts (Some (77%nat, [])) 5 (Some (78%nat, [])) 6.
Definition outputs (r : res (Z * outs * world)) : res (Z * (bool * Z * bool * Z)) :=
  '(e, o, w) <- r ;;
  Ok (e, (match o_rw o with Some _ => true | None => false end, o_cw o, match o_rh o with Some _ => true | None => false end, o_ch o)).
Example test_analysis_results_with_no_analysis_returns_error :
  outputs (resdet_analysis_results demo_env None (mkWants true true true true) junk w0) = Ok (RDEPARAM, (false, 0, false, 0)).
Proof. reflexivity. Qed.
Example test_analysis_results_with_no_images_returns_error :
  with_analysis (fun a w => outputs (resdet_analysis_results demo_env a (mkWants true true true true) junk w)) = Ok (RDENOIMG, (false, 0, false, 0)).
Proof. vm_compute. reflexivity. Qed.
Example test_analysis_results_with_resw_but_no_countw_returns_error :
  with_analysis (fun a w => outputs (resdet_analysis_results demo_env a (mkWants true false true true) junk w)) = Ok (RDEPARAM, (false, 5, false, 0)).
Proof. vm_compute. reflexivity. Qed.
Example test_analysis_results_with_resh_but_no_counth_returns_error :
  with_analysis (fun a w => outputs (resdet_analysis_results demo_env a (mkWants true true true false) junk w)) = Ok (RDEPARAM, (false, 0, false, 6)).
Proof. vm_compute. reflexivity. Qed.

(** * test_resdetect.c *)
Example test_resdetect_returns_error_and_nullifies_outputs_with_no_dimensions :
  outputs (resdetect demo_env (Some demo_image) 1 0 0 (mkWants true true true true) None None junk w0) = Ok (RDEINVAL, (false, 0, false, 0)).
Proof. vm_compute. reflexivity. Qed.
Example test_resdetect_returns_error_and_nullifies_outputs_with_no_images :
  outputs (resdetect demo_env (Some demo_image) 0 768 768 (mkWants true true true true) None None junk w0) = Ok (RDENOIMG, (false, 0, false, 0)).
Proof. vm_compute. reflexivity. Qed.

(** * test_resdetect_file.c *)
Definition detected (name : string) : res (Z * (bool * Z * bool * Z)) :=
  outputs (resdetect_file native_readers demo_env (suite_system []) (Some name) None (mkWants true true true true) None None junk w0).
Definition indices (r : res (Z * outs * world)) : res (list Z * list Z) :=
  '(e, o, w) <- r ;;
  match o_rw o, o_rh o with
  | Some (_, rw), Some (_, rh) => Ok (map r_index rw, map r_index rh)
  | _, _ => Undef NullDeref
  end.
Example test_images_smaller_than_range_return_only_their_input_dimensions :
  detected "test/files/checkerboard.pfm" = Ok (RDEOK, (true, 1, true, 1)) /\
  indices (resdetect_file native_readers demo_env (suite_system []) (Some "test/files/checkerboard.pfm"%string) None
             (mkWants true true true true) None None junk w0) = Ok ([2], [2]).
Proof. split; vm_compute; reflexivity. Qed.
Example test_resdetect_file_nullifies_outputs_on_error :
  detected "test/files/doesntexist.pfm" = Ok (- ENOENT, (false, 0, false, 0)).
Proof. vm_compute. reflexivity. Qed.

(** * test_image.c *)
Example test_lists_image_readers : hd_error (resdet_list_image_readers native_readers) = Some "PGM"%string.
Proof. reflexivity. Qed.
Local Notation pfm := (Some "test/files/checkerboard.pfm"%string).
Local Notation bare := (Some "test/files/checkerboard"%string).
Example test_opens_image : test_image native_readers pfm (ByType None) true true [] = Ok ((true, 2, 2, true, RDEOK), [], nothing).
Proof. vm_compute. reflexivity. Qed.
Example test_imagebuf_can_be_null : test_image native_readers pfm (ByType None) true false [] = Ok ((true, 2, 2, false, RDEOK), [], nothing).
Proof. vm_compute. reflexivity. Qed.
Example test_open_image_with_no_filename_returns_error :
  test_image native_readers None (ByType None) true false [] = Ok ((false, 0, 0, false, RDEPARAM), [], nothing).
Proof. vm_compute. reflexivity. Qed.
Example test_open_image_with_no_width_or_height_returns_error :
  test_image native_readers pfm (ByType None) false false [] = Ok ((false, 0, 0, false, RDEPARAM), [], nothing).
Proof. vm_compute. reflexivity. Qed.
Example test_opens_image_by_extension :
  test_image native_readers bare (ByType (Some "pfm"%string)) true false [] = Ok ((true, 2, 2, false, RDEOK), [], nothing).
Proof. vm_compute. reflexivity. Qed.
(** This test asks for "image/x-portable-float-map", which lib/image.c does not know: it
    knows "image/x-portable-floatmap".  The test passes where the FFmpeg or MagickWand
    reader takes the file instead; a build with the native readers only rejects it. *)
Example test_opens_image_by_mimetype_refuted :
  test_image native_readers bare (ByType (Some "image/x-portable-float-map"%string)) true false [] = Ok ((false, 0, 0, false, RDEUNSUPP), [], nothing) /\
  test_image native_readers bare (ByType (Some "image/x-portable-floatmap"%string)) true false [] = Ok ((true, 2, 2, false, RDEOK), [], nothing).
Proof. split; vm_compute; reflexivity. Qed.
Example test_opens_image_by_image_reader :
  test_image native_readers bare (ByReader (Some "PFM"%string)) true false [] = Ok ((true, 2, 2, false, RDEOK), [], nothing).
Proof. vm_compute. reflexivity. Qed.
Example test_open_image_fails_with_wrong_reader :
  test_image native_readers bare (ByReader (Some "PGM"%string)) true false [] = Ok ((false, 0, 0, false, RDEINVAL), [], nothing).
Proof. vm_compute. reflexivity. Qed.
Example test_open_image_by_reader_requires_an_image_reader :
  test_image native_readers pfm (ByReader None) true false [] = Ok ((false, 0, 0, false, RDEPARAM), [], nothing).
Proof. vm_compute. reflexivity. Qed.
Example test_open_image_errors_on_nonexistent_file :
  test_image native_readers (Some "test/files/doesntexist.pfm"%string) (ByType None) true false [] = Ok ((false, 0, 0, false, - ENOENT), [], nothing).
Proof. vm_compute. reflexivity. Qed.
Definition whole_file (name : string) : res (option (list (option Z)) * Z * Z * Z * Z) :=
  '(buf, n, width, height, e, w) <- resdet_read_image native_readers demo_env (suite_system []) (Some name) None true w0 ;;
  Ok (option_map (fun '(_, l) => firstn (Z.to_nat (n * width * height)) (pattern l)) buf, n, width, height, e).
Example test_reads_still_frame_image :
  whole_file "test/files/checkerboard.pgm" = Ok (Some (checkerboard [1; 0; 0; 1]), 1, 2, 2, RDEOK).
Proof. vm_compute. reflexivity. Qed.
Example test_reads_multi_frame_image :
  whole_file "test/files/checkerboard.pfm" = Ok (Some (checkerboard [1; 0; 0; 1; 0; 1; 1; 0]), 2, 2, 2, RDEOK).
Proof. vm_compute. reflexivity. Qed.
Example test_reads_image_frames :
  test_image native_readers pfm (ByType None) true true [read_; read_; read_] =
  Ok ((true, 2, 2, true, RDEOK),
      [Frame true RDEOK (Some (checkerboard [1; 0; 0; 1])); Frame true RDEOK (Some (checkerboard [0; 1; 1; 0]));
       Frame false RDEOK (Some (repeat None 4))], nothing).
Proof. vm_compute. reflexivity. Qed.
Example test_reading_with_null_rdimage_returns_error :
  resdet_read_image_frame (suite_system []) None (Some (repeat None 4)) = Ok (false, RDEPARAM, Some (repeat None 4), None).
Proof. reflexivity. Qed.
Example test_reading_with_null_image_buffer_returns_error :
  test_image native_readers pfm (ByType None) true true [IRead None] = Ok ((true, 2, 2, true, RDEOK), [Frame false RDEPARAM None], nothing).
Proof. vm_compute. reflexivity. Qed.
