(** The tests of test/bin/test_resdet.sh on the model, except those that need the sample
    photograph.  Each example has the name of its test. *)
From Coq Require Import Ascii String.
From Verif Require Import Base Flt Util Methods Analysis Stdio Pgm Pfm Y4m Image ImageHistory Cli Printf Demo DemoImages SuiteFiles.
Open Scope string_scope.
Open Scope list_scope.
Open Scope Z_scope.

Definition suite_strerror (n : Z) : string := if n =? ENOENT then "No such file or directory" else "?".
Definition bytes_string (l : list Z) : string := fold_right (fun c s => String (ascii_of_nat (Z.to_nat c)) s) "" l.
(** $(...) drops line feeds from the end *)
Fixpoint chomp (s : string) : string :=
  match s with
  | EmptyString => EmptyString
  | String c t => match chomp t with
                  | EmptyString => if Ascii.eqb c "010"%char then EmptyString else String c EmptyString
                  | t => String c t
                  end
  end.
(** strtod, as far as the tests go *)
Definition suite_terminal : terminal :=
  mkTerminal (fun s => if String.eqb s "-1" then Some (f64_of_f32 (f32_of_Z (-1)))
                       else if String.eqb s "101" then Some (f64_of_f32 (f32_of_Z 101)) else None) true.
(** status, output and error output; nothing stays allocated *)
Definition resdet_ (args : list string) : res (Z * string * string) :=
  '(x, w) <- cli_main native_readers demo_env (suite_system []) suite_terminal "resdet" args w0 ;;
  match w_live w, w_files w with
  | [], [] => Ok (x_status x, chomp (bytes_string (text suite_strerror (x_out x))), chomp (bytes_string (text suite_strerror (x_err x))))
  | _, _ => Undef OutOfBounds
  end.
Ltac run := vm_compute; reflexivity.
Definition cr : string := return_.
Definition lf : string := newline.

Example test_no_arguments_prints_usage_and_fails :
  exists rest, resdet_ [] = Ok (1, "", ("Usage: resdet " ++ rest)%string).
Proof. eexists; run. Qed.
Example test_help_prints_usage_and_succeeds :
  exists rest, resdet_ ["-h"] = Ok (0, ("Usage: resdet " ++ rest)%string, "").
Proof. eexists; run. Qed.
Example test_prints_version :
  resdet_ ["-V"] = Ok (0, ("resdet version 2.4.1" ++ lf ++ "libresdet version 3.1.1" ++ lf ++ "Built with image readers: PGM, PFM, Y4M")%string, "").
Proof. run. Qed.
Example test_prints_image_readers : resdet_ ["-R"; "list"] = Ok (0, ("PGM" ++ lf ++ "PFM" ++ lf ++ "Y4M")%string, "").
Proof. run. Qed.
Example test_verbosity_level_0_fails_if_no_resolutions_detected :
  resdet_ ["-v0"; "../files/checkerboard.pfm"] = Ok (1, "", "").
Proof. run. Qed.
Example test_no_resolutions_detected :
  resdet_ ["../files/checkerboard.pfm"] = Ok (0, ("given: 2x2" ++ lf ++ "best guess: 2x2 (not upsampled)")%string, "").
Proof. run. Qed.
Example test_filetype_option_with_extension : resdet_ ["-v1"; "-t"; "pfm"; "../files/checkerboard"] = Ok (0, "2 2", "").
Proof. run. Qed.
(** see test_opens_image_by_mimetype_refuted in SuiteLib.v *)
Example test_filetype_option_with_mimetype_refuted :
  resdet_ ["-v1"; "-t"; "image/x-portable-float-map"; "../files/checkerboard"] = Ok (1, "", "Unsupported image file format") /\
  resdet_ ["-v1"; "-t"; "image/x-portable-floatmap"; "../files/checkerboard"] = Ok (0, "2 2", "").
Proof. split; run. Qed.
Example test_image_reader_option :
  resdet_ ["-v1"; "-R"; "PFM"; "../files/checkerboard"] = Ok (0, "2 2", "") /\
  resdet_ ["-v1"; "-R"; "PGM"; "../files/checkerboard"] = Ok (1, "", "Invalid image").
Proof. split; run. Qed.
Example test_prints_error_if_image_doesnt_exist : resdet_ ["../files/doesntexist.pfm"] = Ok (1, "", "No such file or directory").
Proof. run. Qed.
Example test_corrupt_images_print_invalid_image_error : resdet_ ["../files/corrupt_header.pfm"] = Ok (1, "", "Invalid image").
Proof. run. Qed.
Example test_invalid_threshold_prints_error :
  resdet_ ["-x-1"; "../files/blue_marble_2012_resized.pfm"] = Ok (1, "", "Invalid threshold value -1") /\
  resdet_ ["-x101"; "../files/blue_marble_2012_resized.pfm"] = Ok (1, "", "Invalid threshold value 101").
Proof. split; run. Qed.
Example test_invalid_range_prints_error :
  resdet_ ["-r0"; "../files/blue_marble_2012_resized.pfm"] = Ok (1, "", "Invalid range value 0").
Proof. run. Qed.
Example test_progress_option_prints_frame_numbers :
  exists out, resdet_ ["-p"; "../files/checkerboard.pfm"] = Ok (0, out, ("Analyzing frame 1" ++ cr ++ "Analyzing frame 2" ++ cr)%string).
Proof. eexists; run. Qed.
Example test_nframes_option_limits_analysis :
  exists out, resdet_ ["-n1"; "-p"; "../files/checkerboard.pfm"] = Ok (0, out, ("Analyzing frame 1" ++ cr)%string).
Proof. eexists; run. Qed.
Example test_non_numeric_nframes_prints_error : resdet_ ["-nx"; "../files/checkerboard.pfm"] = Ok (1, "", "Invalid nframes x").
Proof. run. Qed.
Example test_offset_option_skips_frames :
  exists out, resdet_ ["-o1"; "-p"; "../files/checkerboard.pfm"] =
    Ok (0, out, ("Seeking past frame 1" ++ cr ++ lf ++ "Analyzing frame 2" ++ cr)%string).
Proof. eexists; run. Qed.
Example test_offset_at_last_frame_prints_error :
  exists out, resdet_ ["-o2"; "-p"; "../files/checkerboard.pfm"] =
    Ok (1, out, ("Seeking past frame 1" ++ cr ++ "Seeking past frame 2" ++ cr ++ lf ++ "No frames left in input.")%string).
Proof. eexists; run. Qed.
Example test_non_numeric_offset_prints_error : resdet_ ["-ox"; "../files/checkerboard.pfm"] = Ok (1, "", "Invalid offset x").
Proof. run. Qed.
Example test_offset_past_end_of_file_prints_error :
  resdet_ ["-v1"; "-o3"; "-p"; "../files/checkerboard.pfm"] =
    Ok (1, "", ("Seeking past frame 1" ++ cr ++ "Seeking past frame 2" ++ cr ++ "Passed end of file while seeking to frame 3")%string).
Proof. run. Qed.
Example test_nframes_and_offset_work_together :
  exists out, resdet_ ["-n1"; "-o1"; "-p"; "../files/checkerboard.pfm"] =
    Ok (0, out, ("Seeking past frame 1" ++ cr ++ lf ++ "Analyzing frame 2" ++ cr)%string).
Proof. eexists; run. Qed.
