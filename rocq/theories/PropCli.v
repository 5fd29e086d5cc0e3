(**     Properties C46-C48, C54 and C55: the command line program. *)
From Coq Require Import Reals Sorted Ascii String.
From Verif Require Import Base Flt Util Methods Analysis Resdetect History Spec SpecAnalysis SpecUtil SpecReport Stdio Pgm Pfm Y4m Image ImageHistory SpecImage SpecFormats Cli SpecCli Demo DemoImages DemoFormats.
From Verif Require Import BaseProofs UtilProofs AnalysisProofs ResultsProofs ClientProofs WorldProofs ImageSafe ImageApi FileProofs SelectProofs FormatProofs ScanProofs AnalysisClaims CodeProofs CliProofs CliOptions CliFilm CliRun.
Open Scope string_scope.
Open Scope list_scope.
Open Scope Z_scope.
From Verif Require Import CliClaims.

(** C54.  Options may be given with their argument in the same word or the next, up to the
    first operand, or anywhere if the C library permutes the arguments. *)
Theorem option_words : forall permute input rest evs args, operand input -> spelled evs args ->
  getopt optstring permute (args ++ input :: rest) =
  if permute then let '(evs', ops) := getopt optstring permute rest in (evs ++ evs', input :: ops) else (evs, input :: rest).
Proof. exact option_words_claim. Qed.
Print Assumptions option_words.

Example option_words_witness : operand "a.pgm" /\ operand "-" /\
  spelled [Opt "v" "1"; Opt "r" "2"; Opt "p" ""; Opt "o" "-3"] ["-v1"; "-r"; "2"; "-p"; "-o"; "-3"].
Proof. exact option_words_example. Qed.

(** C54.  The argument "--" ends the options: all that follows are operands. *)
Theorem option_end : forall permute rest evs args, spelled evs args -> getopt optstring permute (args ++ "--" :: rest) = (evs, rest).
Proof. exact option_end_claim. Qed.
Print Assumptions option_end.

Example option_end_witness : spelled [Opt "p" ""; Opt "v" "1"] ["-p"; "-v"; "1"] /\ getopt optstring true ["-p"; "-v"; "1"; "--"; "-v"; "a.pgm"] = ([Opt "p" ""; Opt "v" "1"], ["-v"; "a.pgm"]).
Proof. exact option_end_example. Qed.

(** C54.  The options are accepted exactly if none of them is unknown, asks for help or the
    version, or has an offset or frame count that does not parse, and the first reader
    named exists; then the last option of each kind counts. *)
Theorem options_in_effect : forall R c self evs,
  (forall o, take_options R c self evs no_opts = inr o -> last_wins evs o) /\
  ((exists o, take_options R c self evs no_opts = inr o) <->
   (Forall (fun e => ~ fatal e) evs /\
    forall l a l', evs = l ++ Opt "R" a :: l' -> (forall b, ~ In (Opt "R" b) l) -> reader_named R a)).
Proof. exact options_in_effect_claim. Qed.
Print Assumptions options_in_effect.

Example options_in_effect_witness : Forall (fun e => ~ fatal e) [Opt "R" "pgm"; Opt "n" "3"; Opt "n" "2"] /\ reader_named native_readers "pgm" /\
  exists o, take_options native_readers default_config "resdet" [Opt "R" "pgm"; Opt "n" "3"; Opt "n" "2"] no_opts = inr o /\ o_nframes o = 2.
Proof. exact options_in_effect_example. Qed.

(** C54.  Offsets, frame counts, ranges and filters are decimal numbers. *)
Theorem option_numbers : forall a v, spells (chars a) v -> v <= SIZE_MAX -> strtoull a = Some v.
Proof. exact option_numbers_claim. Qed.
Print Assumptions option_numbers.

Example option_numbers_witness : spells (chars "120") 120.
Proof. exact option_numbers_example. Qed.

(** C54.  -v takes a decimal number, with or without a sign.  Its value counts modulo 2^32,
    and is taken for -1 or 0 if it is too large for a long. *)
Theorem option_verbosity : forall R c self a v, spells (chars a) v ->
  exists o o', take_options R c self [Opt "v" a] no_opts = inr o /\ take_options R c self [Opt "v" (String "-" a)] no_opts = inr o' /\
    (v < 2^31 -> o_verbosity o = v) /\ (v <= 2^31 -> o_verbosity o' = - v) /\
    (v < 2^63 -> - 2^31 <= o_verbosity o < 2^31 /\ (o_verbosity o - v) mod 2^32 = 0) /\
    (v <= 2^63 -> - 2^31 <= o_verbosity o' < 2^31 /\ (o_verbosity o' + v) mod 2^32 = 0) /\
    (2^63 <= v -> o_verbosity o = -1 /\ o_verbosity o' = 0).
Proof. exact option_verbosity_claim. Qed.
Print Assumptions option_verbosity.

(** -v 4294967296 is as silent as -v 0 *)
Example option_verbosity_witness : spells (chars "2") 2 /\
  exists o, take_options native_readers default_config "resdet" [Opt "v" "4294967296"] no_opts = inr o /\ o_verbosity o = 0.
Proof. exact option_verbosity_example. Qed.

(** C54.  -x, -r and -f set the parameters they name, in percent, and any value the
    library rejects ends the program; a filter over 255 as well. *)
Theorem option_parameters : forall T o p p',
  option_params T o p = inr p' <-> exists l, asked_settings T o l /\ set_all (Some p) l = (repeat RDEOK (length l), Some p').
Proof. exact option_parameters_claim. Qed.
Print Assumptions option_parameters.

Example option_parameters_witness : asked_settings demo_terminal demo_opts [Range 2].
Proof. exact option_parameters_example. Qed.

(** C54.  -f auto chooses the filter by what follows the last dot of the name, without
    regard to case: 3 for JPEG and H.264, 2 for WebP, 5 for AVIF and HEIC, and none for
    anything else.  A name without a dot leaves the filter as it was. *)
Theorem filter_by_name : forall o input p,
  (o_filter o <> Some "auto" -> auto_filter o input p = p) /\
  (o_filter o = Some "auto" -> without "."%char input -> auto_filter o input p = p) /\
  (forall base ext, o_filter o = Some "auto" -> input = (base ++ "." ++ ext)%string -> without "."%char ext ->
     p_range (auto_filter o input p) = p_range p /\ p_threshold (auto_filter o input p) = p_threshold p /\
     (forall e v, In (e, v) auto_table -> same_nocase e ("." ++ ext)%string -> p_filter (auto_filter o input p) = v) /\
     ((forall e v, In (e, v) auto_table -> ~ same_nocase e ("." ++ ext)%string) -> p_filter (auto_filter o input p) = 0)).
Proof. exact filter_by_name_claim. Qed.
Print Assumptions filter_by_name.

Example filter_by_name_witness : without "."%char "JPG" /\ In (".jpg", 3) auto_table /\ same_nocase ".jpg" ("." ++ "JPG")%string /\
  p_filter (auto_filter demo_opts ("a.b" ++ "." ++ "JPG")%string (default_params default_config)) = 3.
Proof. exact filter_by_name_example. Qed.

(** C54 as in the help text, refuted: a reader that does not exist is accepted after one
    that does. *)
Theorem reader_option_refuted : exists R c self a b, ~ reader_named R b /\
  exists o, take_options R c self [Opt "R" a; Opt "R" b] no_opts = inr o /\ o_reader o = Some b.
Proof. exact reader_option_refuted_claim. Qed.
Print Assumptions reader_option_refuted.

(** C54 as in the help text, refuted: a verbosity that is not a number is taken for 0. *)
Theorem verbosity_option_refuted : exists R c self a, (forall v, ~ spells (chars a) v) /\
  exists o, take_options R c self [Opt "v" a] no_opts = inr o /\ o_verbosity o = 0.
Proof. exact verbosity_option_refuted_claim. Qed.
Print Assumptions verbosity_option_refuted.

(** C55.  Whatever the arguments and the files, the program does nothing undefined and
    exits with 0 or 1.  If it exits with 1 it says why, unless -v 0 is given.  Nothing stays
    allocated, but for the parameters if both -t and -R are given, and but for one
    block if a certain allocation of the KISS transform fails. *)
Theorem cli_safe : forall R E Y T self args w, env_ok E -> machine_ok Y ->
  exists x w' evs rest, cli_main R E Y T self args w = Ok (x, w') /\ getopt optstring (t_permute T) args = (evs, rest) /\
    (x_status x = 0 \/ x_status x = 1) /\
    (x_status x = 1 -> x_err x = [] -> exists a, last_arg "v" evs = Some a /\ to_int (strtol a) = 0) /\
    (holds w' w [] [] \/
     (last_arg "t" evs <> None /\ last_arg "R" evs <> None /\ exists b, holds w' w [b] []) \/
     (c_backend (e_cfg E) = KISS /\ (exists n, e_alloc E n = false) /\ exists b, holds w' w [b] [])).
Proof. exact cli_safe_claim. Qed.
Print Assumptions cli_safe.

Example cli_safe_witness : env_ok demo_env /\ machine_ok (system_of demo_host demo_pgm_file) /\ machine_ok (system_of demo_host [200; 0; 10]).
Proof. exact cli_safe_example. Qed.

(** C55 without the exceptions, refuted: the parameters are lost with -t and -R. *)
Theorem cli_memory_refuted : exists R E Y T self args w, env_ok E /\ machine_ok Y /\ (forall n, e_alloc E n = true) /\
  exists x w' b, cli_main R E Y T self args w = Ok (x, w') /\ holds w' w [b] [] /\ ~ In b (w_live w).
Proof. exact cli_memory_refuted_claim. Qed.
Print Assumptions cli_memory_refuted.

(** C55.  The library's image functions return only the codes of enum RDError and negative
    errno values, and resdet_error_str has a message for all of these. *)
Theorem known_codes : forall R E Y, codes_ok Y ->
  (forall f o ptrs want w im width height buf e w', open_by R E Y f o ptrs want w = Ok (im, width, height, buf, e, w') -> known_code e) /\
  (forall i buf b e buf' i', resdet_read_image_frame Y i buf = Ok (b, e, buf', i') -> known_code e) /\
  (forall i k w b e calls i' w', resdet_seek_frame E Y i k w = Ok (b, e, calls, i', w') -> known_code e) /\
  (forall e, known_code e -> exists m, resdet_error_str e = Ok m /\ m <> NoMsg).
Proof. exact known_codes_claim. Qed.
Print Assumptions known_codes.

Example known_codes_witness : codes_ok (system_of demo_host demo_pgm_file).
Proof. exact known_codes_example. Qed.

(** C46, C48.  A run on an input prints what a program that hands the frames to the
    library gets, and exits with 0, or 1 with -v 0 if only the size of the image is
    reported.  If that program would get no results the run exits with 1 and a message. *)
Theorem run_results : forall R E Y T self args w o m blk p input w1, env_ok E -> machine_ok Y ->
  invoked R E T self args w o m blk p input w1 ->
  exists x w', cli_main R E Y T self args w = Ok (x, w') /\
  ((exists width height used rw rh, detects R E Y o m (auto_filter o input p) input w1 width height used rw rh /\
      x_status x = status_of (o_verbosity o) rw rh /\ x_out x = printed (o_verbosity o) width height rw rh /\
      (o_progress o = false -> x_err x = [])) \/
   ((forall width height used rw rh, ~ detects R E Y o m (auto_filter o input p) input w1 width height used rw rh) /\
      x_status x = 1 /\ x_out x = [] /\ x_err x <> [])).
Proof. exact run_results_claim. Qed.
Print Assumptions run_results.

Example run_results_witness : exists w1,
  invoked native_readers demo_env demo_terminal "resdet" demo_args w0 demo_opts Msign 0 (mkParams 2 (f32_of_Z (-1)) 0) "a.pgm" w1.
Proof. exact run_results_example. Qed.

(** C46, C48.  These lists are those of the library for the frames: the properties of
    reported lists apply. *)
Theorem run_reported : forall R E Y T self args w o m blk p input w1 width height used rw rh, env_ok E -> machine_ok Y ->
  invoked R E T self args w o m blk p input w1 ->
  detects R E Y o m (auto_filter o input p) input w1 width height used rw rh ->
  let p := Some (auto_filter o input p) in
  client_ok E width height p /\ countable used /\ used <> [] /\
  reported E (Some m) width height p used (seen_x E width height used) width rw /\
  reported E (Some m) width height p used (seen_y E width height used) height rh.
Proof. exact run_reported_claim. Qed.
Print Assumptions run_reported.

(** C46.  With -v 0 nothing is printed to standard output, and the exit status is 0
    exactly if the library reports a width or height other than that of the image. *)
Theorem silent_status : forall R E Y T self args w o m blk p input w1, env_ok E -> machine_ok Y ->
  invoked R E T self args w o m blk p input w1 -> o_verbosity o = 0 ->
  exists x w', cli_main R E Y T self args w = Ok (x, w') /\ x_out x = [] /\
    (x_status x = 0 <-> exists width height used rw rh r, detects R E Y o m (auto_filter o input p) input w1 width height used rw rh /\
       ((In r rw /\ r_index r <> width) \/ (In r rh /\ r_index r <> height))).
Proof. exact silent_status_claim. Qed.
Print Assumptions silent_status.

Example silent_status_witness : exists o m blk p w1,
  invoked native_readers demo_env demo_terminal "resdet" ["-v"; "0"; "a.pgm"] w0 o m blk p "a.pgm" w1 /\ o_verbosity o = 0.
Proof. exact silent_status_example. Qed.

(** C46 as first stated, refuted: with -v 0 an image that is not upscaled and a file that
    cannot be read give the same status. *)
Theorem silent_status_refuted : exists R E Y Y' T self args w, env_ok E /\ machine_ok Y /\ machine_ok Y' /\
  match cli_main R E Y T self args w, cli_main R E Y' T self args w with
  | Ok (x, _), Ok (x', _) => x_err x = [] /\ x_err x' <> [] /\ x_status x = x_status x'
  | _, _ => False
  end.
Proof. exact silent_status_refuted_claim. Qed.
Print Assumptions silent_status_refuted.

(** C48.  At the default verbosity the size of the image is printed, then for each
    dimension the result of highest confidence. *)
Theorem best_guess : forall R E Y T self args w o m blk p input w1 x w' width height used rw rh, env_ok E -> machine_ok Y ->
  invoked R E T self args w o m blk p input w1 -> ~ 0 <= o_verbosity o <= 3 ->
  cli_main R E Y T self args w = Ok (x, w') -> detects R E Y o m (auto_filter o input p) input w1 width height used rw rh ->
  exists bw bh note more, x_status x = 0 /\ In bw rw /\ In bh rh /\
    (forall r, In r rw -> (conf_real r <= conf_real bw)%R) /\ (forall r, In r rh -> (conf_real r <= conf_real bh)%R) /\
    (note = " (not upsampled)" <-> rw = [own_size width] /\ rh = [own_size height]) /\
    x_out x = [Str "given: "; Num width; Str "x"; Num height; Str newline;
               Str "best guess: "; Num (r_index bw); Str "x"; Num (r_index bh); Str note; Str newline] ++ more.
Proof. exact best_guess_claim. Qed.
Print Assumptions best_guess.

Example best_guess_witness : exists o m blk p w1 x w',
  invoked native_readers demo_env demo_terminal "resdet" ["a.pgm"] w0 o m blk p "a.pgm" w1 /\ ~ 0 <= o_verbosity o <= 3 /\
  cli_main native_readers demo_env (system_of demo_host demo_pgm_file) demo_terminal "resdet" ["a.pgm"] w0 = Ok (x, w') /\ x_status x = 0.
Proof. exact best_guess_example. Qed.

(** C47.  A successful run prints to standard error nothing without -p, and with -p the
    frames skipped as the reader reports them, then the number of each frame analysed. *)
Theorem progress_notes : forall R E Y T self args w o m blk p input w1 x w' width height used rw rh, env_ok E -> machine_ok Y ->
  invoked R E T self args w o m blk p input w1 ->
  cli_main R E Y T self args w = Ok (x, w') -> detects R E Y o m (auto_filter o input p) input w1 width height used rw rh ->
  exists calls, skips R E Y o input w1 calls /\ x_err x = notes o calls (length used).
Proof. exact progress_notes_claim. Qed.
Print Assumptions progress_notes.

Example progress_notes_witness : exists x w',
  cli_main native_readers demo_env (system_of demo_host demo_pfm_file) demo_terminal "resdet" ["-p"; "-o1"; "a.pfm"] w0 = Ok (x, w') /\
  x_status x = 0 /\ x_err x = note "Seeking past frame " 1 ++ [Str newline] ++ note "Analyzing frame " 2 ++ [Str newline].
Proof. exact progress_notes_example. Qed.

(** C47.  On a well-formed PGM, PFM or YUV4MPEG2 file exactly the frames offset, ...,
    offset + n - 1 are analysed, those up to the end of the file if fewer exist or -n
    is not given. *)
Theorem frame_range : forall R E Y T self args w o m blk p input w1 s width height name limit fs, env_ok E -> machine_ok Y ->
  invoked R E T self args w o m blk p input w1 ->
  film E (y_host Y) width height (s_rest s) name limit fs -> 1 <= width <= SIZE_MAX -> 1 <= height <= SIZE_MAX ->
  delivers Y input s -> selects R Y o input name -> seekable_film E o name width height s ->
  let rest := skipn (Z.to_nat (o_offset o)) fs in
  let used := if o_nframes o =? 0 then rest else firstn (Z.to_nat (o_nframes o)) rest in
  (forall width' height' used' er wd, supplies R E Y o input w1 width' height' used' er wd ->
     limit /\ width' = width /\ height' = height /\ o_offset o <= Z.of_nat (length fs) /\ used' = used /\ (s_broken s = false -> er = RDEOK)) /\
  (limit -> (forall n, e_alloc E n = true) -> o_offset o <= Z.of_nat (length fs) -> exists er wd, supplies R E Y o input w1 width height used er wd).
Proof. exact frame_range_claim. Qed.
Print Assumptions frame_range.

Example frame_range_witness : exists o m blk p w1,
  invoked native_readers demo_env demo_terminal "resdet" ["-o"; "1"; "-R"; "pfm"; "-"] w0 o m blk p "-" w1 /\ o_offset o = 1 /\
  machine_ok (system_of demo_host demo_pfm_file) /\
  film demo_env demo_host 1 2 demo_pfm_file "PFM" (within demo_env 1 2 1) [[f0; f1]; [f1; f0]] /\
  delivers (system_of demo_host demo_pfm_file) "-" (pipe_of demo_pfm_file) /\
  selects native_readers (system_of demo_host demo_pfm_file) o "-" "PFM" /\ seekable_film demo_env o "PFM" 1 2 (pipe_of demo_pfm_file).
Proof. exact frame_range_example. Qed.

(** C47.  If the offset lies behind the last frame the program exits with 1 and a message. *)
Theorem frame_range_passed : forall R E Y T self args w o m blk p input w1 s width height name limit fs, env_ok E -> machine_ok Y ->
  invoked R E T self args w o m blk p input w1 ->
  film E (y_host Y) width height (s_rest s) name limit fs -> 1 <= width <= SIZE_MAX -> 1 <= height <= SIZE_MAX ->
  delivers Y input s -> selects R Y o input name -> seekable_film E o name width height s -> Z.of_nat (length fs) <= o_offset o ->
  exists x w', cli_main R E Y T self args w = Ok (x, w') /\ x_status x = 1 /\ x_out x = [] /\ x_err x <> [].
Proof. exact frame_range_passed_claim. Qed.
Print Assumptions frame_range_passed.

Example frame_range_passed_witness : exists o m blk p w1,
  invoked native_readers demo_env demo_terminal "resdet" ["-o"; "2"; "-R"; "pfm"; "-"] w0 o m blk p "-" w1 /\ Z.of_nat (length [[f0; f1]; [f1; f0]]) <= o_offset o.
Proof. exact frame_range_passed_example. Qed.
