(**     Properties C80-C82: the text that the command line program prints. *)
From Coq Require Import Reals Lra Ascii String.
From Flocq Require Import Core IEEE754.BinarySingleNaN IEEE754.Binary.
From Verif Require Import Base BaseProofs Flt FltProofs Util Methods Analysis History Spec SpecAnalysis SpecUtil SpecReport Stdio Pgm Pfm Y4m Image ImageHistory SpecImage SpecFormats Cli SpecCli Printf SpecText Demo DemoImages DemoFormats.
From Verif Require Import UtilProofs ClientProofs ScanProofs AnalysisClaims CliProofs CliOptions CliRun CliClaims PrintProofs TextProofs TextRuns.
Open Scope string_scope.
Open Scope list_scope.
Open Scope Z_scope.
From Verif Require Import TextClaims.

(** C80.  Sizes are printed as decimal numerals without superfluous zeros, in the table
    behind spaces up to five characters. *)
Theorem number_text : forall strerror n, 0 <= n ->
  numeral (text strerror [Num n]) n /\ exists t, numeral t n /\ padded 5 t (text strerror [Num5 n]).
Proof. exact number_text_claim. Qed.
Print Assumptions number_text.

Example number_text_witness : text (fun _ => "") [Num 0; Str " "; Num 18446744073709551615; Str " "; Num5 640; Num5 123456] = chars "0 18446744073709551615   640123456".
Proof. exact number_text_example. Qed.

(** C80.  Finite numbers are printed with a minus sign if negative, and the decimal
    fraction nearest to their absolute value. *)
Theorem fraction_text : forall strerror (x : f64), is_finite 53 1024 x = true ->
  let s := minus_sign (Bsign 53 1024 x) in let r := B2R 53 1024 x in
  (exists t, text strerror [Fixed6 x] = s ++ t /\ fraction 6 t (rounded 6 r)) /\
  (exists t, padded 5 (s ++ t) (text strerror [Fixed2 x]) /\ fraction 2 t (rounded 2 r)) /\
  (exists t, text strerror [Fixed0 x] = s ++ t /\ numeral t (rounded 0 r)).
Proof. exact fraction_text_claim. Qed.
Print Assumptions fraction_text.

Example fraction_text_witness :
  text (fun _ => "") [Fixed6 (f64_of_f32 (f32_of_Z (-1))); Str " "; Fixed2 (dlit 1 8); Str " "; Fixed0 (dlit 5 2); Str " "; Fixed6 (dlit 2 3)] = chars "-1.000000  0.12 2 0.666667".
Proof. exact fraction_text_example. Qed.

(** C80.  With -v 1 the best width and height are printed, with a space between them. *)
Theorem brief_text : forall t width height rw rh, prints 1 t width height rw rh ->
  exists tw th, t = tw ++ [32] ++ th ++ [10] /\ numeral tw (best rw) /\ numeral th (best rh).
Proof. exact brief_text_claim. Qed.
Print Assumptions brief_text.

Example brief_text_witness : exists t width height rw rh, prints 1 t width height rw rh.
Proof. exact brief_text_example. Qed.

(** C80.  With -v 2 and -v 3 the widths are printed on one line and the heights on the
    next, with a space behind each, with -v 3 with the confidence behind a colon. *)
Theorem list_text : forall v t width height rw rh, v = 2 \/ v = 3 -> prints v t width height rw rh ->
  exists tw th, t = tw ++ [10] ++ th ++ [10] /\ listed v rw tw /\ listed v rh th.
Proof. exact list_text_claim. Qed.
Print Assumptions list_text.

Example list_text_witness : exists t width height rw rh, prints 3 t width height rw rh.
Proof. exact list_text_example. Qed.

(** C80.  At the default verbosity the sizes, the best guesses and a table are printed.
    The heights are aligned if all widths have at most five digits and no confidence is
    printed as 100.00%. *)
Theorem table_text : forall v t width height rw rh, ~ 0 <= v <= 3 -> prints v t width height rw rh ->
  exists s ls u, t = s ++ u /\ summary_text width height rw rh s /\
    rows_text (removelast rw) (removelast rh) 0 (Nat.max (length (removelast rw)) (length (removelast rh))) ls u /\
    (Forall narrow (removelast rw) -> Forall (fun l => length l = 17%nat) ls).
Proof. exact table_text_claim. Qed.
Print Assumptions table_text.

Example table_text_witness : exists t width height rw rh, prints (-1) t width height rw rh.
Proof. exact table_text_example. Qed.

(** C80, finding: a confidence of 100% moves the height out of its column. *)
Theorem table_alignment_refuted : exists t width height rw rh s a b, prints (-1) t width height rw rh /\
  t = s ++ a ++ chars "    1 (100.00%)" ++ [10] ++ b ++ chars "    2 (75.00%)" ++ [10] /\ (length a = 18 /\ length b = 17)%nat.
Proof. exact table_alignment_refuted_claim. Qed.
Print Assumptions table_alignment_refuted.

(** C80.  The text determines what is reported: with -v 1 and more the best guesses, with
    -v 2 and 3 the sizes in the lists, with -v 3 the confidences to six digits, in the
    table the size of the image, the sizes and the confidences to four digits. *)
Theorem text_unambiguous : forall v t width height rw rh width' height' rw' rh',
  prints v t width height rw rh -> prints v t width' height' rw' rh' ->
  (v <> 0 -> best rw = best rw' /\ best rh = best rh') /\
  (v = 2 \/ v = 3 -> map r_index rw = map r_index rw' /\ map r_index rh = map r_index rh') /\
  (v = 3 -> Forall2 (close_to (/ IZR (10 ^ 6))) rw rw' /\ Forall2 (close_to (/ IZR (10 ^ 6))) rh rh') /\
  (~ 0 <= v <= 3 -> width = width' /\ height = height' /\ Forall2 (close_to (101 / 1000000)) rw rw' /\ Forall2 (close_to (101 / 1000000)) rh rh').
Proof. exact text_unambiguous_claim. Qed.
Print Assumptions text_unambiguous.

Example text_unambiguous_witness : (exists t width height rw rh, prints (-1) t width height rw rh) /\ (exists t width height rw rh, prints 3 t width height rw rh).
Proof. exact text_unambiguous_example. Qed.

(** C81.  If -x gives a percentage with up to two digits behind the point, no result
    (other than the size of the image) is printed with a smaller one. *)
Theorem threshold_text : forall R E Y T self args w o m blk p input w1 width height used rw rh a k r, env_ok E -> machine_ok Y -> reads_numerals T ->
  invoked R E T self args w o m blk p input w1 -> o_threshold o = Some a -> percent_numeral a k ->
  detects R E Y o m (auto_filter o input p) input w1 width height used rw rh ->
  In r rw /\ r_index r <> width \/ In r rh /\ r_index r <> height ->
  k <= rounded 2 (percentage r) /\ 100 * k <= rounded 6 (conf_real r).
Proof. exact threshold_text_claim. Qed.
Print Assumptions threshold_text.

Example threshold_text_witness : reads_numerals (mkTerminal exact_strtod true) /\ percent_numeral "62.5" 6250 /\
  exists o m blk p w1 x w' width height rw rh, invoked native_readers demo_env (mkTerminal exact_strtod true) "resdet" ["-r1"; "-x"; "62.5"; "a.pfm"] w0 o m blk p "a.pfm" w1 /\ o_threshold o = Some "62.5" /\
  cli_main native_readers demo_env (system_of demo_host table_file) (mkTerminal exact_strtod true) "resdet" ["-r1"; "-x"; "62.5"; "a.pfm"] w0 = Ok (x, w') /\
  prints (-1) (text (fun _ => "") (x_out x)) width height rw rh.
Proof. exact threshold_text_example. Qed.

(** C82.  The help text has an entry for each option. *)
Theorem help_entries : forall strerror config self c, find_option optstring c <> None ->
  x_status (help config self) = 0 /\ occurs (option_entry c) (text strerror (x_out (help config self))).
Proof. exact help_entries_claim. Qed.
Print Assumptions help_entries.

Example help_entries_witness : find_option optstring "x" <> None /\ find_option optstring "R" <> None /\ find_option optstring "z" = None.
Proof. exact help_entries_example. Qed.

(** C82.  -V prints the versions and the names of the readers, separated by commas. *)
Theorem version_text : forall R c self a evs strerror, resdet_list_image_readers R <> [] ->
  exists x, take_options R c self (Opt "V" a :: evs) no_opts = inl x /\ x_status x = 0 /\ x_err x = [] /\
    text strerror (x_out x) = chars "resdet version 2.4.1" ++ [10] ++ chars "libresdet version 3.1.1" ++ [10] ++
      chars "Built with image readers: " ++ chars (String.concat ", " (resdet_list_image_readers R)) ++ [10].
Proof. exact version_text_claim. Qed.
Print Assumptions version_text.

Example version_text_witness : resdet_list_image_readers native_readers <> [].
Proof. exact version_text_example. Qed.

(** C82.  -R list prints the names of the readers, a line each, and succeeds; so does a reader
    that does not exist, with a message, and fails. *)
Theorem reader_list_text : forall R c self a evs strerror, ~ reader_named R a ->
  exists x, take_options R c self (Opt "R" a :: evs) no_opts = inl x /\
    text strerror (x_out x) = List.concat (map (fun r => chars r ++ [10]) (resdet_list_image_readers R)) /\
    (a = "list" -> x_status x = 0 /\ x_err x = []) /\
    (a <> "list" -> x_status x = 1 /\ text strerror (x_err x) = chars "No image reader """ ++ chars a ++ chars """, use one of:" ++ [10]).
Proof. exact reader_list_text_claim. Qed.
Print Assumptions reader_list_text.

Example reader_list_text_witness : ~ reader_named native_readers "list" /\ ~ reader_named native_readers "tiff".
Proof. exact reader_list_text_example. Qed.

(** C82.  The message about wrong arguments names exactly the options, and an argument of
    exactly those that take one. *)
Theorem usage_options : forall strerror self, exists rest, x_status (usage self) = 1 /\ x_out (usage self) = [] /\
  text strerror (x_err (usage self)) = chars "Usage: " ++ chars self ++ rest /\
  forall c, (find_option optstring c = Some true <-> occurs (chars (String "-" (String c " <"))) rest) /\
            (find_option optstring c <> None <-> occurs (chars (String "-" (String c " "))) rest).
Proof. exact usage_options_claim. Qed.
Print Assumptions usage_options.

(** C82, finding: the first line of the help text omits an option. *)
Theorem help_synopsis_refuted : exists config first rest c, find_option optstring c <> None /\
  text (fun _ => "") (x_out (help config "resdet")) = first ++ 10 :: rest /\ ~ In 10 first /\ occurs (chars "Usage:") first /\
  ~ occurs (chars (String "-" (String c ""))) first.
Proof. exact help_synopsis_refuted_claim. Qed.
Print Assumptions help_synopsis_refuted.

(** C82, finding: an entry is printed behind another, not on a line of its own. *)
Theorem help_lines_refuted : exists config c, find_option optstring c <> None /\
  ~ begins_line (option_entry c) (text (fun _ => "") (x_out (help config "resdet"))).
Proof. exact help_lines_refuted_claim. Qed.
Print Assumptions help_lines_refuted.

(** C82.  The defaults in the help text are those in effect: the range, and for each method
    its threshold in percent; the method used by default is marked. *)
Theorem help_defaults : forall strerror config self, 0 <= c_default_range config ->
  let t := text strerror (x_out (help config self)) in
  (exists n, numeral n (p_range (default_params config)) /\ occurs (chars "search (" ++ n ++ chars ").") t) /\
  (forall m, exists k n b note, numeral n k /\ (Rabs (B2R 24 128 (method_threshold m) - IZR k / 100) <= / 10000000)%R /\
     spaces b /\ length (chars (method_name m) ++ b) = 5%nat /\
     (resdet_get_method None = Some m /\ note = chars " (default method)" \/ resdet_get_method None <> Some m /\ note = []) /\
     occurs ([10] ++ chars "   " ++ chars (method_name m) ++ b ++ chars " - " ++ n ++ chars "%" ++ note ++ [10]) t).
Proof. exact help_defaults_claim. Qed.
Print Assumptions help_defaults.

Example help_defaults_witness : occurs (chars "search (12).") (text (fun _ => "") (x_out (help default_config "resdet"))) /\
  occurs ([10] ++ chars "   sign  - 55% (default method)" ++ [10] ++ chars "   mag   - 40%" ++ [10]) (text (fun _ => "") (x_out (help default_config "resdet"))).
Proof. exact help_defaults_example. Qed.
