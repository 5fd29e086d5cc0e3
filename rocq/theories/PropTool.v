(**     Properties C49, C50, C56 and C57: the tools profile, stat and imgread. *)
From Coq Require Import Reals Sorted Ascii String.
From Verif Require Import Base Flt Util Methods Analysis Resdetect History Spec SpecAnalysis SpecUtil SpecReport Stdio Pgm Pfm Y4m Image ImageHistory SpecImage SpecFormats Cli SpecCli Tools SpecTools Demo DemoImages DemoFormats.
From Coq Require Import Permutation Lra.
From Flocq Require Import Core IEEE754.Binary.
From Verif Require Import BaseProofs FltProofs UtilProofs AnalysisProofs ResultsProofs ClientProofs WorldProofs ImageSafe ImageApi FileProofs SelectProofs FormatProofs ScanProofs AnalysisClaims CodeProofs CliProofs CliClaims
  StatProofs ProfileProofs StatRun CopyProofs.
Open Scope string_scope.
Open Scope list_scope.
Open Scope Z_scope.
From Verif Require Import ToolClaims.

(** C49.  The comparison stays in bounds.  It counts the indices that are in one list only,
    and as additional and as missing also the same number of indices that are in both:
    none if both lists ascend. *)
Theorem comparison_counts : forall known right n plus minus, zlen known < 2^62 -> 0 <= n <= zlen right -> n < 2^62 -> 0 <= plus < 2^63 -> 0 <= minus < 2^63 ->
  let found := map r_index (firstn (Z.to_nat n) right) in NoDup known -> NoDup found ->
  exists extra, 0 <= extra /\ (ascending known -> ascending found -> extra = 0) /\
    diffres known (zlen known) right n plus minus = Ok (plus + absent found known + extra, minus + absent known found + extra).
Proof. exact comparison_counts_claim. Qed.
Print Assumptions comparison_counts.

Example comparison_counts_witness : exists known right, NoDup known /\ NoDup (map r_index right) /\ ascending known /\ ascending (map r_index right) /\
  absent known (map r_index right) = 1 /\ absent (map r_index right) known = 2 /\ diffres known (zlen known) right (zlen right) 0 0 = Ok (2, 1).
Proof. exact comparison_counts_example. Qed.

(** C49 without the condition, refuted: the library reports in order of confidence.  All
    resolutions known are found and no others, and two are counted as additional and missing. *)
Theorem comparison_order_refuted : exists R E Y clock lines w outs ms ret w' file, env_ok E /\ machine_ok Y /\
  lines = [chars file ++ [10]; chars "15 16 17" ++ [10]; chars "30" ++ [10]] /\ profile_main R E Y clock lines w = Ok (outs, ms, ret, w') /\
  (forall x, In x (list_of (resdetect_file R E Y (Some file) None everything (Some Msign) None no_outs w)) <-> x = 15 \/ x = 16 \/ x = 17) /\
  exists t, In (Diff Msign t 2 3) outs.
Proof. exact comparison_order_refuted_claim. Qed.
Print Assumptions comparison_order_refuted.

(** C57.  A run of profile does nothing undefined, frees everything it allocates, and
    prints the entries of the dictionary in order up to the first problem.  For each method
    it prints the time used and the comparison with the lists the library reports; the
    status is 1 exactly if a detection failed or an entry is incomplete, not if an image
    could not be read. *)
Theorem profile_run : forall R E Y clock lines w, env_ok E -> machine_ok Y -> Forall (fun l => zlen l < 2^61) lines ->
  exists outs ms ret w' leak, profile_main R E Y clock lines w = Ok (outs, ms, ret, w') /\ holds w' w leak [] /\ leak_ok E leak /\
    printed_run R E Y clock lines outs ret /\ map fst ms = resdet_methods /\
    forall m t, In (m, t) ms -> accounts m outs no_total t.
Proof. exact profile_run_claim. Qed.
Print Assumptions profile_run.

Example profile_run_witness : env_ok demo_env /\ machine_ok (system_of demo_host demo_order) /\ Forall (fun l => zlen l < 2^61) demo_dictionary /\
  diffs_of (profile_main native_readers demo_env (system_of demo_host demo_order) demo_clock [chars "a.pfm" ++ [10]; chars "15 17" ++ [10]; chars "30" ++ [10]] w0) = [(2, 2); (3, 2); (0, 3); (0, 3)].
Proof. exact profile_run_example. Qed.

(** C57.  The time printed for a method is the difference of the two clock readings. *)
Theorem profile_time : forall a b, proper_time a -> proper_time b -> proper_time (diffts a b) /\ micros (diffts a b) = micros b - micros a.
Proof. exact profile_time_claim. Qed.
Print Assumptions profile_time.

Example profile_time_witness : proper_time (demo_clock 0) /\ proper_time (mkTime 2 5) /\ diffts (demo_clock 0) (mkTime 2 5) = mkTime 1 6.
Proof. exact profile_time_example. Qed.

(** C57.  How it is printed: the microseconds are the last of nine digits behind the point. *)
Theorem profile_time_text : forall t, proper_time t -> 0 <= tv_sec t <= SIZE_MAX ->
  exists b s u, time_text t = b ++ s ++ [46] ++ u /\ blank b /\ spells s (tv_sec t) /\ length u = 9%nat /\ spells u (tv_usec t).
Proof. exact profile_time_text_claim. Qed.
Print Assumptions profile_time_text.

(** C57, what the text stands for, refuted: read as seconds with a decimal fraction it is not
    the time measured. *)
Theorem profile_time_text_refuted : exists t, proper_time t /\ micros t = 1500000 /\ time_text t = chars " 1.000500000".
Proof. exact profile_time_text_refuted_claim. Qed.
Print Assumptions profile_time_text_refuted.

(** C57, a dictionary whose last line is not terminated, refuted: the last character is lost. *)
Theorem profile_last_line_refuted : exists R E Y clock w lines last, env_ok E /\ machine_ok Y /\
  match profile_main R E Y clock (lines ++ [last]) w, profile_main R E Y clock (lines ++ [last ++ [10]]) w with
  | Ok (_, _, ret1, _), Ok (_, _, ret2, _) => ret1 = 1 /\ ret2 = 0
  | _, _ => False
  end.
Proof. exact profile_last_line_refuted_claim. Qed.
Print Assumptions profile_last_line_refuted.

(** C50.  A run of stat does nothing undefined and frees everything it allocates.  It either
    fails with a message, or judges the lists the library reports; then it calls every
    detected resolution an extreme outlier, and none a mild one. *)
Theorem stat_run : forall R E Y file args w, env_ok E -> machine_ok Y ->
  let m := resdet_get_method (hd_error args) in
  exists e s msg w' leak, stat_main R E Y (file :: args) w = Ok (Some (e, s, msg), w') /\ holds w' w leak [] /\ leak_ok E leak /\
    ((e <> RDEOK /\ s = None /\ exists t, msg = Some t /\ resdet_error_str e = Ok t) \/
     (e = RDEOK /\ msg = None /\ exists width height fs rw rh a b, reads_as R E Y file width height fs /\ client_ok E width height None /\ countable fs /\
        reported E m width height None fs (seen_x E width height fs) width rw /\ reported E m width height None fs (seen_y E width height fs) height rh /\
        s = Some (a, b) /\ st_mild a = [] /\ st_extreme a = removelast rw /\ st_mild b = [] /\ st_extreme b = removelast rh)).
Proof. exact stat_run_claim. Qed.
Print Assumptions stat_run.

Example stat_run_witness : env_ok demo_env /\ machine_ok (system_of demo_host demo_order) /\
  stat_of (stat_main native_readers demo_env (system_of demo_host demo_order) ["a.pfm"] w0) = Some ([17; 16; 15], []).
Proof. exact stat_run_example. Qed.

(** C50, outliers, refuted: a resolution of less than median confidence is an extreme outlier. *)
Theorem stat_outliers_refuted : exists R E Y file w, env_ok E /\ machine_ok Y /\
  match stat_main R E Y [file] w with
  | Ok (Some (0, Some (a, _), None), _) => exists r, In r (st_extreme a) /\ flt (r_conf r) (st_median a) = true
  | _ => False
  end.
Proof. exact stat_outliers_refuted_claim. Qed.
Print Assumptions stat_outliers_refuted.

(** C50.  On a list in ascending order the outliers are what the fences say. *)
Theorem stat_ascending : forall rw cw st, statres rw cw = Ok st -> let l := firstn (Z.to_nat cw) rw in
  StronglySorted (fun a b => (conf_real a <= conf_real b)%R) l -> Forall confident l -> is_finite 24 128 (st_inner st) = true -> is_finite 24 128 (st_outer st) = true ->
  (B2R 24 128 (st_inner st) <= B2R 24 128 (st_outer st))%R ->
  forall r, (In r (st_mild st) <-> In r l /\ (B2R 24 128 (st_inner st) <= conf_real r < B2R 24 128 (st_outer st))%R) /\
            (In r (st_extreme st) <-> In r l /\ (B2R 24 128 (st_outer st) <= conf_real r)%R).
Proof. exact stat_ascending_claim. Qed.
Print Assumptions stat_ascending.

Example stat_ascending_witness : match statres demo_ascending 16 with
  | Ok st => (is_finite 24 128 (st_inner st), is_finite 24 128 (st_outer st), negb (flt (st_outer st) (st_inner st)), map r_index (st_mild st), map r_index (st_extreme st)) = (true, true, true, [6], [100])
  | _ => False
  end.
Proof. exact stat_ascending_example. Qed.

(** C56.  With two arguments, imgread does nothing undefined, frees and closes everything
    and returns 0.  The output has all frames that could be read, as a PFM file if the host
    is little endian. *)
Theorem imgread_run : forall R E Y create file output rest w, env_ok E -> machine_ok Y ->
  exists im width height ob e0 w1, resdet_open_image R E Y (Some file) None true true w = Ok (im, width, height, ob, e0, w1) /\
  exists c w', imgread_main R E Y create (file :: output :: rest) w = Ok (c, w') /\ holds w' w [] [] /\ cp_status c = 0 /\
  ((im = None /\ e0 <> RDEOK /\ cp_file c = None /\ exists msg, resdet_error_str e0 = Ok msg /\ cp_err c = Some msg) \/
   (exists i, im = Some i /\ create output = false /\ cp_file c = None /\ cp_err c = None) \/
   (exists i fs er i' l, im = Some i /\ create output = true /\ frames Y i fs er i' /\ cp_file c = Some l /\
      (er = RDEOK -> cp_err c = None) /\ (er <> RDEOK -> exists msg, resdet_error_str er = Ok msg /\ cp_err c = Some msg) /\
      1 <= width /\ 1 <= height /\ width * height <= SIZE_MAX /\
      (h_little (y_host Y) = true -> scale_text (y_host Y) true (chars "-1.0") -> pfm_frames (y_host Y) (Some false) width height [] fs l))).
Proof. exact imgread_run_claim. Qed.
Print Assumptions imgread_run.

Example imgread_run_witness : env_ok demo_env /\ machine_ok (system_of demo_host demo_pfm_file) /\ h_little demo_host = true /\ scale_text demo_host true (chars "-1.0") /\
  copy_of (imgread_main native_readers demo_env (system_of demo_host demo_pfm_file) (fun _ => true) ["a.pfm"; "b.pfm"] w0) =
    Some (0, Some ((demo_pfm_head "-1.0" ++ [0; 0; 128; 63] ++ [0; 0; 0; 0]) ++ (demo_pfm_head "-1.0" ++ [0; 0; 0; 0] ++ [0; 0; 128; 63])), false).
Proof. exact imgread_run_example. Qed.

(** C56.  So a file written by imgread on a little-endian host reads as the same frames, if
    there are any and the host can read its own file. *)
Theorem imgread_round_trip : forall R E Y create file output rest w c w' l, env_ok E -> machine_ok Y ->
  imgread_main R E Y create (file :: output :: rest) w = Ok (c, w') -> cp_file c = Some l -> l <> [] -> h_little (y_host Y) = true -> scale_text (y_host Y) true (chars "-1.0") ->
  exists width height fs, (exists i ob w1 er i', resdet_open_image R E Y (Some file) None true true w = Ok (Some i, width, height, ob, RDEOK, w1) /\ frames Y i fs er i' /\ (er = RDEOK <-> cp_err c = None)) /\
  forall Y' copy s want wd, system_ok Y' -> y_host Y' = y_host Y -> r_pfm R = true -> delivers Y' copy s -> s_rest s = l ->
    opens_as E width height (within E width height 1) (fun i => exists i', frames Y' i fs (end_of s) i') (resdet_open_image_with_reader R E Y' (Some copy) (Some "PFM") true want wd).
Proof. exact imgread_round_trip_claim. Qed.
Print Assumptions imgread_round_trip.

(** C56 on big-endian hosts, refuted: the file says little endian, the samples are not. *)
Theorem imgread_big_endian_refuted : exists R E Y create file output w c w' l, env_ok E /\ machine_ok Y /\ h_little (y_host Y) = false /\
  imgread_main R E Y create [file; output] w = Ok (c, w') /\ cp_file c = Some l /\ cp_err c = None /\
  firstn 2 (first_samples (resdet_read_image R E Y (Some file) None true w)) = [0; 1065353216] /\
  firstn 2 (first_samples (resdet_read_image R E (system_of (y_host Y) l) (Some output) None true w)) = [0; 32831].
Proof. exact imgread_big_endian_refuted_claim. Qed.
Print Assumptions imgread_big_endian_refuted.

(** C56, exit status, refuted: 0 although nothing could be read or written. *)
Theorem imgread_status_refuted : exists R E Y create file output w, env_ok E /\ machine_ok Y /\
  copy_of (imgread_main R E Y create [file; output] w) = Some (0, None, true).
Proof. exact imgread_status_refuted_claim. Qed.
Print Assumptions imgread_status_refuted.

(** C56, the number of arguments, refuted: with only an input, a null pointer is opened. *)
Theorem imgread_arguments_refuted : exists R E Y create file w, env_ok E /\ machine_ok Y /\ imgread_main R E Y create [file] w = Undef NullDeref.
Proof. exact imgread_arguments_refuted_claim. Qed.
Print Assumptions imgread_arguments_refuted.
