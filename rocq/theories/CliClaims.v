(** @header
    Properties C46-C48, C54 and C55: the command line program. *)
From Coq Require Import Reals Sorted Ascii String.
From Verif Require Import Base Flt Util Methods Analysis Resdetect History Spec SpecAnalysis SpecUtil SpecReport Stdio Pgm Pfm Y4m Image ImageHistory SpecImage SpecFormats Cli SpecCli Demo DemoImages DemoFormats.
From Verif Require Import BaseProofs UtilProofs AnalysisProofs ResultsProofs ClientProofs WorldProofs ImageSafe ImageApi FileProofs SelectProofs FormatProofs ScanProofs AnalysisClaims CodeProofs CliProofs CliOptions CliFilm CliRun.
Open Scope string_scope.
Open Scope list_scope.
Open Scope Z_scope.

(** ** Examples *)
Definition demo_terminal : terminal := mkTerminal (fun s => if String.eqb s "50" then Some (f64_of_Z 50) else None) true.
Lemma demo_codes H l : codes_ok (system_of H l).
Proof.
  split; [intros n f e Q; inversion Q|]. split; [intros x n f e Q; inversion Q; subst; split; vm_compute; discriminate|].
  split; intros; cbn in H0; inversion H0; subst; split; vm_compute; discriminate.
Qed.
Lemma demo_forward H l : seeks_forward (system_of H l).
Proof. intros x c k b e r c' Q. cbn in Q. inversion Q; subst. auto. Qed.
Definition demo_args : list string := ["-v1"; "-r"; "2"; "-n"; "1"; "-v"; "3"; "-fauto"; "a.pgm"].
Definition demo_opts : opts := mkOpts 3 None None None (Some "2") None (Some "auto") 0 1 false false.
Lemma demo_invoked : invoked native_readers demo_env demo_terminal "resdet" demo_args w0 demo_opts Msign 0 (mkParams 2 (f32_of_Z (-1)) 0) "a.pgm"
  (snd (alloc (e_alloc demo_env) w0)).
Proof.
  exists [Opt "v" "1"; Opt "r" "2"; Opt "n" "1"; Opt "v" "3"; Opt "f" "auto"], [], (default_params default_config), [Range 2].
  split; [reflexivity|]. split; [reflexivity|]. split; [reflexivity|]. split; [reflexivity|].
  split. { exists [], [Range 2], []. split; [reflexivity|]. split; [reflexivity|]. split; [exists 2; split; reflexivity|reflexivity]. }
  split; [reflexivity|left; reflexivity].
Qed.

Lemma demo_machine l : forallb (fun c => (0 <=? c) && (c <? 256)) l = true -> zlen l < LONG_MAX - 3 -> machine_ok (system_of demo_host l).
Proof.
  intros B L. constructor; [apply system_of_ok; [exact B|lia]|reflexivity|apply demo_codes|apply demo_forward|].
  intros f. exists (length l). split; [|unfold zlen, LONG_MAX in L; unfold SIZE_MAX; lia].
  split; [intros; cbn; lia|]. split; [intros t s Q; inversion Q; cbn; lia|]. intros x t c wi he Q. cbn in Q. inversion Q.
Qed.

(** ** Options *)
(** C54.  Options may be given with their argument in the same word or the next, up to the
    first operand, or anywhere if the C library permutes the arguments. *)
Lemma option_words_claim : forall permute input rest evs args, operand input -> spelled evs args ->
  getopt optstring permute (args ++ input :: rest) =
  if permute then let '(evs', ops) := getopt optstring permute rest in (evs ++ evs', input :: ops) else (evs, input :: rest).
Proof. exact getopt_spelled. Qed.

Example option_words_example : operand "a.pgm" /\ operand "-" /\
  spelled [Opt "v" "1"; Opt "r" "2"; Opt "p" ""; Opt "o" "-3"] ["-v1"; "-r"; "2"; "-p"; "-o"; "-3"].
Proof.
  split; [intros c s; discriminate|]. split; [intros c s; discriminate|].
  apply spelled_joined; [reflexivity|discriminate|]. apply spelled_apart; [reflexivity|]. apply spelled_flag; [reflexivity|]. apply spelled_apart; [reflexivity|]. constructor.
Qed.

(** C54.  The argument "--" ends the options: all that follows are operands. *)
Lemma option_end_claim : forall permute rest evs args, spelled evs args -> getopt optstring permute (args ++ "--" :: rest) = (evs, rest).
Proof. exact getopt_end. Qed.

Example option_end_example : spelled [Opt "p" ""; Opt "v" "1"] ["-p"; "-v"; "1"] /\ getopt optstring true ["-p"; "-v"; "1"; "--"; "-v"; "a.pgm"] = ([Opt "p" ""; Opt "v" "1"], ["-v"; "a.pgm"]).
Proof. split; [apply spelled_flag; [reflexivity|]; apply spelled_apart; [reflexivity|apply spelled_none]|reflexivity]. Qed.

(** C54.  The options are accepted exactly if none of them is unknown, asks for help or the
    version, or has an offset or frame count that does not parse, and the first reader
    named exists; then the last option of each kind counts. *)
Lemma options_in_effect_claim : forall R c self evs,
  (forall o, take_options R c self evs no_opts = inr o -> last_wins evs o) /\
  ((exists o, take_options R c self evs no_opts = inr o) <->
   (Forall (fun e => ~ fatal e) evs /\
    forall l a l', evs = l ++ Opt "R" a :: l' -> (forall b, ~ In (Opt "R" b) l) -> reader_named R a)).
Proof.
  intros R c self evs. split.
  - intros o T. destruct (options_taken _ _ _ _ _ _ _ no_options T) as (A & _). exact A.
  - split.
    + intros (o & T). destruct (options_taken _ _ _ _ _ _ _ no_options T) as (_ & A & B). split; [exact A|].
      intros l a l' Q NI. destruct (B l a) as [F|F]; [exists l'; exact Q|exact NI|discriminate F|exact F].
    + intros (A & B). apply options_accepted; [exact A|]. intros l a (l' & Q) NI. right. exact (B l a l' Q NI).
Qed.

Example options_in_effect_example : Forall (fun e => ~ fatal e) [Opt "R" "pgm"; Opt "n" "3"; Opt "n" "2"] /\ reader_named native_readers "pgm" /\
  exists o, take_options native_readers default_config "resdet" [Opt "R" "pgm"; Opt "n" "3"; Opt "n" "2"] no_opts = inr o /\ o_nframes o = 2.
Proof.
  split; [repeat constructor; intros [F|[F|[F|[(F & G)|(F & [G|G])]]]]; discriminate|]. split; [exists "PGM"; split; [vm_compute; auto|reflexivity]|].
  eexists. split; reflexivity.
Qed.

(** C54.  Offsets, frame counts, ranges and filters are decimal numbers. *)
Lemma option_numbers_claim : forall a v, spells (chars a) v -> v <= SIZE_MAX -> strtoull a = Some v.
Proof.
  intros a v S B. unfold strtoull, strtoull_of. pose proof (spells_digits _ _ S) as D.
  destruct (chars a) as [|d l] eqn:CH. { exfalso. inversion S; subst. match goal with H : ?t ++ [_] = [] |- _ => destruct t; discriminate H end. }
  assert (DD := D). inversion DD as [|? ? D1 _]; subst.
  assert (SP : isspace d = false). { unfold digit, isspace in *. destruct (Z.eqb_spec d 32), (Z.leb_spec 9 d), (Z.leb_spec d 13); cbn; try reflexivity; lia. }
  cbn [drop_while]. rewrite SP. unfold split_sign.
  destruct (Z.eqb_spec d 45) as [->|]; [unfold digit in D1; lia|]. destruct (Z.eqb_spec d 43) as [->|]; [unfold digit in D1; lia|].
  assert (TD : take_while is_digit (d :: l) = d :: l). { clear -D. induction D as [|c t D _ IH]; [reflexivity|]. cbn. rewrite (proj2 (digit_is c) D), IH. reflexivity. }
  rewrite TD. rewrite (spells_value _ _ S). destruct (Z.gtb_spec v SIZE_MAX); [lia|reflexivity].
Qed.

Example option_numbers_example : spells (chars "120") 120.
Proof.
  apply (spells_next [49; 50] 12 48); [|unfold digit; lia]. apply (spells_next [49] 1 50); [|unfold digit; lia]. apply (spells_digit 49). unfold digit. lia.
Qed.
Lemma digits_taken a v : spells a v -> take_while is_digit a = a /\ split_sign a = (false, a) /\ drop_while isspace a = a /\ digits_value a = v.
Proof.
  intros S. pose proof (spells_digits _ _ S) as D. split; [|split; [|split]].
  - clear S. induction D as [|c t D _ IH]; [reflexivity|]. cbn. rewrite (proj2 (digit_is c) D), IH. reflexivity.
  - destruct D as [|d l D1 D]; [reflexivity|]. unfold split_sign. destruct (Z.eqb_spec d 45) as [->|]; [unfold digit in D1; lia|].
    destruct (Z.eqb_spec d 43) as [->|]; [unfold digit in D1; lia|reflexivity].
  - destruct D as [|d l D1 D]; [reflexivity|]. cbn [drop_while].
    assert (SP : isspace d = false). { unfold digit, isspace in *. destruct (Z.eqb_spec d 32), (Z.leb_spec 9 d), (Z.leb_spec d 13); cbn; try reflexivity; lia. }
    rewrite SP. reflexivity.
  - exact (spells_value _ _ S).
Qed.
Lemma to_int_range z : - 2^31 <= to_int z < 2^31 /\ (to_int z - z) mod 2^32 = 0.
Proof.
  unfold to_int. pose proof (Z.mod_pos_bound (z + 2^31) (2^32) ltac:(lia)). split; [lia|].
  rewrite Z.mod_eq by lia. rewrite Z.mod_eq by lia.
  replace (z + 2 ^ 31 - 2 ^ 32 * ((z + 2 ^ 31) / 2 ^ 32) - 2 ^ 31 - z) with ((- ((z + 2 ^ 31) / 2 ^ 32)) * 2^32) by ring.
  rewrite Z.div_mul by lia. lia.
Qed.
Lemma to_int_id z : - 2^31 <= z < 2^31 -> to_int z = z.
Proof. intros H. unfold to_int. rewrite Z.mod_small by lia. lia. Qed.

(** C54.  -v takes a decimal number, with or without a sign.  Its value counts modulo 2^32,
    and is taken for -1 or 0 if it is too large for a long. *)
Lemma option_verbosity_claim : forall R c self a v, spells (chars a) v ->
  exists o o', take_options R c self [Opt "v" a] no_opts = inr o /\ take_options R c self [Opt "v" (String "-" a)] no_opts = inr o' /\
    (v < 2^31 -> o_verbosity o = v) /\ (v <= 2^31 -> o_verbosity o' = - v) /\
    (v < 2^63 -> - 2^31 <= o_verbosity o < 2^31 /\ (o_verbosity o - v) mod 2^32 = 0) /\
    (v <= 2^63 -> - 2^31 <= o_verbosity o' < 2^31 /\ (o_verbosity o' + v) mod 2^32 = 0) /\
    (2^63 <= v -> o_verbosity o = -1 /\ o_verbosity o' = 0).
Proof.
  intros R c self a v S. destruct (digits_taken _ _ S) as (A & B & C & D).
  assert (V0 : 0 <= v). { clear -S. induction S; unfold digit in *; lia. }
  assert (P : strtol a = Z.min v (2^63 - 1)). { unfold strtol. rewrite C, B, A, D. reflexivity. }
  assert (N : strtol (String "-" a) = Z.max (- v) (- 2^63)).
  { unfold strtol. replace (split_sign (drop_while isspace (chars (String "-" a)))) with (true, chars a) by reflexivity. rewrite A, D. reflexivity. }
  do 2 eexists. split; [reflexivity|]. split; [reflexivity|]. cbn [o_verbosity]. rewrite P, N.
  pose proof (to_int_range v). pose proof (to_int_range (- v)) as Q. replace (to_int (- v) - - v) with (to_int (- v) + v) in Q by lia.
  split; [intros; rewrite Z.min_l by lia; apply to_int_id; lia|].
  split; [intros; rewrite Z.max_l by lia; apply to_int_id; lia|].
  split; [intros; rewrite Z.min_l by lia; assumption|]. split; [intros; rewrite Z.max_l by lia; assumption|].
  intros. rewrite Z.min_r, Z.max_r by lia. split; reflexivity.
Qed.
(** -v 4294967296 is as silent as -v 0 *)
Example option_verbosity_example : spells (chars "2") 2 /\
  exists o, take_options native_readers default_config "resdet" [Opt "v" "4294967296"] no_opts = inr o /\ o_verbosity o = 0.
Proof. split; [apply (spells_digit 50); unfold digit; lia|]. eexists. split; reflexivity. Qed.

(** C54.  -x, -r and -f set the parameters they name, in percent, and any value the
    library rejects ends the program; a filter over 255 as well. *)
Lemma option_parameters_claim : forall T o p p',
  option_params T o p = inr p' <-> exists l, asked_settings T o l /\ set_all (Some p) l = (repeat RDEOK (length l), Some p').
Proof. exact option_params_spec. Qed.

Example option_parameters_example : asked_settings demo_terminal demo_opts [Range 2].
Proof. exists [], [Range 2], []. split; [reflexivity|]. split; [reflexivity|]. split; [exists 2; split; reflexivity|reflexivity]. Qed.

(** C54.  -f auto chooses the filter by what follows the last dot of the name, without
    regard to case: 3 for JPEG and H.264, 2 for WebP, 5 for AVIF and HEIC, and none for
    anything else.  A name without a dot leaves the filter as it was. *)
Lemma filter_by_name_claim : forall o input p,
  (o_filter o <> Some "auto" -> auto_filter o input p = p) /\
  (o_filter o = Some "auto" -> without "."%char input -> auto_filter o input p = p) /\
  (forall base ext, o_filter o = Some "auto" -> input = (base ++ "." ++ ext)%string -> without "."%char ext ->
     p_range (auto_filter o input p) = p_range p /\ p_threshold (auto_filter o input p) = p_threshold p /\
     (forall e v, In (e, v) auto_table -> same_nocase e ("." ++ ext)%string -> p_filter (auto_filter o input p) = v) /\
     ((forall e v, In (e, v) auto_table -> ~ same_nocase e ("." ++ ext)%string) -> p_filter (auto_filter o input p) = 0)).
Proof. exact auto_filter_ok. Qed.

Example filter_by_name_example : without "."%char "JPG" /\ In (".jpg", 3) auto_table /\ same_nocase ".jpg" ("." ++ "JPG")%string /\
  p_filter (auto_filter demo_opts ("a.b" ++ "." ++ "JPG")%string (default_params default_config)) = 3.
Proof. split; [intros I; vm_compute in I; repeat destruct I as [I|I]; try discriminate I; exact I|]. split; [cbn; auto|]. split; reflexivity. Qed.

(** C54 as in the help text, refuted: a reader that does not exist is accepted after one
    that does. *)
Lemma reader_option_refuted_claim : exists R c self a b, ~ reader_named R b /\
  exists o, take_options R c self [Opt "R" a; Opt "R" b] no_opts = inr o /\ o_reader o = Some b.
Proof.
  exists native_readers, default_config, "resdet", "PGM", "nothing". split.
  - intros (n & I & Q). cbn in I. repeat destruct I as [<-|I]; try contradiction; discriminate Q.
  - eexists. split; reflexivity.
Qed.
(** C54 as in the help text, refuted: a verbosity that is not a number is taken for 0. *)
Lemma verbosity_option_refuted_claim : exists R c self a, (forall v, ~ spells (chars a) v) /\
  exists o, take_options R c self [Opt "v" a] no_opts = inr o /\ o_verbosity o = 0.
Proof.
  exists native_readers, default_config, "resdet", "abc". split.
  - intros v S. pose proof (spells_digits _ _ S) as D. inversion D as [|? ? D1 _]; subst. unfold digit in D1. vm_compute in D1. destruct D1 as (_ & D1). contradiction D1. reflexivity.
  - eexists. split; reflexivity.
Qed.

(** ** Every run *)
(** C55.  Whatever the arguments and the files, the program does nothing undefined and
    exits with 0 or 1.  If it exits with 1 it says why, unless -v 0 is given.  Nothing stays
    allocated, but for the parameters if both -t and -R are given, and but for one
    block if a certain allocation of the KISS transform fails. *)
Lemma cli_safe_claim : forall R E Y T self args w, env_ok E -> machine_ok Y ->
  exists x w' evs rest, cli_main R E Y T self args w = Ok (x, w') /\ getopt optstring (t_permute T) args = (evs, rest) /\
    (x_status x = 0 \/ x_status x = 1) /\
    (x_status x = 1 -> x_err x = [] -> exists a, last_arg "v" evs = Some a /\ to_int (strtol a) = 0) /\
    (holds w' w [] [] \/
     (last_arg "t" evs <> None /\ last_arg "R" evs <> None /\ exists b, holds w' w [b] []) \/
     (c_backend (e_cfg E) = KISS /\ (exists n, e_alloc E n = false) /\ exists b, holds w' w [b] [])).
Proof. exact main_outcome. Qed.

Example cli_safe_example : env_ok demo_env /\ machine_ok (system_of demo_host demo_pgm_file) /\ machine_ok (system_of demo_host [200; 0; 10]).
Proof. split; [exact demo_env_ok|]. split; apply demo_machine; reflexivity. Qed.

(** C55 without the exceptions, refuted: the parameters are lost with -t and -R. *)
Lemma cli_memory_refuted_claim : exists R E Y T self args w, env_ok E /\ machine_ok Y /\ (forall n, e_alloc E n = true) /\
  exists x w' b, cli_main R E Y T self args w = Ok (x, w') /\ holds w' w [b] [] /\ ~ In b (w_live w).
Proof.
  exists native_readers, demo_env, (system_of demo_host demo_pgm_file), demo_terminal, "resdet", ["-t"; "pgm"; "-R"; "PGM"; "a"], w0.
  split; [exact demo_env_ok|]. split; [apply demo_machine; reflexivity|]. split; [reflexivity|]. eexists _, _, 0%nat. split; [reflexivity|].
  split; [split; reflexivity|]. cbn. auto.
Qed.

(** C55.  The library's image functions return only the codes of enum RDError and negative
    errno values, and resdet_error_str has a message for all of these. *)
Lemma known_codes_claim : forall R E Y, codes_ok Y ->
  (forall f o ptrs want w im width height buf e w', open_by R E Y f o ptrs want w = Ok (im, width, height, buf, e, w') -> known_code e) /\
  (forall i buf b e buf' i', resdet_read_image_frame Y i buf = Ok (b, e, buf', i') -> known_code e) /\
  (forall i k w b e calls i' w', resdet_seek_frame E Y i k w = Ok (b, e, calls, i', w') -> known_code e) /\
  (forall e, known_code e -> exists m, resdet_error_str e = Ok m /\ m <> NoMsg).
Proof.
  intros R E Y C. split.
  - intros f o ptrs want w im width height buf e w' Q. pose proof (open_by_code Y C R E f o ptrs want w) as K. rewrite Q in K. exact K.
  - split; [exact (read_code Y C)|]. split; [|exact error_message]. intros i k w b e calls i' w'. exact (seek_code Y C E i k w b e calls i' w').
Qed.

Example known_codes_example : codes_ok (system_of demo_host demo_pgm_file).
Proof. apply demo_codes. Qed.

(** ** Results *)
(** C46, C48.  A run on an input prints what a program that hands the frames to the
    library gets, and exits with 0, or 1 with -v 0 if only the size of the image is
    reported.  If that program would get no results the run exits with 1 and a message. *)
Lemma run_results_claim : forall R E Y T self args w o m blk p input w1, env_ok E -> machine_ok Y ->
  invoked R E T self args w o m blk p input w1 ->
  exists x w', cli_main R E Y T self args w = Ok (x, w') /\
  ((exists width height used rw rh, detects R E Y o m (auto_filter o input p) input w1 width height used rw rh /\
      x_status x = status_of (o_verbosity o) rw rh /\ x_out x = printed (o_verbosity o) width height rw rh /\
      (o_progress o = false -> x_err x = [])) \/
   ((forall width height used rw rh, ~ detects R E Y o m (auto_filter o input p) input w1 width height used rw rh) /\
      x_status x = 1 /\ x_out x = [] /\ x_err x <> [])).
Proof.
  intros R E Y T self args w o m blk p input w1 EO MO IN. destruct (run_outcome R E Y T self args w o m blk p input w1 EO MO IN) as (x & w' & Q & C & _).
  exists x, w'. split; [exact Q|]. destruct C as [(width & height & used & rw & rh & D & XS & XO & XE & _)|C]; [left; exists width, height, used, rw, rh; auto|right; exact C].
Qed.

Example run_results_example : exists w1,
  invoked native_readers demo_env demo_terminal "resdet" demo_args w0 demo_opts Msign 0 (mkParams 2 (f32_of_Z (-1)) 0) "a.pgm" w1.
Proof. eexists. exact demo_invoked. Qed.

(** C46, C48.  These lists are those of the library for the frames: the properties of
    reported lists apply. *)
Lemma run_reported_claim : forall R E Y T self args w o m blk p input w1 width height used rw rh, env_ok E -> machine_ok Y ->
  invoked R E T self args w o m blk p input w1 ->
  detects R E Y o m (auto_filter o input p) input w1 width height used rw rh ->
  let p := Some (auto_filter o input p) in
  client_ok E width height p /\ countable used /\ used <> [] /\
  reported E (Some m) width height p used (seen_x E width height used) width rw /\
  reported E (Some m) width height p used (seen_y E width height used) height rh.
Proof.
  intros R E Y T self args w o m blk p input w1 width height used rw rh EO MO IN D.
  destruct (invoked_run R E Y T self args w o m blk p input w1 (eo_config _ EO) IN) as (_ & _ & CP & _). exact (detects_reported _ _ _ _ _ _ _ _ _ _ _ _ _ EO MO CP D).
Qed.

(** C46.  With -v 0 nothing is printed to standard output, and the exit status is 0
    exactly if the library reports a width or height other than that of the image. *)
Lemma silent_status_claim : forall R E Y T self args w o m blk p input w1, env_ok E -> machine_ok Y ->
  invoked R E T self args w o m blk p input w1 -> o_verbosity o = 0 ->
  exists x w', cli_main R E Y T self args w = Ok (x, w') /\ x_out x = [] /\
    (x_status x = 0 <-> exists width height used rw rh r, detects R E Y o m (auto_filter o input p) input w1 width height used rw rh /\
       ((In r rw /\ r_index r <> width) \/ (In r rh /\ r_index r <> height))).
Proof.
  intros R E Y T self args w o m blk p input w1 EO MO IN V0. destruct (run_outcome R E Y T self args w o m blk p input w1 EO MO IN) as (x & w' & Q & C & _).
  exists x, w'. split; [exact Q|]. cbv zeta in C.
  destruct C as [(width & height & used & rw & rh & D & XS & XO & _)|(N & XS & XO & _)].
  - rewrite XO, V0. split; [reflexivity|]. rewrite XS, V0.
    destruct (run_reported_claim _ _ _ _ _ _ _ _ _ _ _ _ _ _ _ _ _ _ EO MO IN D) as (HC & CT & _ & R1 & R2).
    destruct (list_order_claim _ _ _ _ _ _ _ _ _ HC CT R1) as (_ & ow & -> & PW). destruct (list_order_claim _ _ _ _ _ _ _ _ _ HC CT R2) as (_ & oh & -> & PH).
    unfold status_of, own_only. cbn [Z.eqb]. rewrite !app_length. cbn [length]. split.
    + intros S. destruct ow as [|a ow].
      * destruct oh as [|a oh]; [discriminate S|]. exists width, height, used, ([] ++ [own_size width]), ((a :: oh) ++ [own_size height]), a. split; [exact D|]. right. split; [left; reflexivity|]. apply PH. left. reflexivity.
      * exists width, height, used, ((a :: ow) ++ [own_size width]), (oh ++ [own_size height]), a. split; [exact D|]. left. split; [left; reflexivity|]. apply PW. left. reflexivity.
    + intros (width' & height' & used' & rw & rh & r & D' & C). destruct (detects_det _ _ _ _ _ _ _ _ _ _ _ _ _ _ _ _ _ _ D D') as (<- & <- & <- & <- & <-).
      destruct C as [(I & NE)|(I & NE)]; apply in_app_or in I; destruct I as [I|[<-|[]]]; try (elim NE; reflexivity).
      * destruct ow as [|a ow]; [contradiction|]. cbn [length Nat.add Nat.eqb]. replace (length ow + 1)%nat with (S (length ow)) by lia. reflexivity.
      * destruct oh as [|a oh]; [contradiction|]. cbn [length Nat.add Nat.eqb]. replace (length oh + 1)%nat with (S (length oh)) by lia. cbn. rewrite andb_false_r. reflexivity.
  - rewrite XO, XS. split; [reflexivity|]. split; [discriminate|]. intros (width & height & used & rw & rh & r & D & _). elim (N _ _ _ _ _ D).
Qed.

Example silent_status_example : exists o m blk p w1,
  invoked native_readers demo_env demo_terminal "resdet" ["-v"; "0"; "a.pgm"] w0 o m blk p "a.pgm" w1 /\ o_verbosity o = 0.
Proof.
  exists (mkOpts 0 None None None None None None 0 0 false false), Msign, 0%nat, (default_params default_config), (snd (alloc (e_alloc demo_env) w0)). split; [|reflexivity].
  exists [Opt "v" "0"], [], (default_params default_config), []. split; [reflexivity|]. split; [reflexivity|]. split; [reflexivity|]. split; [reflexivity|].
  split. { exists [], [], []. repeat split; reflexivity. }
  split; [reflexivity|left; reflexivity].
Qed.

(** C46 as first stated, refuted: with -v 0 an image that is not upscaled and a file that
    cannot be read give the same status. *)
Lemma silent_status_refuted_claim : exists R E Y Y' T self args w, env_ok E /\ machine_ok Y /\ machine_ok Y' /\
  match cli_main R E Y T self args w, cli_main R E Y' T self args w with
  | Ok (x, _), Ok (x', _) => x_err x = [] /\ x_err x' <> [] /\ x_status x = x_status x'
  | _, _ => False
  end.
Proof.
  exists native_readers, demo_env, (system_of demo_host demo_pgm_file), (system_of demo_host []), demo_terminal, "resdet", ["-v"; "0"; "a.pgm"], w0.
  split; [exact demo_env_ok|]. split; [apply demo_machine; reflexivity|]. split; [apply demo_machine; reflexivity|].
  vm_compute. repeat split. discriminate.
Qed.

(** C48.  At the default verbosity the size of the image is printed, then for each
    dimension the result of highest confidence. *)
Lemma best_guess_claim : forall R E Y T self args w o m blk p input w1 x w' width height used rw rh, env_ok E -> machine_ok Y ->
  invoked R E T self args w o m blk p input w1 -> ~ 0 <= o_verbosity o <= 3 ->
  cli_main R E Y T self args w = Ok (x, w') -> detects R E Y o m (auto_filter o input p) input w1 width height used rw rh ->
  exists bw bh note more, x_status x = 0 /\ In bw rw /\ In bh rh /\
    (forall r, In r rw -> (conf_real r <= conf_real bw)%R) /\ (forall r, In r rh -> (conf_real r <= conf_real bh)%R) /\
    (note = " (not upsampled)" <-> rw = [own_size width] /\ rh = [own_size height]) /\
    x_out x = [Str "given: "; Num width; Str "x"; Num height; Str newline;
               Str "best guess: "; Num (r_index bw); Str "x"; Num (r_index bh); Str note; Str newline] ++ more.
Proof.
  intros R E Y T self args w o m blk p input w1 x w' width height used rw rh EO MO IN V Q D.
  destruct (run_outcome R E Y T self args w o m blk p input w1 EO MO IN) as (x2 & w2 & Q2 & C & _). rewrite Q in Q2. inversion Q2; subst x2 w2. clear Q2.
  destruct C as [(width' & height' & used' & rw' & rh' & D' & XS & XO & _)|(N & _)]; [|elim (N _ _ _ _ _ D)].
  destruct (detects_det _ _ _ _ _ _ _ _ _ _ _ _ _ _ _ _ _ _ D D') as (<- & <- & <- & <- & <-).
  destruct (run_reported_claim _ _ _ _ _ _ _ _ _ _ _ _ _ _ _ _ _ _ EO MO IN D) as (HC & CT & _ & R1 & R2).
  destruct (list_order_claim _ _ _ _ _ _ _ _ _ HC CT R1) as (SW & ow & EW & PW). destruct (list_order_claim _ _ _ _ _ _ _ _ _ HC CT R2) as (SH & oh & EH & PH).
  assert (BST : forall l others len, l = others ++ [own_size len] -> StronglySorted (fun a b => (conf_real b <= conf_real a)%R) l ->
            exists b t, l = b :: t /\ best l = r_index b /\ forall r, In r l -> (conf_real r <= conf_real b)%R).
  { intros l others len -> S. destruct (others ++ [own_size len]) as [|b t] eqn:EQ; [destruct others; discriminate|]. exists b, t. split; [reflexivity|]. split; [reflexivity|].
    intros r [<-|I]; [apply Rle_refl|]. inversion S as [|? ? _ F]; subst. rewrite Forall_forall in F. exact (F r I). }
  destruct (BST _ _ _ EW SW) as (bw & tw & QW & BW & MW). destruct (BST _ _ _ EH SH) as (bh & th & QH & BH & MH).
  exists bw, bh, (if own_only rw rh then " (not upsampled)" else ""). eexists.
  assert (V0 : (o_verbosity o =? 0) = false) by (apply Z.eqb_neq; lia). assert (V1 : (o_verbosity o =? 1) = false) by (apply Z.eqb_neq; lia).
  assert (V2 : (o_verbosity o =? 2) = false) by (apply Z.eqb_neq; lia). assert (V3 : (o_verbosity o =? 3) = false) by (apply Z.eqb_neq; lia).
  split; [rewrite XS; unfold status_of; rewrite V0; reflexivity|]. split; [rewrite QW; left; reflexivity|]. split; [rewrite QH; left; reflexivity|].
  split; [exact MW|]. split; [exact MH|]. split.
  - unfold own_only. rewrite EW, EH, !app_length. cbn [length]. destruct ow as [|a ow], oh as [|b oh]; cbn [length Nat.add Nat.eqb andb app].
    + split; [intros _; split; reflexivity|reflexivity].
    + replace (length oh + 1)%nat with (S (length oh)) by lia. cbn. split; [discriminate|]. intros (_ & F). destruct oh; discriminate F.
    + replace (length ow + 1)%nat with (S (length ow)) by lia. cbn. split; [discriminate|]. intros (F & _). destruct ow; discriminate F.
    + replace (length ow + 1)%nat with (S (length ow)) by lia. cbn. split; [discriminate|]. intros (F & _). destruct ow; discriminate F.
  - rewrite XO. unfold printed. rewrite V0, V1, V2, V3. cbn [orb]. rewrite BW, BH. cbn [app]. reflexivity.
Qed.

Example best_guess_example : exists o m blk p w1 x w',
  invoked native_readers demo_env demo_terminal "resdet" ["a.pgm"] w0 o m blk p "a.pgm" w1 /\ ~ 0 <= o_verbosity o <= 3 /\
  cli_main native_readers demo_env (system_of demo_host demo_pgm_file) demo_terminal "resdet" ["a.pgm"] w0 = Ok (x, w') /\ x_status x = 0.
Proof.
  assert (IN : invoked native_readers demo_env demo_terminal "resdet" ["a.pgm"] w0 no_opts Msign 0 (default_params default_config) "a.pgm" (snd (alloc (e_alloc demo_env) w0))).
  { exists [], [], (default_params default_config), []. split; [reflexivity|]. split; [reflexivity|]. split; [reflexivity|]. split; [reflexivity|].
    split. { exists [], [], []. repeat split; reflexivity. } split; [reflexivity|left; reflexivity]. }
  assert (ST : match cli_main native_readers demo_env (system_of demo_host demo_pgm_file) demo_terminal "resdet" ["a.pgm"] w0 with Ok (x, _) => x_status x = 0 | _ => False end) by (vm_compute; reflexivity).
  destruct (cli_main native_readers demo_env (system_of demo_host demo_pgm_file) demo_terminal "resdet" ["a.pgm"] w0) as [[x w']|]; [|contradiction].
  eexists _, _, _, _, _, x, w'. split; [exact IN|]. split; [cbn; lia|]. split; [reflexivity|exact ST].
Qed.

(** C47.  A successful run prints to standard error nothing without -p, and with -p the
    frames skipped as the reader reports them, then the number of each frame analysed. *)
Lemma progress_notes_claim : forall R E Y T self args w o m blk p input w1 x w' width height used rw rh, env_ok E -> machine_ok Y ->
  invoked R E T self args w o m blk p input w1 ->
  cli_main R E Y T self args w = Ok (x, w') -> detects R E Y o m (auto_filter o input p) input w1 width height used rw rh ->
  exists calls, skips R E Y o input w1 calls /\ x_err x = notes o calls (length used).
Proof.
  intros R E Y T self args w o m blk p input w1 x w' width height used rw rh EO MO IN Q D.
  destruct (run_outcome R E Y T self args w o m blk p input w1 EO MO IN) as (x2 & w2 & Q2 & C & _). rewrite Q in Q2. inversion Q2; subst x2 w2. clear Q2.
  destruct C as [(width' & height' & used' & rw' & rh' & D' & _ & _ & _ & N)|(N & _)]; [|elim (N _ _ _ _ _ D)].
  destruct (detects_det _ _ _ _ _ _ _ _ _ _ _ _ _ _ _ _ _ _ D D') as (<- & <- & <- & <- & <-). exact N.
Qed.

Example progress_notes_example : exists x w',
  cli_main native_readers demo_env (system_of demo_host demo_pfm_file) demo_terminal "resdet" ["-p"; "-o1"; "a.pfm"] w0 = Ok (x, w') /\
  x_status x = 0 /\ x_err x = note "Seeking past frame " 1 ++ [Str newline] ++ note "Analyzing frame " 2 ++ [Str newline].
Proof.
  assert (C : match cli_main native_readers demo_env (system_of demo_host demo_pfm_file) demo_terminal "resdet" ["-p"; "-o1"; "a.pfm"] w0 with
              | Ok (x, _) => x_status x = 0 /\ x_err x = note "Seeking past frame " 1 ++ [Str newline] ++ note "Analyzing frame " 2 ++ [Str newline] | _ => False end) by (vm_compute; split; reflexivity).
  destruct (cli_main native_readers demo_env (system_of demo_host demo_pfm_file) demo_terminal "resdet" ["-p"; "-o1"; "a.pfm"] w0) as [[x w']|]; [|contradiction]. exists x, w'. split; [reflexivity|exact C].
Qed.

(** ** Frames *)
(** C47.  On a well-formed PGM, PFM or YUV4MPEG2 file exactly the frames offset, ...,
    offset + n - 1 are analysed, those up to the end of the file if fewer exist or -n
    is not given. *)
Lemma frame_range_claim : forall R E Y T self args w o m blk p input w1 s width height name limit fs, env_ok E -> machine_ok Y ->
  invoked R E T self args w o m blk p input w1 ->
  film E (y_host Y) width height (s_rest s) name limit fs -> 1 <= width <= SIZE_MAX -> 1 <= height <= SIZE_MAX ->
  delivers Y input s -> selects R Y o input name -> seekable_film E o name width height s ->
  let rest := skipn (Z.to_nat (o_offset o)) fs in
  let used := if o_nframes o =? 0 then rest else firstn (Z.to_nat (o_nframes o)) rest in
  (forall width' height' used' er wd, supplies R E Y o input w1 width' height' used' er wd ->
     limit /\ width' = width /\ height' = height /\ o_offset o <= Z.of_nat (length fs) /\ used' = used /\ (s_broken s = false -> er = RDEOK)) /\
  (limit -> (forall n, e_alloc E n = true) -> o_offset o <= Z.of_nat (length fs) -> exists er wd, supplies R E Y o input w1 width height used er wd).
Proof.
  intros R E Y T self args w o m blk p input w1 s width height name limit fs EO MO IN FM W H DL SL SK rest used.
  destruct (invoked_run R E Y T self args w o m blk p input w1 (eo_config _ EO) IN) as (_ & _ & _ & _ & O0).
  destruct (film_supplies R E Y o input w1 s width height name limit fs EO MO O0 FM W H DL SL SK) as (A & B). split; [|exact B].
  intros width' height' used' er wd SU. destruct (A _ _ _ _ _ SU) as (L & A1 & A2 & A3 & A4 & A5). repeat (split; [assumption|]).
  intros NB. rewrite A5. unfold end_error, film_end, end_of. rewrite NB. destruct (_ && _); [reflexivity|]. destruct (String.eqb name "PGM"); reflexivity.
Qed.

Example frame_range_example : exists o m blk p w1,
  invoked native_readers demo_env demo_terminal "resdet" ["-o"; "1"; "-R"; "pfm"; "-"] w0 o m blk p "-" w1 /\ o_offset o = 1 /\
  machine_ok (system_of demo_host demo_pfm_file) /\
  film demo_env demo_host 1 2 demo_pfm_file "PFM" (within demo_env 1 2 1) [[f0; f1]; [f1; f0]] /\
  delivers (system_of demo_host demo_pfm_file) "-" (pipe_of demo_pfm_file) /\
  selects native_readers (system_of demo_host demo_pfm_file) o "-" "PFM" /\ seekable_film demo_env o "PFM" 1 2 (pipe_of demo_pfm_file).
Proof.
  exists (mkOpts (-1) None None (Some "pfm") None None None 1 0 false true), Msign, 0%nat, (default_params default_config), (snd (alloc (e_alloc demo_env) w0)). split; [|split; [reflexivity|]].
  - exists [Opt "o" "1"; Opt "R" "pfm"], [], (default_params default_config), []. split; [reflexivity|]. split; [reflexivity|]. split; [reflexivity|]. split; [reflexivity|].
    split. { exists [], [], []. repeat split; reflexivity. } split; [reflexivity|left; reflexivity].
  - split; [apply demo_machine; reflexivity|]. split; [exact demo_pfm_film|]. split; [apply (demo_delivers demo_host demo_pfm_file "-"); [reflexivity|vm_compute; discriminate]|].
    split; [split; [cbn; auto|reflexivity]|]. intros _ _. split; [vm_compute; discriminate|right; reflexivity].
Qed.

(** C47.  If the offset lies behind the last frame the program exits with 1 and a message. *)
Lemma frame_range_passed_claim : forall R E Y T self args w o m blk p input w1 s width height name limit fs, env_ok E -> machine_ok Y ->
  invoked R E T self args w o m blk p input w1 ->
  film E (y_host Y) width height (s_rest s) name limit fs -> 1 <= width <= SIZE_MAX -> 1 <= height <= SIZE_MAX ->
  delivers Y input s -> selects R Y o input name -> seekable_film E o name width height s -> Z.of_nat (length fs) <= o_offset o ->
  exists x w', cli_main R E Y T self args w = Ok (x, w') /\ x_status x = 1 /\ x_out x = [] /\ x_err x <> [].
Proof.
  intros R E Y T self args w o m blk p input w1 s width height name limit fs EO MO IN FM W H DL SL SK OF.
  destruct (invoked_run R E Y T self args w o m blk p input w1 (eo_config _ EO) IN) as (_ & _ & CP & _ & O0).
  destruct (film_supplies R E Y o input w1 s width height name limit fs EO MO O0 FM W H DL SL SK) as (A & _).
  destruct (run_outcome R E Y T self args w o m blk p input w1 EO MO IN) as (x & w' & Q & C & _). exists x, w'. split; [exact Q|].
  destruct C as [(width' & height' & used & rw & rh & D & _)|(_ & C)]; [|exact C].
  destruct (detects_reported _ _ _ _ _ _ _ _ _ _ _ _ _ EO MO CP D) as (_ & _ & NU & _). destruct D as (er & wd & out & bw & bh & wd' & SU & _).
  destruct (A _ _ _ _ _ SU) as (_ & _ & _ & _ & U & _). elim NU. rewrite U. unfold first_frames. rewrite skipn_all2 by lia. destruct (_ =? 0); [reflexivity|apply firstn_nil].
Qed.

Example frame_range_passed_example : exists o m blk p w1,
  invoked native_readers demo_env demo_terminal "resdet" ["-o"; "2"; "-R"; "pfm"; "-"] w0 o m blk p "-" w1 /\ Z.of_nat (length [[f0; f1]; [f1; f0]]) <= o_offset o.
Proof.
  exists (mkOpts (-1) None None (Some "pfm") None None None 2 0 false true), Msign, 0%nat, (default_params default_config), (snd (alloc (e_alloc demo_env) w0)). split.
  - exists [Opt "o" "2"; Opt "R" "pfm"], [], (default_params default_config), []. split; [reflexivity|]. split; [reflexivity|]. split; [reflexivity|]. split; [reflexivity|].
    split. { exists [], [], []. repeat split; reflexivity. } split; [reflexivity|left; reflexivity].
  - cbn. lia.
Qed.
