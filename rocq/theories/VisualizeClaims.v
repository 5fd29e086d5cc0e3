(** @header
    Property C93: the lines that visualize.sh draws. *)
From Coq Require Import Ascii String Lia.
From Verif Require Import Base Flt Util Methods Analysis History Stdio Pgm Pfm Y4m Image ImageHistory Cli Printf Visualize.
From Verif Require Import Spec SpecUtil SpecAnalysis SpecReport SpecFormats SpecImage SpecCli SpecText SpecVisualize Demo DemoImages.
From Verif Require Import DemoFormats DemoFormats CliProofs CliClaims TextProofs TextRuns TextClaims VisualizeProofs.
Import ListNotations.
Open Scope string_scope.
Open Scope list_scope.
Open Scope Z_scope.

Definition visualizer (R : readers) (E : env) (Y : system) (T : terminal) (strerror : Z -> string) (w : world) (identify : string -> list Z) : commands :=
  mkCommands (fun _ => true) identify (resdet_output R E Y T strerror w).

Lemma spelled_app a x b y : spelled a x -> spelled b y -> spelled (a ++ b) (x ++ y).
Proof. intros S Q. induction S; cbn [app]; [exact Q|constructor; assumption..]. Qed.
Lemma last_arg_end c evs a : last_arg c (evs ++ [Opt c a]) = Some a.
Proof. induction evs as [|[d b] evs IH]; cbn [app last_arg]; [rewrite Ascii.eqb_refl; reflexivity|rewrite IH; reflexivity]. Qed.
Lemma resdet_invoked R E T evs ws image w o m blk p input w1 : spelled evs ws ->
  invoked R E T "resdet" (ws ++ ["-v"; "1"; "--"; image]) w o m blk p input w1 -> input = image /\ o_verbosity o = 1.
Proof.
  intros S (evs' & rest & p0 & l & G & TO & _).
  assert (Q : spelled (evs ++ [Opt "v" "1"]) (ws ++ ["-v"; "1"])).
  { apply spelled_app; [exact S|]. apply spelled_apart; [reflexivity|constructor]. }
  pose proof (option_end_claim (t_permute T) [image] _ _ Q) as G'.
  rewrite <- app_assoc in G'. cbn [app] in G'. rewrite G' in G. injection G as <- <- <-. split; [reflexivity|].
  destruct (options_in_effect_claim R (e_cfg E) "resdet" (evs ++ [Opt "v" "1"])) as [LW _].
  destruct (LW o TO). rewrite lw_verbosity, last_arg_end. reflexivity.
Qed.

(** C93.  If resdet, with the words of -r as its options, detects sizes in the image, and
    identify reports its size, the script draws two lines of the length asked for, or 50 pixels,
    in the colour and thickness asked for: one at the right edge at the height that is resdet's
    best guess, and one at the lower edge at the width.  Options of resdet that choose another
    form of output do not change that. *)
Lemma visualize_draws_claim : forall R E Y T strerror w er es l image output rest ws evs o m blk p input w1 width height used rw rh identify tw th more fw fh n ss,
  env_ok E -> machine_ok Y ->
  Forall with_value l -> operand image -> output <> "" ->
  worded (given l "r" er) ws -> spelled evs ws -> worded (given l "s" es) ss ->
  invoked R E T "resdet" (ws ++ ["-v"; "1"; "--"; image]) w o m blk p input w1 ->
  detects R E Y o m (auto_filter o input p) input w1 width height used rw rh ->
  identify image = tw ++ [32] ++ th ++ [10] ++ more -> numeral tw fw -> numeral th fh -> fw < 2 ^ 63 -> fh < 2 ^ 63 ->
  numeral (chars (given l "l" "50")) n -> n < 2 ^ 63 ->
  exists t, visualize (visualizer R E Y T strerror w identify) er es (script_line l image output rest) =
      Run (ss ++ ["--"; image; "-"]) ["-"; "-stroke"; given l "c" "green"; "-strokewidth"; given l "t" "1"] t output /\
    draws t fw fh n (best rw) (best rh).
Proof.
  intros R E Y T strerror w er es l image output rest ws evs o m blk p input w1 width height used rw rh identify tw th more fw fh n ss
    EO MO F O N W S SW IN D ID NW NH LW LH NN LN.
  destruct (resdet_invoked R E T evs ws image w o m blk p input w1 S IN) as [-> V].
  destruct (run_results_claim R E Y T "resdet" _ w o m blk p image w1 EO MO IN) as (x & w' & RUN & _).
  assert (P : prints 1 (text strerror (x_out x)) width height rw rh).
  { exists R, E, Y, T, strerror, "resdet", (ws ++ ["-v"; "1"; "--"; image]), w, o, m, blk, p, image, w1, x, w', used.
    repeat (split; [assumption || reflexivity|]). exact D. }
  destruct (brief_text_claim _ _ _ _ _ P) as (aw & ah & TX & BW & BH).
  rewrite visualize_at by (assumption || reflexivity). cbn [visualizer v_identify v_resdet].
  rewrite (words_worded _ _ W), ID, (read_numbers _ _ _ _ _ NW NH). unfold resdet_output. rewrite RUN, TX.
  replace (aw ++ [32] ++ ah ++ [10]) with (aw ++ [32] ++ ah ++ [10] ++ []) by reflexivity.
  rewrite (read_numbers _ _ _ _ _ BW BH), (variable_numeral _ _ NW LW), (variable_numeral _ _ NH LH), (variable_numeral _ _ NN LN).
  eexists. split; [rewrite (words_worded _ _ SW); reflexivity|].
  exists (integer (fw - n)), (integer (fh - n)), tw, th, aw, ah.
  split; [apply integer_signed|]. split; [apply integer_signed|]. repeat (split; [assumption|]). reflexivity.
Qed.

(** C93.  If resdet finds nothing out, because the image cannot be read or has no frames, or
    because memory runs out, the script ends with status 1 and draws nothing. *)
Lemma visualize_stops_claim : forall R E Y T strerror w er es l image output rest ws evs o m blk p input w1 identify,
  env_ok E -> machine_ok Y ->
  Forall with_value l -> operand image -> output <> "" ->
  worded (given l "r" er) ws -> spelled evs ws ->
  invoked R E T "resdet" (ws ++ ["-v"; "1"; "--"; image]) w o m blk p input w1 ->
  (forall width height used rw rh, ~ detects R E Y o m (auto_filter o input p) input w1 width height used rw rh) ->
  visualize (visualizer R E Y T strerror w identify) er es (script_line l image output rest) = Stopped 1.
Proof.
  intros R E Y T strerror w er es l image output rest ws evs o m blk p input w1 identify EO MO F O N W S IN D.
  destruct (run_results_claim R E Y T "resdet" _ w o m blk p input w1 EO MO IN) as (x & w' & RUN & [(width & height & used & rw & rh & D' & _)|(_ & _ & OUT & _)]).
  - destruct (D _ _ _ _ _ D').
  - rewrite visualize_at by (assumption || reflexivity). cbn [visualizer v_identify v_resdet].
    rewrite (words_worded _ _ W). unfold resdet_output. rewrite RUN, OUT. change (text strerror []) with (@nil Z). rewrite read_nothing.
    destruct (read_two (identify image)) as [[? ?]|]; reflexivity.
Qed.

Definition demo_visualizer (R : readers) : commands :=
  visualizer R demo_env (system_of demo_host demo_pgm_file) demo_terminal (fun _ => "") w0 (fun _ => chars "3 2" ++ [10]).
Example visualize_draws_example :
  let l := [Opt "l" "3"; Opt "r" "-v 3 -r 2"; Opt "c" "red"] in
  Forall with_value l /\ operand "a.pgm" /\ worded (given l "r" "") ["-v"; "3"; "-r"; "2"] /\
  spelled [Opt "v" "3"; Opt "r" "2"] ["-v"; "3"; "-r"; "2"] /\
  env_ok demo_env /\ machine_ok (system_of demo_host demo_pgm_file) /\
  (exists o m blk p w1 width height used rw rh,
     invoked native_readers demo_env demo_terminal "resdet" ["-v"; "3"; "-r"; "2"; "-v"; "1"; "--"; "a.pgm"] w0 o m blk p "a.pgm" w1 /\
     detects native_readers demo_env (system_of demo_host demo_pgm_file) o m (auto_filter o "a.pgm" p) "a.pgm" w1 width height used rw rh) /\
  visualize (demo_visualizer native_readers) "" "" (script_line l "a.pgm" "out.png" []) =
    Run ["--"; "a.pgm"; "-"] ["-"; "-stroke"; "red"; "-strokewidth"; "1"] (chars "line 0,2 3,2 " ++ [9] ++ chars " line 3,-1 3,2") "out.png".
Proof.
  cbv zeta. split; [repeat constructor; cbn; tauto|]. split; [discriminate|].
  split; [split; [repeat constructor; cbn; try discriminate; lia|reflexivity]|].
  split; [apply spelled_apart; [reflexivity|]; apply spelled_apart; [reflexivity|constructor]|].
  split; [exact demo_env_ok|].
  assert (MO : machine_ok (system_of demo_host demo_pgm_file)) by (apply demo_machine; vm_compute; reflexivity).
  split; [exact MO|]. split; [|vm_compute; reflexivity].
  assert (IN : invoked native_readers demo_env demo_terminal "resdet" ["-v"; "3"; "-r"; "2"; "-v"; "1"; "--"; "a.pgm"] w0
    (mkOpts 1 None None None (Some "2") None None 0 0 false false) Msign 0 (mkParams 2 (f32_of_Z (-1)) 0) "a.pgm" (snd (alloc (e_alloc demo_env) w0))).
  { exists [Opt "v" "3"; Opt "r" "2"; Opt "v" "1"], [], (default_params default_config), [Range 2].
    split; [reflexivity|]. split; [reflexivity|]. split; [reflexivity|]. split; [reflexivity|].
    split. { exists [], [Range 2], []. repeat split; try reflexivity. exists 2. split; reflexivity. }
    split; [reflexivity|left; reflexivity]. }
  destruct (run_results_claim _ _ _ _ _ _ _ _ _ _ _ _ _ demo_env_ok MO IN) as (x & w' & RUN & [(width & height & used & rw & rh & D & _)|(_ & _ & OUT & _)]).
  - do 5 eexists. exists width, height, used, rw, rh. split; [exact IN|exact D].
  - assert (SO : (match cli_main native_readers demo_env (system_of demo_host demo_pgm_file) demo_terminal "resdet" ["-v"; "3"; "-r"; "2"; "-v"; "1"; "--"; "a.pgm"] w0 with
      Ok (x, _) => match x_out x with [] => false | _ => true end | _ => false end) = true) by (vm_compute; reflexivity).
    rewrite RUN, OUT in SO. discriminate.
Qed.
Example visualize_stops_example :
  visualize (demo_visualizer native_readers) "" "" (script_line [Opt "r" "-o 99"] "a.pgm" "out.png" []) = Stopped 1.
Proof. vm_compute. reflexivity. Qed.

(** C93.  The script ends with status 1 if one of its programs is missing or identify prints
    nothing, with status 2 if it is not given an output or is given an unknown option, and with
    status 0 for -h.  It draws only if there is an output and both identify and resdet have
    printed a line. *)
Lemma visualize_refuses_claim : forall C er es args,
  (v_has C "resdet" = false \/ v_has C "spec" = false \/ v_has C "magick" = false -> visualize C er es args = Stopped 1) /\
  (v_has C "resdet" = true -> v_has C "spec" = true -> v_has C "magick" = true ->
   (forall l image output rest, args = script_line l image output rest -> Forall with_value l -> operand image ->
     (output = "" -> visualize C er es args = Stopped 2) /\
     (output <> "" -> v_identify C image = [] -> visualize C er es args = Stopped 1)) /\
   (forall l c s rest, args = flat_map (fun '(Opt c a) => [String "-" (String c ""); a]) l ++ String "-" (String c s) :: rest -> Forall with_value l ->
     (c = "h"%char -> visualize C er es args = Stopped 0) /\
     (~ In c ["h"; "l"; "c"; "t"; "r"; "s"; "-"]%char -> visualize C er es args = Stopped 2))) /\
  (forall spec magick t output, visualize C er es args = Run spec magick t output ->
   output <> "" /\ exists image opts, In 10 (v_identify C image) /\ In 10 (v_resdet C (opts ++ ["-v"; "1"; "--"; image]))).
Proof.
  intros C er es args. split; [|split].
  - intros H. unfold visualize. replace (v_has C "resdet" && v_has C "spec" && v_has C "magick") with false; [reflexivity|].
    destruct (v_has C "resdet"), (v_has C "spec"), (v_has C "magick"); cbn; intuition congruence.
  - intros H1 H2 H3. split.
    + intros l image output rest -> F O. split.
      * intros ->. unfold visualize. rewrite H1, H2, H3. cbn [andb negb]. rewrite (script_getopt l image "" rest F O), (take_given l F). reflexivity.
      * intros N I. rewrite visualize_at by assumption. rewrite I. reflexivity.
    + intros l c s rest -> F. unfold visualize. rewrite H1, H2, H3. cbn [andb negb].
      split; [intros ->|intros N].
      * destruct (script_first l "h" s rest "h" "" F eq_refl (conj eq_refl eq_refl)) as (evs & ops & ->). match goal with |- context [l ++ ?e :: _] => destruct (take_stop l e evs F (default_settings er es)) as ([n k t r q] & ->) end. reflexivity.
      * assert (X : find_option visualize_options c = None).
        { cbn [In] in N. cbn. repeat match goal with |- context [Ascii.eqb c ?d] => destruct (Ascii.eqb_spec c d) as [->|]; [try tauto; reflexivity|cbn [andb]] end. reflexivity. }
        assert (NC : Ascii.eqb c "-"%char = false) by (apply Ascii.eqb_neq; intros ->; apply N; cbn; tauto).
        destruct (script_first l c s rest "?" "" F NC ltac:(rewrite X; split; reflexivity)) as (evs & ops & ->). match goal with |- context [l ++ ?e :: _] => destruct (take_stop l e evs F (default_settings er es)) as ([n k t r q] & ->) end. reflexivity.
  - intros spec magick t output. unfold visualize. destruct (negb _); [discriminate|].
    destruct (getopt visualize_options false args) as [evs ops]. destruct (take_settings _ _) as [|g]; [discriminate|].
    destruct (String.eqb_spec (nth 1 ops "") "") as [|N]; [discriminate|].
    destruct (read_two (v_identify C (hd "" ops))) as [[fw fh]|] eqn:I; [|discriminate].
    destruct (read_two (v_resdet C _)) as [[w h]|] eqn:J; [|discriminate].
    destruct (variable fw), (variable fh), (variable (chars (g_length g))); try discriminate. intros [= _ _ _ <-].
    split; [exact N|]. exists (hd "" ops), (words (g_resdet g)). split; eapply read_line; eassumption.
Qed.
Example visualize_refuses_example :
  visualize (demo_visualizer native_readers) "" "" ["a.pgm"] = Stopped 2 /\
  visualize (demo_visualizer native_readers) "" "" ["-c"; "red"; "-hx"] = Stopped 0 /\
  visualize (demo_visualizer native_readers) "" "" ["-c"; "red"; "-x"; "a.pgm"; "b.png"] = Stopped 2.
Proof. vm_compute. auto. Qed.

(** C93, finding: the status of resdet is not looked at.  When resdet fails because -r names no
    image reader, it lists those there are, and the script goes on and draws lines at the
    "sizes" that it takes from this list. *)
Lemma visualize_status_refuted_claim : exists R E Y T w args, env_ok E /\ machine_ok Y /\
  (exists x w', cli_main R E Y T "resdet" (["-R"; "nosuch"] ++ ["-v"; "1"; "--"; "a.pgm"]) w = Ok (x, w') /\ x_status x = 1) /\
  args = script_line [Opt "r" "-R nosuch"] "a.pgm" "out.png" [] /\
  exists spec magick, visualize (visualizer R E Y T (fun _ => "") w (fun _ => chars "3 2" ++ [10])) "" "" args =
    Run spec magick (chars "line -47, 3, " ++ [9] ++ chars " line PGM,-48 PGM,2") "out.png".
Proof.
  exists native_readers, demo_env, (system_of demo_host demo_pgm_file), demo_terminal, w0, (script_line [Opt "r" "-R nosuch"] "a.pgm" "out.png" []).
  split; [exact demo_env_ok|]. split; [apply demo_machine; vm_compute; reflexivity|].
  split; [eexists; eexists; split; [reflexivity|reflexivity]|]. split; [reflexivity|].
  eexists. eexists. vm_compute. reflexivity.
Qed.
