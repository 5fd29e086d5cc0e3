(**     Property C93: the lines that visualize.sh draws. *)
From Coq Require Import Ascii String Lia.
From Verif Require Import Base Flt Util Methods Analysis History Stdio Pgm Pfm Y4m Image ImageHistory Cli Printf Visualize.
From Verif Require Import Spec SpecUtil SpecAnalysis SpecReport SpecFormats SpecImage SpecCli SpecText SpecVisualize Demo DemoImages.
From Verif Require Import DemoFormats DemoFormats CliProofs CliClaims TextProofs TextRuns TextClaims VisualizeProofs.
Import ListNotations.
Open Scope string_scope.
Open Scope list_scope.
Open Scope Z_scope.
From Verif Require Import VisualizeClaims.

(** C93.  If resdet, with the words of -r as its options, detects sizes in the image, and
    identify reports its size, the script draws two lines of the length asked for, or 50 pixels,
    in the colour and thickness asked for: one at the right edge at the height that is resdet's
    best guess, and one at the lower edge at the width.  Options of resdet that choose another
    form of output do not change that. *)
Theorem visualize_draws : forall R E Y T strerror w er es l image output rest ws evs o m blk p input w1 width height used rw rh identify tw th more fw fh n ss,
  env_ok E -> machine_ok Y ->
  Forall with_value l -> operand image -> output <> "" ->
  worded (given l "r" er) ws -> spelled evs ws -> worded (given l "s" es) ss ->
  invoked R E T "resdet" (ws ++ ["-v"; "1"; "--"; image]) w o m blk p input w1 ->
  detects R E Y o m (auto_filter o input p) input w1 width height used rw rh ->
  identify image = tw ++ [32] ++ th ++ [10] ++ more -> numeral tw fw -> numeral th fh -> fw < 2 ^ 63 -> fh < 2 ^ 63 ->
  numeral (chars (given l "l" "50")) n -> n < 2 ^ 63 ->
  exists t, visualize (visualizer R E Y T strerror w identify) er es (script_line l image output rest) =
      Run (ss ++ ["--"; image; "-"]) ["-"; "-stroke"; given l "c" "green"; "-strokewidth"; given l "t" "1"] t output /\
    draws t fw fh n (best rw) (best rh).
Proof. exact visualize_draws_claim. Qed.
Print Assumptions visualize_draws.

(** C93.  If resdet finds nothing out, because the image cannot be read or has no frames, or
    because memory runs out, the script ends with status 1 and draws nothing. *)
Theorem visualize_stops : forall R E Y T strerror w er es l image output rest ws evs o m blk p input w1 identify,
  env_ok E -> machine_ok Y ->
  Forall with_value l -> operand image -> output <> "" ->
  worded (given l "r" er) ws -> spelled evs ws ->
  invoked R E T "resdet" (ws ++ ["-v"; "1"; "--"; image]) w o m blk p input w1 ->
  (forall width height used rw rh, ~ detects R E Y o m (auto_filter o input p) input w1 width height used rw rh) ->
  visualize (visualizer R E Y T strerror w identify) er es (script_line l image output rest) = Stopped 1.
Proof. exact visualize_stops_claim. Qed.
Print Assumptions visualize_stops.

Example visualize_draws_witness :
  let l := [Opt "l" "3"; Opt "r" "-v 3 -r 2"; Opt "c" "red"] in
  Forall with_value l /\ operand "a.pgm" /\ worded (given l "r" "") ["-v"; "3"; "-r"; "2"] /\
  spelled [Opt "v" "3"; Opt "r" "2"] ["-v"; "3"; "-r"; "2"] /\
  env_ok demo_env /\ machine_ok (system_of demo_host demo_pgm_file) /\
  (exists o m blk p w1 width height used rw rh,
     invoked native_readers demo_env demo_terminal "resdet" ["-v"; "3"; "-r"; "2"; "-v"; "1"; "--"; "a.pgm"] w0 o m blk p "a.pgm" w1 /\
     detects native_readers demo_env (system_of demo_host demo_pgm_file) o m (auto_filter o "a.pgm" p) "a.pgm" w1 width height used rw rh) /\
  visualize (demo_visualizer native_readers) "" "" (script_line l "a.pgm" "out.png" []) =
    Run ["--"; "a.pgm"; "-"] ["-"; "-stroke"; "red"; "-strokewidth"; "1"] (chars "line 0,2 3,2 " ++ [9] ++ chars " line 3,-1 3,2") "out.png".
Proof. exact visualize_draws_example. Qed.

Example visualize_stops_witness :
  visualize (demo_visualizer native_readers) "" "" (script_line [Opt "r" "-o 99"] "a.pgm" "out.png" []) = Stopped 1.
Proof. exact visualize_stops_example. Qed.

(** C93.  The script ends with status 1 if one of its programs is missing or identify prints
    nothing, with status 2 if it is not given an output or is given an unknown option, and with
    status 0 for -h.  It draws only if there is an output and both identify and resdet have
    printed a line. *)
Theorem visualize_refuses : forall C er es args,
  (v_has C "resdet" = false \/ v_has C "spec" = false \/ v_has C "magick" = false -> visualize C er es args = Stopped 1) /\
  (v_has C "resdet" = true -> v_has C "spec" = true -> v_has C "magick" = true ->
   (forall l image output rest, args = script_line l image output rest -> Forall with_value l -> operand image ->
     (output = "" -> visualize C er es args = Stopped 2) /\
     (output <> "" -> v_identify C image = [] -> visualize C er es args = Stopped 1)) /\
   (forall l c s rest, args = flat_map (fun '(Opt c a) => [String "-" (String c ""); a]) l ++ String "-" (String c s) :: rest -> Forall with_value l ->
     (c = "h"%char -> visualize C er es args = Stopped 0) /\
     (~ In c ["h"; "l"; "c"; "t"; "r"; "s"; "-"]%char -> visualize C er es args = Stopped 2))) /\
  (forall spec magick t output, visualize C er es args = Run spec magick t output ->
   output <> "" /\ exists image opts, In 10 (v_identify C image) /\ In 10 (v_resdet C (opts ++ ["-v"; "1"; "--"; image]))).
Proof. exact visualize_refuses_claim. Qed.
Print Assumptions visualize_refuses.

Example visualize_refuses_witness :
  visualize (demo_visualizer native_readers) "" "" ["a.pgm"] = Stopped 2 /\
  visualize (demo_visualizer native_readers) "" "" ["-c"; "red"; "-hx"] = Stopped 0 /\
  visualize (demo_visualizer native_readers) "" "" ["-c"; "red"; "-x"; "a.pgm"; "b.png"] = Stopped 2.
Proof. exact visualize_refuses_example. Qed.

(** C93, finding: the status of resdet is not looked at.  When resdet fails because -r names no
    image reader, it lists those there are, and the script goes on and draws lines at the
    "sizes" that it takes from this list. *)
Theorem visualize_status_refuted : exists R E Y T w args, env_ok E /\ machine_ok Y /\
  (exists x w', cli_main R E Y T "resdet" (["-R"; "nosuch"] ++ ["-v"; "1"; "--"; "a.pgm"]) w = Ok (x, w') /\ x_status x = 1) /\
  args = script_line [Opt "r" "-R nosuch"] "a.pgm" "out.png" [] /\
  exists spec magick, visualize (visualizer R E Y T (fun _ => "") w (fun _ => chars "3 2" ++ [10])) "" "" args =
    Run spec magick (chars "line -47, 3, " ++ [9] ++ chars " line PGM,-48 PGM,2") "out.png".
Proof. exact visualize_status_refuted_claim. Qed.
Print Assumptions visualize_status_refuted.
