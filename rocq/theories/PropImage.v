(**     Properties C15, C38 and C40-C43, C45: the image API and resdetect_file. *)
From Coq Require Import Permutation Lia Ascii String.
From Verif Require Import Base Flt Util Methods Analysis Resdetect History Spec SpecReport Stdio Pgm Pfm Y4m Image ImageHistory SpecImage.
From Verif Require Import BaseProofs WorldProofs UtilProofs AnalysisProofs ClientProofs ProgramProofs Demo DemoImages.
From Verif Require Import StdioProofs ImageSafe FrameProofs ImageApi FileProofs SelectProofs Relax.
Open Scope list_scope.
Open Scope Z_scope.
From Verif Require Import ImageClaims.

(** C15.  resdetect_file gives what opening the image, analysing its frames in order
    until reading or analysing one fails, and fetching the results gives: the same
    return value and the same outputs.  Afterwards no file is open and no block is live
    but the result lists; except that the block of finding C08 stays behind. *)
Theorem file_by_hand : forall R E Y filename filetype q m p o w,
  env_ok E -> client_params (e_cfg E) p -> system_ok Y -> relaxed Y -> bad_wants q = false ->
  exists im width height buf e0 w1, resdet_open_image R E Y filename filetype true true w = Ok (im, width, height, buf, e0, w1) /\
  ((im = None /\ e0 <> RDEOK /\ resdetect_file R E Y filename filetype q m p o w = Ok (e0, clear_outs q o, w1) /\ holds w1 w [] []) \/
   (exists i fs er i', im = Some i /\ e0 = RDEOK /\ frames Y i fs er i' /\ (countable fs ->
      exists e o' wd w', by_hand_file E fs er width height q m p o w1 = Ok (e, o', wd) /\
        resdetect_file R E Y filename filetype q m p o w = Ok (e, o', w') /\
        (holds w' w (out_blocks q o') [] \/ (leaky_failure E width height w1 /\ exists b, holds w' w (b :: out_blocks q o') []))))).
Proof. exact file_by_hand_claim. Qed.
Print Assumptions file_by_hand.

Example file_by_hand_witness : env_ok demo_env /\ client_params (e_cfg demo_env) demo_params /\ system_ok demo_pgm_system /\ relaxed demo_pgm_system /\
  bad_wants (mkWants true true true true) = false /\
  exists im buf w1, resdet_open_image native_readers demo_env demo_pgm_system (Some "a.pgm"%string) None true true w0 = Ok (Some im, 3, 2, buf, RDEOK, w1).
Proof. exact file_by_hand_example. Qed.

(** C38.  Opening either succeeds, with dimensions within the limit and a buffer for one
    frame if asked for, or fails with everything cleared and released. *)
Theorem open_outcome : forall R E Y filename o ptrs want w,
  config_ok (e_cfg E) = true -> system_ok Y -> relaxed Y ->
  exists im width height buf e w', open_by R E Y filename o ptrs want w = Ok (im, width, height, buf, e, w') /\
  ((e = RDEOK /\ im <> None /\ ptrs = true /\ filename <> None /\ 1 <= width /\ 1 <= height /\ within E width height 1 /\
      (if want then exists b, buf = Some (b, repeat None (Z.to_nat (width * height))) else buf = None)) \/
   (e <> RDEOK /\ im = None /\ width = 0 /\ height = 0 /\ buf = None /\ holds w' w [] [])).
Proof. exact open_outcome_claim. Qed.
Print Assumptions open_outcome.

Example open_outcome_witness :
  (exists im buf w', open_by native_readers demo_env demo_pgm_system (Some "a.pgm"%string) (ByType None) true true w0 = Ok (Some im, 3, 2, buf, RDEOK, w')) /\
  (exists w', open_by native_readers demo_env demo_pgm_system (Some "a.pfm"%string) (ByType None) true true w0 = Ok (None, 0, 0, None, RDEINVAL, w') /\ holds w' w0 [] []).
Proof. exact open_outcome_example. Qed.

(** C40.  Opening by type uses the first reader of the build that is for that type. *)
Theorem reader_by_type : forall R E Y filename filetype ext name want w,
  relaxed Y -> image_type filename filetype ext -> chosen R Y ext name ->
  resdet_open_image R E Y (Some filename) filetype true want w =
  resdet_open_image_with_reader R E Y (Some filename) (Some name) true want w.
Proof. exact reader_by_type_claim. Qed.
Print Assumptions reader_by_type.

Example reader_by_type_witness :
  image_type "x.tar.PgM" None "PgM" /\ chosen native_readers demo_pgm_system "PgM" "PGM" /\
  image_type "x" (Some "image/x-portable-floatmap"%string) "pfm" /\ chosen native_readers demo_pgm_system "pfm" "PFM".
Proof. exact reader_by_type_example. Qed.

(** C40.  Every name and type is one of those that a reader is for, or is reported as
    unsupported. *)
Theorem unknown_type : forall R E Y filename filetype want w, relaxed Y ->
  exists ext, image_type filename filetype ext /\
  ((exists name, chosen R Y ext name) \/
   (Forall (fun n => ~ reads_type R Y n ext) (resdet_list_image_readers R) /\
    exists e w', resdet_open_image R E Y (Some filename) filetype true want w = Ok (None, 0, 0, None, e, w') /\
      (e = RDEUNSUPP \/ (e = RDENOMEM /\ e_alloc E (w_count w) = false)))).
Proof. exact unknown_type_claim. Qed.
Print Assumptions unknown_type.

Example unknown_type_witness : relaxed demo_pgm_system /\
  exists w', resdet_open_image native_readers demo_env demo_pgm_system (Some "a.png"%string) None true true w0 = Ok (None, 0, 0, None, RDEUNSUPP, w').
Proof. exact unknown_type_example. Qed.

(** C40.  Reader names are compared without regard to case, and other names are
    reported as unsupported. *)
Theorem reader_name : forall R E Y filename name want w, relaxed Y ->
  (forall name', same_nocase name name' ->
     resdet_open_image_with_reader R E Y (Some filename) (Some name) true want w =
     resdet_open_image_with_reader R E Y (Some filename) (Some name') true want w) /\
  (Forall (fun n => ~ same_nocase n name) (resdet_list_image_readers R) ->
     exists e w', resdet_open_image_with_reader R E Y (Some filename) (Some name) true want w = Ok (None, 0, 0, None, e, w') /\
       (e = RDEUNSUPP \/ (e = RDENOMEM /\ e_alloc E (w_count w) = false))).
Proof. exact reader_name_claim. Qed.
Print Assumptions reader_name.

Example reader_name_witness : same_nocase "magickWAND" "MagickWand" /\ Forall (fun n => ~ same_nocase n "libjpeg") (resdet_list_image_readers native_readers).
Proof. exact reader_name_example. Qed.

(** C40, finding: "a reader is found by its exact name" is not what happens. *)
Theorem exact_name_refuted : exists R E Y filename name want w im,
  relaxed Y /\ ~ In name (resdet_list_image_readers R) /\
  exists width height buf w', resdet_open_image_with_reader R E Y (Some filename) (Some name) true want w = Ok (Some im, width, height, buf, RDEOK, w').
Proof. exact exact_name_refuted_claim. Qed.
Print Assumptions exact_name_refuted.

(** C41.  resdet_read_image: all frames in order, or no buffer and an error.  [n] frames
    are returned only if [n+1] would still be within the limits. *)
Theorem read_image : forall R E Y filename filetype ptrs w,
  config_ok (e_cfg E) = true -> system_ok Y -> relaxed Y ->
  exists im width height ob e0 w1, resdet_open_image R E Y filename filetype ptrs true w = Ok (im, width, height, ob, e0, w1) /\
  exists buf n e w', resdet_read_image R E Y filename filetype ptrs w = Ok (buf, n, width, height, e, w') /\
    ((im = None /\ e = e0 /\ e <> RDEOK /\ buf = None /\ n = 0 /\ holds w' w [] []) \/
     (exists i fs er i', im = Some i /\ e0 = RDEOK /\ 1 <= width /\ 1 <= height /\ frames Y i fs er i' /\
       ((e = RDEOK /\ er = RDEOK /\ n = zlen fs /\ within E width height (n + 1) /\
           exists b tail, buf = Some (b, map Some (concat fs) ++ tail) /\ zlen (concat fs) = width * height * n /\ zlen tail = width * height /\ holds w' w [b] []) \/
        (e <> RDEOK /\ buf = None /\ holds w' w [] [] /\
           ((e = er /\ n = zlen fs) \/
            (e = RDETOOBIG /\ 1 <= n <= zlen fs /\ ~ within E width height (n + 1)) \/
            (e = RDENOMEM /\ 1 <= n <= zlen fs /\ exists k, e_alloc E k = false)))))).
Proof. exact read_image_claim. Qed.
Print Assumptions read_image.

Example read_image_witness : config_ok (e_cfg demo_env) = true /\ system_ok demo_pgm_system /\ relaxed demo_pgm_system /\
  exists im buf w', resdet_open_image native_readers demo_env demo_pgm_system (Some "a.pgm"%string) None true true w0 = Ok (Some im, 3, 2, buf, RDEOK, w').
Proof. exact read_image_example. Qed.

(** C42.  Open, any reads and seeks, close: nothing undefined happens, and afterwards no
    file is open and no block is live that was not before, but for the frame buffer of
    the client.  Each block is freed and each file closed once: doing so twice is
    undefined behaviour in the model, and so is closing something never opened, as
    standard input is. *)
Theorem image_program_safe : forall R E Y filename o ptrs want w,
  config_ok (e_cfg E) = true -> system_ok Y -> relaxed Y ->
  exists im width height buf e w1, open_by R E Y filename o ptrs want w = Ok (im, width, height, buf, e, w1) /\
  forall cs, Forall (image_call_ok width height) cs ->
  exists rs w', image_program R E Y filename o ptrs want cs w = Ok ((im, width, height, buf, e, w1), rs, w') /\
    holds w' w (buffer_blocks buf) [] /\ Forall2 image_reply_ok cs rs.
Proof. exact image_program_safe_claim. Qed.
Print Assumptions image_program_safe.

Example image_program_safe_witness :
  exists im buf w1, open_by native_readers demo_env demo_pgm_system (Some "-"%string) (ByReader (Some "PGM"%string)) true true w0 = Ok (Some im, 3, 2, buf, RDEOK, w1) /\
  Forall (image_call_ok 3 2) [ISeek 0; IRead (Some (repeat None 6)); IRead None; IRead (Some (repeat None 7)); ISeek 5].
Proof. exact image_program_safe_example. Qed.

(** C42.  resdet_read_image and resdetect_file never do anything undefined either. *)
Theorem file_functions_defined : forall R E Y filename filetype ptrs w,
  env_ok E -> system_ok Y -> relaxed Y ->
  (exists r, resdet_read_image R E Y filename filetype ptrs w = Ok r) /\
  forall q m p o N, client_params (e_cfg E) p -> (forall f, filename = Some f -> bytes_bound Y f N) -> Z.of_nat N + 1 < SIZE_MAX ->
  exists r, resdetect_file R E Y filename filetype q m p o w = Ok r.
Proof. exact file_functions_defined_claim. Qed.
Print Assumptions file_functions_defined.

Example file_functions_defined_witness : env_ok demo_env /\ system_ok demo_pgm_system /\ relaxed demo_pgm_system /\
  client_params (e_cfg demo_env) demo_params /\ bytes_bound demo_pgm_system "a.pgm" 17 /\ Z.of_nat 17 + 1 < SIZE_MAX.
Proof. exact file_functions_defined_example. Qed.

(** C43.  An opened image of at most [N] bytes has at most [N+1] frames: reading comes
    to an end. *)
Theorem frames_end : forall R E Y filename o ptrs want w N im width height buf e w',
  config_ok (e_cfg E) = true -> system_ok Y -> relaxed Y -> bytes_bound Y filename N ->
  open_by R E Y (Some filename) o ptrs want w = Ok (Some im, width, height, buf, e, w') ->
  exists fs er im', frames Y im fs er im' /\ (length fs <= N + 1)%nat.
Proof. exact frames_end_claim. Qed.
Print Assumptions frames_end.

Example frames_end_witness : bytes_bound demo_pgm_system "a.pgm" 17 /\
  exists im buf w', open_by native_readers demo_env demo_pgm_system (Some "a.pgm"%string) (ByType None) true true w0 = Ok (Some im, 3, 2, buf, RDEOK, w').
Proof. exact frames_end_example. Qed.

(** C45.  Whatever the input and on any host, a client program, resdet_read_image and
    resdetect_file run without undefined behaviour, or end where the C standard leaves
    undefined the conversion of a number that does not fit or a ctype function applied
    to a negative char.  In particular no access is out of bounds. *)
Theorem hostile_input : forall R E Y filename o ptrs want w,
  env_ok E -> system_ok Y ->
  (exists r, open_by R E Y filename o ptrs want w = r /\
    match r with
    | Ok (im, width, height, buf, e, w1) => forall cs, Forall (image_call_ok width height) cs ->
        (exists r', image_program R E Y filename o ptrs want cs w = Ok r') \/
        image_program R E Y filename o ptrs want cs w = Undef BadCtype \/ image_program R E Y filename o ptrs want cs w = Undef IntOverflow
    | Undef u => u = BadCtype \/ u = IntOverflow
    end) /\
  forall filetype,
    (exists r, resdet_read_image R E Y filename filetype ptrs w = Ok r) \/
    resdet_read_image R E Y filename filetype ptrs w = Undef BadCtype \/ resdet_read_image R E Y filename filetype ptrs w = Undef IntOverflow.
Proof. exact hostile_input_claim. Qed.
Print Assumptions hostile_input.

Example hostile_input_witness : env_ok demo_env /\ system_ok (system_of strict_host (chars "P5 -3 99999999 70000 #")).
Proof. exact hostile_input_example. Qed.

(** C45, finding: a PGM width that does not fit is undefined behaviour in fscanf. *)
Theorem hostile_number_refuted : exists R E Y filename w,
  env_ok E /\ system_ok Y /\ resdet_open_image R E Y (Some filename) None true false w = Undef IntOverflow.
Proof. exact hostile_number_refuted_claim. Qed.
Print Assumptions hostile_number_refuted.

(** C45, finding: a byte above 127 after the colour space of a Y4M file is passed to a
    character function that is not defined for it where char is signed. *)
Theorem hostile_char_refuted : exists R E Y filename w,
  env_ok E /\ system_ok Y /\ resdet_open_image R E Y (Some filename) None true false w = Undef BadCtype.
Proof. exact hostile_char_refuted_claim. Qed.
Print Assumptions hostile_char_refuted.

(** C45, finding: so is a byte above 127 in the extension of the file name. *)
Theorem hostile_name_refuted : exists R E Y filename w,
  env_ok E /\ system_ok Y /\ resdet_open_image R E Y (Some filename) None true false w = Undef BadCtype.
Proof. exact hostile_name_refuted_claim. Qed.
Print Assumptions hostile_name_refuted.
