(** @header
    Properties C15, C38 and C40-C43, C45: the image API and resdetect_file. *)
From Coq Require Import Permutation Lia Ascii String.
From Verif Require Import Base Flt Util Methods Analysis Resdetect History Spec SpecReport Stdio Pgm Pfm Y4m Image ImageHistory SpecImage.
From Verif Require Import BaseProofs WorldProofs UtilProofs AnalysisProofs ClientProofs ProgramProofs Demo DemoImages.
From Verif Require Import StdioProofs ImageSafe FrameProofs ImageApi FileProofs SelectProofs Relax.
Open Scope list_scope.
Open Scope Z_scope.

(** C15.  resdetect_file gives what opening the image, analysing its frames in order
    until reading or analysing one fails, and fetching the results gives: the same
    return value and the same outputs.  Afterwards no file is open and no block is live
    but the result lists; except that the block of finding C08 stays behind. *)
Lemma file_by_hand_claim : forall R E Y filename filetype q m p o w,
  env_ok E -> client_params (e_cfg E) p -> system_ok Y -> relaxed Y -> bad_wants q = false ->
  exists im width height buf e0 w1, resdet_open_image R E Y filename filetype true true w = Ok (im, width, height, buf, e0, w1) /\
  ((im = None /\ e0 <> RDEOK /\ resdetect_file R E Y filename filetype q m p o w = Ok (e0, clear_outs q o, w1) /\ holds w1 w [] []) \/
   (exists i fs er i', im = Some i /\ e0 = RDEOK /\ frames Y i fs er i' /\ (countable fs ->
      exists e o' wd w', by_hand_file E fs er width height q m p o w1 = Ok (e, o', wd) /\
        resdetect_file R E Y filename filetype q m p o w = Ok (e, o', w') /\
        (holds w' w (out_blocks q o') [] \/ (leaky_failure E width height w1 /\ exists b, holds w' w (b :: out_blocks q o') []))))).
Proof. exact resdetect_file_ok. Qed.

Example file_by_hand_example : env_ok demo_env /\ client_params (e_cfg demo_env) demo_params /\ system_ok demo_pgm_system /\ relaxed demo_pgm_system /\
  bad_wants (mkWants true true true true) = false /\
  exists im buf w1, resdet_open_image native_readers demo_env demo_pgm_system (Some "a.pgm"%string) None true true w0 = Ok (Some im, 3, 2, buf, RDEOK, w1).
Proof.
  split; [exact demo_env_ok|]. split; [exact demo_params_ok|]. split; [exact demo_pgm_system_ok|]. split; [reflexivity|]. split; [reflexivity|].
  eexists _, _, _. vm_compute. reflexivity.
Qed.

(** C38.  Opening either succeeds, with dimensions within the limit and a buffer for one
    frame if asked for, or fails with everything cleared and released. *)
Lemma open_outcome_claim : forall R E Y filename o ptrs want w,
  config_ok (e_cfg E) = true -> system_ok Y -> relaxed Y ->
  exists im width height buf e w', open_by R E Y filename o ptrs want w = Ok (im, width, height, buf, e, w') /\
  ((e = RDEOK /\ im <> None /\ ptrs = true /\ filename <> None /\ 1 <= width /\ 1 <= height /\ within E width height 1 /\
      (if want then exists b, buf = Some (b, repeat None (Z.to_nat (width * height))) else buf = None)) \/
   (e <> RDEOK /\ im = None /\ width = 0 /\ height = 0 /\ buf = None /\ holds w' w [] [])).
Proof.
  intros R E Y filename o ptrs want w CF S RX. destruct (ext_sizes Y S) as (sz & X).
  destruct (open_by_ok sz R E Y filename o ptrs want w w [] [] CF S RX X (holds_refl w)) as ([[[[[im width] height] buf] e] w'] & EQ & O).
  exists im, width, height, buf, e, w'. split; [exact EQ|].
  destruct O as [(-> & i & -> & W & H & K & PM & _ & O)|O]; [left|right; exact O].
  assert (D := proj1 K). rewrite W, H in D. destruct D as (D1 & D2 & D3).
  split; [reflexivity|]. split; [discriminate|].
  split. { destruct ptrs; [reflexivity|]. destruct o as [t|n]; cbn in EQ; discriminate. }
  split. { intros ->. destruct ptrs; destruct o as [t|n]; cbn in EQ; discriminate. }
  split; [exact D1|]. split; [exact D2|]. split; [split; rewrite ?Z.mul_1_r; lia|].
  destruct want; [destruct O as (b & Q & _); eauto|apply O].
Qed.

Example open_outcome_example :
  (exists im buf w', open_by native_readers demo_env demo_pgm_system (Some "a.pgm"%string) (ByType None) true true w0 = Ok (Some im, 3, 2, buf, RDEOK, w')) /\
  (exists w', open_by native_readers demo_env demo_pgm_system (Some "a.pfm"%string) (ByType None) true true w0 = Ok (None, 0, 0, None, RDEINVAL, w') /\ holds w' w0 [] []).
Proof. split; [eexists _, _, _|eexists; split]; vm_compute; (reflexivity || (split; constructor)). Qed.

(** C40.  Opening by type uses the first reader of the build that is for that type. *)
Lemma reader_by_type_claim : forall R E Y filename filetype ext name want w,
  relaxed Y -> image_type filename filetype ext -> chosen R Y ext name ->
  resdet_open_image R E Y (Some filename) filetype true want w =
  resdet_open_image_with_reader R E Y (Some filename) (Some name) true want w.
Proof. exact by_type_found. Qed.

Example reader_by_type_example :
  image_type "x.tar.PgM" None "PgM" /\ chosen native_readers demo_pgm_system "PgM" "PGM" /\
  image_type "x" (Some "image/x-portable-floatmap"%string) "pfm" /\ chosen native_readers demo_pgm_system "pfm" "PFM".
Proof.
  split. { apply (type_suffix _ "x.tar"); [reflexivity|]. vm_compute. intuition discriminate. }
  split. { exists [], ["PFM"; "Y4M"]%string. split; [reflexivity|]. split; [left; split; [reflexivity|vm_compute; reflexivity]|constructor]. }
  split. { apply type_mime. cbn. tauto. }
  exists ["PGM"%string], ["Y4M"%string]. split; [reflexivity|]. split; [right; left; split; [reflexivity|vm_compute; reflexivity]|].
  constructor; [|constructor]. unfold reads_type, same_nocase. intros Q. repeat (destruct Q as [Q|Q]; [destruct Q as (A & B); try discriminate A; try discriminate B|]). discriminate Q.
Qed.

(** C40.  Every name and type is one of those that a reader is for, or is reported as
    unsupported. *)
Lemma unknown_type_claim : forall R E Y filename filetype want w, relaxed Y ->
  exists ext, image_type filename filetype ext /\
  ((exists name, chosen R Y ext name) \/
   (Forall (fun n => ~ reads_type R Y n ext) (resdet_list_image_readers R) /\
    exists e w', resdet_open_image R E Y (Some filename) filetype true want w = Ok (None, 0, 0, None, e, w') /\
      (e = RDEUNSUPP \/ (e = RDENOMEM /\ e_alloc E (w_count w) = false)))).
Proof.
  intros R E Y f t want w RX. exists (file_ext f t). assert (T : image_type f t (file_ext f t)) by (apply image_type_ok; reflexivity).
  split; [exact T|]. destruct (chosen_or_none R Y (file_ext f t)) as [C|N]; [left; exact C|right]. split; [exact N|].
  rewrite (by_type_none R E Y f t _ want w RX T N). apply unsupported.
Qed.

Example unknown_type_example : relaxed demo_pgm_system /\
  exists w', resdet_open_image native_readers demo_env demo_pgm_system (Some "a.png"%string) None true true w0 = Ok (None, 0, 0, None, RDEUNSUPP, w').
Proof. split; [reflexivity|]. eexists. vm_compute. reflexivity. Qed.

(** C40.  Reader names are compared without regard to case, and other names are
    reported as unsupported. *)
Lemma reader_name_claim : forall R E Y filename name want w, relaxed Y ->
  (forall name', same_nocase name name' ->
     resdet_open_image_with_reader R E Y (Some filename) (Some name) true want w =
     resdet_open_image_with_reader R E Y (Some filename) (Some name') true want w) /\
  (Forall (fun n => ~ same_nocase n name) (resdet_list_image_readers R) ->
     exists e w', resdet_open_image_with_reader R E Y (Some filename) (Some name) true want w = Ok (None, 0, 0, None, e, w') /\
       (e = RDEUNSUPP \/ (e = RDENOMEM /\ e_alloc E (w_count w) = false))).
Proof.
  intros R E Y f n want w RX. split.
  - intros n' S. apply by_name_same; assumption.
  - intros F. rewrite (by_name_none R E Y f n want w RX F). apply unsupported.
Qed.

Example reader_name_example : same_nocase "magickWAND" "MagickWand" /\ Forall (fun n => ~ same_nocase n "libjpeg") (resdet_list_image_readers native_readers).
Proof. split; [vm_compute; reflexivity|]. repeat (constructor; [vm_compute; discriminate|]). constructor. Qed.

(** C40, finding: "a reader is found by its exact name" is not what happens. *)
Lemma exact_name_refuted_claim : exists R E Y filename name want w im,
  relaxed Y /\ ~ In name (resdet_list_image_readers R) /\
  exists width height buf w', resdet_open_image_with_reader R E Y (Some filename) (Some name) true want w = Ok (Some im, width, height, buf, RDEOK, w').
Proof.
  exists native_readers, demo_env, demo_pgm_system, "a.b"%string, "pgm"%string, true, w0. eexists. split; [reflexivity|]. split; [vm_compute; intuition discriminate|].
  eexists _, _, _, _. vm_compute. reflexivity.
Qed.

(** C41.  resdet_read_image: all frames in order, or no buffer and an error.  [n] frames
    are returned only if [n+1] would still be within the limits. *)
Lemma read_image_claim : forall R E Y filename filetype ptrs w,
  config_ok (e_cfg E) = true -> system_ok Y -> relaxed Y ->
  exists im width height ob e0 w1, resdet_open_image R E Y filename filetype ptrs true w = Ok (im, width, height, ob, e0, w1) /\
  exists buf n e w', resdet_read_image R E Y filename filetype ptrs w = Ok (buf, n, width, height, e, w') /\
    ((im = None /\ e = e0 /\ e <> RDEOK /\ buf = None /\ n = 0 /\ holds w' w [] []) \/
     (exists i fs er i', im = Some i /\ e0 = RDEOK /\ 1 <= width /\ 1 <= height /\ frames Y i fs er i' /\
       ((e = RDEOK /\ er = RDEOK /\ n = zlen fs /\ within E width height (n + 1) /\
           exists b tail, buf = Some (b, map Some (concat fs) ++ tail) /\ zlen (concat fs) = width * height * n /\ zlen tail = width * height /\ holds w' w [b] []) \/
        (e <> RDEOK /\ buf = None /\ holds w' w [] [] /\
           ((e = er /\ n = zlen fs) \/
            (e = RDETOOBIG /\ 1 <= n <= zlen fs /\ ~ within E width height (n + 1)) \/
            (e = RDENOMEM /\ 1 <= n <= zlen fs /\ exists k, e_alloc E k = false)))))).
Proof. exact read_image_ok. Qed.

Example read_image_example : config_ok (e_cfg demo_env) = true /\ system_ok demo_pgm_system /\ relaxed demo_pgm_system /\
  exists im buf w', resdet_open_image native_readers demo_env demo_pgm_system (Some "a.pgm"%string) None true true w0 = Ok (Some im, 3, 2, buf, RDEOK, w').
Proof. split; [reflexivity|]. split; [exact demo_pgm_system_ok|]. split; [reflexivity|]. eexists _, _, _. vm_compute. reflexivity. Qed.

(** C42.  Open, any reads and seeks, close: nothing undefined happens, and afterwards no
    file is open and no block is live that was not before, but for the frame buffer of
    the client.  Each block is freed and each file closed once: doing so twice is
    undefined behaviour in the model, and so is closing something never opened, as
    standard input is. *)
Lemma image_program_safe_claim : forall R E Y filename o ptrs want w,
  config_ok (e_cfg E) = true -> system_ok Y -> relaxed Y ->
  exists im width height buf e w1, open_by R E Y filename o ptrs want w = Ok (im, width, height, buf, e, w1) /\
  forall cs, Forall (image_call_ok width height) cs ->
  exists rs w', image_program R E Y filename o ptrs want cs w = Ok ((im, width, height, buf, e, w1), rs, w') /\
    holds w' w (buffer_blocks buf) [] /\ Forall2 image_reply_ok cs rs.
Proof. exact image_program_ok. Qed.

Example image_program_safe_example :
  exists im buf w1, open_by native_readers demo_env demo_pgm_system (Some "-"%string) (ByReader (Some "PGM"%string)) true true w0 = Ok (Some im, 3, 2, buf, RDEOK, w1) /\
  Forall (image_call_ok 3 2) [ISeek 0; IRead (Some (repeat None 6)); IRead None; IRead (Some (repeat None 7)); ISeek 5].
Proof. eexists _, _, _. split; [vm_compute; reflexivity|]. repeat constructor; vm_compute; discriminate. Qed.

(** C42.  resdet_read_image and resdetect_file never do anything undefined either. *)
Lemma file_functions_defined_claim : forall R E Y filename filetype ptrs w,
  env_ok E -> system_ok Y -> relaxed Y ->
  (exists r, resdet_read_image R E Y filename filetype ptrs w = Ok r) /\
  forall q m p o N, client_params (e_cfg E) p -> (forall f, filename = Some f -> bytes_bound Y f N) -> Z.of_nat N + 1 < SIZE_MAX ->
  exists r, resdetect_file R E Y filename filetype q m p o w = Ok r.
Proof.
  intros R E Y f t ptrs w EO S RX. split.
  - destruct (read_image_ok R E Y f t ptrs w (eo_config _ EO) S RX) as (im & width & height & ob & e0 & w1 & _ & buf & n & e & w' & Q & _). eauto.
  - intros q m p o N CP B NB. destruct (bad_wants q) eqn:BW.
    { unfold resdetect_file. rewrite BW. eauto. }
    destruct (resdetect_file_ok R E Y f t q m p o w EO CP S RX BW) as (im & width & height & ob & e0 & w1 & EQ & [(_ & _ & Q & _)|(i & fs & er & i' & -> & -> & F & Q)]); [eauto|].
    destruct f as [f|]; [|discriminate].
    destruct (ext_sizes Y S) as (sz & X).
    destruct (open_by_ok sz R E Y (Some f) (ByType t) true true w w [] [] (eo_config _ EO) S RX X (holds_refl w)) as (r & ER & O).
    cbn [open_by] in ER. rewrite EQ in ER. inversion ER; subst r. destruct O as [(_ & i1 & Q1 & _ & _ & K & _)|(NE & _)]; [|elim NE; reflexivity]. inversion Q1; subst i1.
    pose proof (open_by_left R E Y f (ByType t) true true w _ _ _ _ _ _ N (eo_config _ EO) S RX (B f eq_refl) EQ) as L.
    destruct (all_frames sz Y RX X _ i K L) as (fs' & er' & j & F' & _ & LF).
    destruct (frames_det _ _ _ _ _ F _ _ _ F') as (-> & _).
    destruct Q as (e & o' & wd & w' & _ & Q & _). { apply countable_zlen. unfold zlen. lia. }
    eauto.
Qed.

Example file_functions_defined_example : env_ok demo_env /\ system_ok demo_pgm_system /\ relaxed demo_pgm_system /\
  client_params (e_cfg demo_env) demo_params /\ bytes_bound demo_pgm_system "a.pgm" 17 /\ Z.of_nat 17 + 1 < SIZE_MAX.
Proof.
  split; [exact demo_env_ok|]. split; [exact demo_pgm_system_ok|]. split; [reflexivity|]. split; [exact demo_params_ok|]. split; [|reflexivity].
  split; [intros t Q; discriminate|]. split; [|intros; discriminate]. intros t s Q. inversion Q; subst. vm_compute. repeat constructor.
Qed.

(** C43.  An opened image of at most [N] bytes has at most [N+1] frames: reading comes
    to an end. *)
Lemma frames_end_claim : forall R E Y filename o ptrs want w N im width height buf e w',
  config_ok (e_cfg E) = true -> system_ok Y -> relaxed Y -> bytes_bound Y filename N ->
  open_by R E Y (Some filename) o ptrs want w = Ok (Some im, width, height, buf, e, w') ->
  exists fs er im', frames Y im fs er im' /\ (length fs <= N + 1)%nat.
Proof.
  intros R E Y f o ptrs want w N im width height buf e w' CF S RX B EQ. destruct (ext_sizes Y S) as (sz & X).
  destruct (open_by_ok sz R E Y (Some f) o ptrs want w w [] [] CF S RX X (holds_refl w)) as (r & ER & O).
  rewrite EQ in ER. inversion ER; subst r. destruct O as [(_ & i1 & Q1 & _ & _ & K & _)|(_ & NE & _)]; [|discriminate NE]. inversion Q1; subst i1.
  pose proof (open_by_left R E Y f o ptrs want w _ _ _ _ _ _ N CF S RX B EQ) as L.
  destruct (all_frames sz Y RX X _ im K L) as (fs & er & j & F & _ & LF). exists fs, er, j. split; [exact F|]. lia.
Qed.

Example frames_end_example : bytes_bound demo_pgm_system "a.pgm" 17 /\
  exists im buf w', open_by native_readers demo_env demo_pgm_system (Some "a.pgm"%string) (ByType None) true true w0 = Ok (Some im, 3, 2, buf, RDEOK, w').
Proof.
  split; [|eexists _, _, _; vm_compute; reflexivity].
  split; [intros t Q; discriminate|]. split; [|intros; discriminate]. intros t s Q. inversion Q; subst. vm_compute. repeat constructor.
Qed.

(** C45.  Whatever the input and on any host, a client program, resdet_read_image and
    resdetect_file run without undefined behaviour, or end where the C standard leaves
    undefined the conversion of a number that does not fit or a ctype function applied
    to a negative char.  In particular no access is out of bounds. *)
Lemma hostile_input_claim : forall R E Y filename o ptrs want w,
  env_ok E -> system_ok Y ->
  (exists r, open_by R E Y filename o ptrs want w = r /\
    match r with
    | Ok (im, width, height, buf, e, w1) => forall cs, Forall (image_call_ok width height) cs ->
        (exists r', image_program R E Y filename o ptrs want cs w = Ok r') \/
        image_program R E Y filename o ptrs want cs w = Undef BadCtype \/ image_program R E Y filename o ptrs want cs w = Undef IntOverflow
    | Undef u => u = BadCtype \/ u = IntOverflow
    end) /\
  forall filetype,
    (exists r, resdet_read_image R E Y filename filetype ptrs w = Ok r) \/
    resdet_read_image R E Y filename filetype ptrs w = Undef BadCtype \/ resdet_read_image R E Y filename filetype ptrs w = Undef IntOverflow.
Proof.
  intros R E Y f o ptrs want w EO S. pose proof (relax_system_ok Y S) as S'. pose proof (relax_relaxed Y) as RX. split.
  - eexists. split; [reflexivity|]. destruct (image_program_ok R E _ f o ptrs want w (eo_config _ EO) S' RX) as (im & width & height & buf & e & w1 & EQ & P).
    destruct (weak_open_by R E Y f o ptrs want w) as [Q|[Q|Q]]; rewrite Q; [|auto|auto]. rewrite EQ. intros cs F.
    destruct (P cs F) as (rs & w' & EP & _). destruct (weak_program R E Y f o ptrs want cs w) as [Q2|Q2]; [left|right; exact Q2].
    rewrite Q2, EP. eauto.
  - intros t. destruct (read_image_ok R E _ f t ptrs w (eo_config _ EO) S' RX) as (im & width & height & ob & e0 & w1 & _ & buf & n & e & w' & Q & _).
    destruct (weak_read_image R E Y f t ptrs w) as [Q2|Q2]; [left; rewrite Q2; eauto|right; exact Q2].
Qed.

Example hostile_input_example : env_ok demo_env /\ system_ok (system_of strict_host (chars "P5 -3 99999999 70000 #")).
Proof. split; [exact demo_env_ok|]. apply system_of_ok; [reflexivity|vm_compute; discriminate]. Qed.

(** C45, finding: a PGM width that does not fit is undefined behaviour in fscanf. *)
Lemma hostile_number_refuted_claim : exists R E Y filename w,
  env_ok E /\ system_ok Y /\ resdet_open_image R E Y (Some filename) None true false w = Undef IntOverflow.
Proof.
  exists native_readers, demo_env, (system_of strict_host (chars "P5 99999999999999999999 1 255 ")), "a.pgm"%string, w0.
  split; [exact demo_env_ok|]. split; [apply system_of_ok; [reflexivity|vm_compute; discriminate]|]. vm_compute. reflexivity.
Qed.
(** C45, finding: a byte above 127 after the colour space of a Y4M file is passed to a
    character function that is not defined for it where char is signed. *)
Lemma hostile_char_refuted_claim : exists R E Y filename w,
  env_ok E /\ system_ok Y /\ resdet_open_image R E Y (Some filename) None true false w = Undef BadCtype.
Proof.
  exists native_readers, demo_env, (system_of strict_host (chars "YUV4MPEG2 W2 H2 Cmono" ++ [200; 10])), "a.y4m"%string, w0.
  split; [exact demo_env_ok|]. split; [apply system_of_ok; [reflexivity|vm_compute; discriminate]|]. vm_compute. reflexivity.
Qed.
(** C45, finding: so is a byte above 127 in the extension of the file name. *)
Lemma hostile_name_refuted_claim : exists R E Y filename w,
  env_ok E /\ system_ok Y /\ resdet_open_image R E Y (Some filename) None true false w = Undef BadCtype.
Proof.
  exists native_readers, demo_env, (system_of strict_host demo_pgm), (String "."%char (String (Ascii.ascii_of_nat 233) ""))%string, w0.
  split; [exact demo_env_ok|]. split; [apply system_of_ok; [reflexivity|vm_compute; discriminate]|]. vm_compute. reflexivity.
Qed.
