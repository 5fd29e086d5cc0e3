(**     Properties C61-C71: the readers that use libpng, libjpeg, MagickWand and FFmpeg. *)
From Coq Require Import Reals Lra.
From Flocq Require Import Core IEEE754.Binary IEEE754.Bits.
From Verif Require Import Base Flt Util Methods Analysis Spec Stdio Pgm Pfm Y4m Image ImageHistory SpecImage SpecFormats SpecCli Library SpecLibrary
  Demo DemoImages DemoLibraries.
From Verif Require Import BaseProofs LibraryProofs PngProofs JpegProofs MagickProofs FfmpegProofs OpenProofs PgmFilm.
Open Scope list_scope.
Open Scope Z_scope.
From Verif Require Import LibraryClaims.

(** C61.  The libpng reader: whatever the file contains, whatever memory is available and
    however the library fails, opening, any program of reads and seeks, and closing are
    defined; errors are known codes; a frame fills exactly width*height samples; nothing is
    left allocated or open.  Interlaced images excepted. *)
Theorem png_safe : forall L E Y filename,
  surroundings_ok E Y -> png_ok L -> png_plain L Y filename -> contract (libpng_reader L E Y) E filename.
Proof. exact png_safe_claim. Qed.
Print Assumptions png_safe.

Example png_safe_witness : surroundings_ok demo_env (system_of demo_host (demo_png_file 0)) /\ png_ok demo_png /\
  png_plain demo_png (system_of demo_host (demo_png_file 0)) "a.png" /\
  session (libpng_reader demo_png demo_env (system_of demo_host (demo_png_file 0))) demo_env "a.png" (reads 2 4) = Ok (2, 2, RDEOK, [(true, RDEOK); (false, RDEOK)]).
Proof. exact png_safe_example. Qed.

(** C61, finding: interlaced images are excepted because the reader asks for interlace handling
    after png_read_update_info, when libpng no longer promises that the rows get completed; if
    it leaves samples alone, the reader uses memory that was never written. *)
Theorem png_interlaced_refuted : exists L Y, surroundings_ok demo_env Y /\ png_ok L /\
  session (libpng_reader L demo_env Y) demo_env "a.png" [] = Ok (2, 2, RDEOK, []) /\
  session (libpng_reader L demo_env Y) demo_env "a.png" (reads 1 4) = Undef Uninit.
Proof. exact png_interlaced_refuted_claim. Qed.
Print Assumptions png_interlaced_refuted.

(** C62.  For every header the PNG specification allows, the transformations the reader asks
    for give rows of 8-bit grey or 8-bit RGB samples, without alpha, and the number of channels
    the reader computes with is the number of bytes of a pixel. *)
Theorem png_transformed : forall i, png_valid i ->
  (png_updated i (png_choose i) = (0, 8) \/ png_updated i (png_choose i) = (2, 8)) /\
  png_rowbytes i (png_choose i) = pi_width i * (if has (fst (png_updated i (png_choose i))) COLOR_MASK_COLOR then 3 else 1).
Proof. exact png_transformed_claim. Qed.
Print Assumptions png_transformed.

Example png_transformed_witness :
  Forall png_valid [mkInfo 5 3 1 0 true false; mkInfo 5 3 16 2 true false; mkInfo 5 3 4 3 true true; mkInfo 5 3 2 3 false false; mkInfo 5 3 16 4 false false; mkInfo 5 3 8 6 false false] /\
  map (fun i => png_updated i (png_choose i))
    [mkInfo 5 3 1 0 true false; mkInfo 5 3 16 2 true false; mkInfo 5 3 4 3 true true; mkInfo 5 3 2 3 false false; mkInfo 5 3 16 4 false false; mkInfo 5 3 8 6 false false] =
    [(0, 8); (2, 8); (2, 8); (2, 8); (0, 8); (2, 8)].
Proof. exact png_transformed_example. Qed.

(** C63.  A PNG file libpng can decode opens with the dimensions of its header and gives one
    frame: each sample is the 8-bit value divided by 255, correctly rounded, and for colour
    images the mean of the three. *)
Theorem png_values : forall L E Y filename i rows vs,
  surroundings_ok E Y -> png_ok L -> memory_suffices E -> png_file L Y filename i rows -> pi_interlaced i = false ->
  Forall2 pixel_of (concat rows) vs ->
  projects (libpng_reader L E Y) E filename (pi_width i) (pi_height i) [vs].
Proof. exact png_values_claim. Qed.
Print Assumptions png_values.

(** That mean is finite, in [0,1], and within 2^-22 of the exact mean. *)
Theorem png_mean : forall px v, pixel_of px v -> Forall (fun c => 0 <= c < 256) px ->
  is_finite 24 128 v = true /\ (0 <= B2R 24 128 v <= 1)%R /\
  (Rabs (B2R 24 128 v - IZR (fold_right Z.add 0%Z px) / (255 * IZR (zlen px))) <= bpow radix2 (-22))%R.
Proof. exact png_mean_claim. Qed.
Print Assumptions png_mean.

Example png_values_witness : exists vs, surroundings_ok demo_env (system_of demo_host (demo_png_file 0)) /\ png_ok demo_png /\ memory_suffices demo_env /\
  png_file demo_png (system_of demo_host (demo_png_file 0)) "a.png" (mkInfo 2 2 8 0 false false) demo_png_rows /\ Forall2 pixel_of (concat demo_png_rows) vs /\
  within demo_env 2 2 1 /\ pixel_of [10; 20; 250] (mean3 (fdiv (f32_of_Z 10) (f32_of_Z 255)) (fdiv (f32_of_Z 20) (f32_of_Z 255)) (fdiv (f32_of_Z 250) (f32_of_Z 255))).
Proof. exact png_values_example. Qed.

(** C64.  The libjpeg reader: as C61, for every file for which libjpeg has neither an error nor
    a warning nor a trace message while it delivers the lines. *)
Theorem jpeg_safe : forall L E Y filename,
  surroundings_ok E Y -> jpeg_ok L -> jpeg_quiet L Y filename -> contract (libjpeg_reader L E Y) E filename.
Proof. exact jpeg_safe_claim. Qed.
Print Assumptions jpeg_safe.

Example jpeg_safe_witness : surroundings_ok demo_env (system_of demo_host (demo_jpeg_file 0)) /\ jpeg_ok demo_jpeg /\
  jpeg_quiet demo_jpeg (system_of demo_host (demo_jpeg_file 0)) "a.jpg" /\
  session (libjpeg_reader demo_jpeg demo_env (system_of demo_host (demo_jpeg_file 0))) demo_env "a.jpg" (reads 2 6) = Ok (3, 2, RDEOK, [(true, RDEOK); (false, RDEOK)]).
Proof. exact jpeg_safe_example. Qed.

(** C64, finding: the error manager belongs to the call that opened the file; a message while
    lines are read, an ordinary thing for damaged files, goes to an object that no longer
    exists. *)
Theorem jpeg_message_refuted : exists L Y, surroundings_ok demo_env Y /\ jpeg_ok L /\
  session (libjpeg_reader L demo_env Y) demo_env "a.jpg" [] = Ok (3, 2, RDEOK, []) /\
  session (libjpeg_reader L demo_env Y) demo_env "a.jpg" (reads 1 6) = Undef OutOfBounds.
Proof. exact jpeg_message_refuted_claim. Qed.
Print Assumptions jpeg_message_refuted.

(** C65.  A JPEG file libjpeg decodes quietly opens with its output dimensions and gives one
    frame: each grey sample divided by 255, correctly rounded, the same values a PGM file with
    maxval 255 gives. *)
Theorem jpeg_values : forall L E Y filename width height rows vs,
  surroundings_ok E Y -> jpeg_ok L -> memory_suffices E -> jpeg_file L Y filename width height rows -> jpeg_quiet L Y filename ->
  Forall2 (fun c v => quotient c 255 v) (concat rows) vs ->
  projects (libjpeg_reader L E Y) E filename width height [vs].
Proof. exact jpeg_values_claim. Qed.
Print Assumptions jpeg_values.

Example jpeg_values_witness : exists vs, surroundings_ok demo_env (system_of demo_host (demo_jpeg_file 0)) /\ jpeg_ok demo_jpeg /\ memory_suffices demo_env /\
  jpeg_file demo_jpeg (system_of demo_host (demo_jpeg_file 0)) "a.jpg" 3 2 demo_jpeg_rows /\ jpeg_quiet demo_jpeg (system_of demo_host (demo_jpeg_file 0)) "a.jpg" /\
  Forall2 (fun c v => quotient c 255 v) (concat demo_jpeg_rows) vs /\ within demo_env 3 2 1.
Proof. exact jpeg_values_example. Qed.

(** C66.  The MagickWand reader: as C61, for every wand that can export pixels. *)
Theorem magick_safe : forall L E filename,
  config_ok (e_cfg E) = true -> magick_ok L -> magick_exports L -> contract (magickwand_reader L E) E filename.
Proof. exact magick_safe_claim. Qed.
Print Assumptions magick_safe.

Example magick_safe_witness : config_ok (e_cfg demo_env) = true /\ magick_ok (demo_magick true) /\ magick_exports (demo_magick true).
Proof. exact magick_safe_example. Qed.

(** C66, finding: what MagickExportImagePixels returns is not looked at; when it fails a frame
    is reported although no sample was written. *)
Theorem magick_export_refuted : exists L c w1 c' w2, magick_ok L /\
  opened_by (magickwand_reader L demo_env) demo_env "a.gif" w0 = Ok (Some c, 2, 2, RDEOK, w1) /\
  calls_by (magickwand_reader L demo_env) c 2 2 [IRead (Some (repeat None 4))] w1 = Ok ([IFrame true RDEOK (Some (repeat None 4))], c', w2).
Proof. exact magick_export_refuted_claim. Qed.
Print Assumptions magick_export_refuted.

(** C67.  A file MagickWand reads opens with the dimensions of the wand; reads give its images
    in order, seeks skip that many, and then there are no more. *)
Theorem magick_frames : forall L E filename width height fs,
  config_ok (e_cfg E) = true -> magick_ok L -> memory_suffices E -> 1 <= width -> 1 <= height -> magick_film L filename width height fs ->
  projects (magickwand_reader L E) E filename width height fs.
Proof. exact magick_frames_claim. Qed.
Print Assumptions magick_frames.

Example magick_frames_witness : magick_ok (demo_magick true) /\ memory_suffices demo_env /\ within demo_env 2 2 1 /\
  magick_film (demo_magick true) "a.gif" 2 2 [demo_frame 2; demo_frame 1; demo_frame 0].
Proof. exact magick_frames_example. Qed.

(** A file MagickWand cannot read is reported by errno if it could not be opened, as a lack of
    memory if a limit was hit, as not supported if there is no decoder but the file can be
    opened, and as invalid otherwise.  Nothing is left behind. *)
Theorem magick_failure : forall L E filename ex errno,
  magick_ok L -> memory_suffices E -> (forall n, ml_read L n filename = inr (ex, errno)) -> (ex = BlobError \/ ex = FileOpenError -> errno <> 0) ->
  forall w, exists e w1, opened_by (magickwand_reader L E) E filename w = Ok (None, 0, 0, e, w1) /\ holds w1 w [] [] /\
  match ex with
  | BlobError | FileOpenError => e = - errno /\ e < 0
  | ResourceLimitError | ResourceLimitFatalError => e = RDENOMEM
  | MissingDelegateError => e = RDEUNSUPP \/ (filename <> "-"%string /\ e < 0 /\ exists n, e = - ml_fopen L n filename)
  | OtherException => e = RDEINVAL
  end.
Proof. exact magick_failure_claim. Qed.
Print Assumptions magick_failure.

Example magick_failure_witness : magick_ok (demo_magick true) /\ memory_suffices demo_env /\ (forall n, ml_read (demo_magick true) n "none" = inr (BlobError, 2)) /\
  exists w1, opened_by (magickwand_reader (demo_magick true) demo_env) demo_env "none" w0 = Ok (None, 0, 0, -2, w1).
Proof. exact magick_failure_example. Qed.

(** C67, finding: if MagickWand reports that it could not open a file but errno is 0, the
    result is the complaint that the image is too large. *)
Theorem magick_errno_refuted : exists L w1, magick_ok L /\ ml_read L 2 "silent" = inr (FileOpenError, 0) /\
  opened_by (magickwand_reader L demo_env) demo_env "silent" w0 = Ok (None, 0, 0, RDETOOBIG, w1).
Proof. exact magick_errno_refuted_claim. Qed.
Print Assumptions magick_errno_refuted.

(** C68.  The FFmpeg reader: as C61; whatever the demuxer, the decoder and the scaler return,
    also when they fail. *)
Theorem ff_safe : forall L E filename, config_ok (e_cfg E) = true -> ff_ok L -> contract (ffmpeg_reader L E) E filename.
Proof. exact ff_safe_claim. Qed.
Print Assumptions ff_safe.

Example ff_safe_witness : config_ok (e_cfg demo_env) = true /\ ff_ok (demo_ff 0 1 AVERROR_EOF demo_film) /\ ff_ok (demo_ff (-12) 1 (-5) demo_film).
Proof. exact ff_safe_example. Qed.

(** C69.  A video FFmpeg decodes opens with the dimensions of its codec and gives the pictures
    of the chosen stream in order: packets of other streams are skipped, packets may complete
    no picture or several, and at the end the decoder is drained.  Reads and seeks agree. *)
Theorem ff_frames : forall L E filename index width height read_end dec fs,
  config_ok (e_cfg E) = true -> ff_ok L -> memory_suffices E -> 1 <= width -> 1 <= height -> decodes L width height read_end dec -> read_end <> 0 ->
  ff_opens L filename index (fun s => fl_size L s = (width, height) /\ to_come index (dec s) = fs) ->
  projects (ffmpeg_reader L E) E filename width height fs.
Proof. exact ff_frames_claim. Qed.
Print Assumptions ff_frames.

Example ff_frames_witness : ff_ok (demo_ff 0 1 AVERROR_EOF demo_film) /\ memory_suffices demo_env /\ within demo_env 2 1 1 /\
  decodes (demo_ff 0 1 AVERROR_EOF demo_film) 2 1 AVERROR_EOF seen /\
  ff_opens (demo_ff 0 1 AVERROR_EOF demo_film) "a.mkv" 1 (fun s => fl_size (demo_ff 0 1 AVERROR_EOF demo_film) s = (2, 1) /\ to_come 1 (seen s) = demo_pictures).
Proof. exact ff_frames_example. Qed.

(** C69, finding: an error while reading packets counts as the end of the file; the file is
    shorter than it should be and no error is reported. *)
Theorem ff_read_error_refuted : exists start, ff_ok (demo_ff 0 1 (-5) start) /\ is_errno (demo_ff 0 1 (-5) start) (-5) /\
  (forall s, dc_packets (snd s) = [] -> fl_packet (demo_ff 0 1 (-5) start) s = (-5, 0, s)) /\
  session (ffmpeg_reader (demo_ff 0 1 (-5) start) demo_env) demo_env "a.mkv" (reads 5 2) =
    Ok (2, 1, RDEOK, [(true, RDEOK); (true, RDEOK); (true, RDEOK); (true, RDEOK); (false, RDEOK)]).
Proof. exact ff_read_error_refuted_claim. Qed.
Print Assumptions ff_read_error_refuted.

(** C70.  If avformat_open_input, avformat_find_stream_info, av_find_best_stream, avcodec_open2 or
    the scaler fails, opening fails with that error if it is an errno, and with RDEINVAL
    otherwise; nothing is left behind. *)
Theorem ff_failure : forall L E filename e, ff_ok L -> memory_suffices E -> ff_fails L filename e ->
  forall w, exists w1, opened_by (ffmpeg_reader L E) E filename w = Ok (None, 0, 0, (if fl_errno L e then e else RDEINVAL), w1) /\ holds w1 w [] [].
Proof. exact ff_failure_claim. Qed.
Print Assumptions ff_failure.

Example ff_failure_witness : ff_ok (demo_ff 0 1 AVERROR_EOF demo_film) /\ ff_fails (demo_ff 0 1 AVERROR_EOF demo_film) "none" (-2) /\
  session (ffmpeg_reader (demo_ff 0 1 AVERROR_EOF demo_film) demo_env) demo_env "none" [] = Ok (0, 0, -2, []).
Proof. exact ff_failure_example. Qed.

(** C70, finding: an error of avcodec_parameters_to_context is compared before it is assigned;
    it always becomes RDEINVAL. *)
Theorem ff_parameters_refuted : exists L, ff_ok L /\ (forall s, fl_parameters L s = -12) /\ is_errno L (-12) /\
  session (ffmpeg_reader L demo_env) demo_env "a.mkv" [] = Ok (0, 0, RDEINVAL, []).
Proof. exact ff_parameters_refuted_claim. Qed.
Print Assumptions ff_parameters_refuted.

(** C71.  A file the library can read opens, unless memory runs out or the image is over the
    limit: no other error is possible. *)
Theorem library_opens : forall E Y filename,
  (forall L i rows, png_file L Y filename i rows -> fails_for_size_only (libpng_reader L E Y) E filename) /\
  (forall L width height rows, jpeg_file L Y filename width height rows -> fails_for_size_only (libjpeg_reader L E Y) E filename) /\
  (forall L width height fs, magick_film L filename width height fs -> fails_for_size_only (magickwand_reader L E) E filename) /\
  (forall L P, ff_opens L filename 0 P -> fails_for_size_only (ffmpeg_reader L E) E filename).
Proof. exact library_opens_claim. Qed.
Print Assumptions library_opens.

Example library_opens_witness : png_file demo_png (system_of demo_host (demo_png_file 0)) "a.png" (mkInfo 2 2 8 0 false false) demo_png_rows /\
  jpeg_file demo_jpeg (system_of demo_host (demo_jpeg_file 0)) "a.jpg" 3 2 demo_jpeg_rows /\
  magick_film (demo_magick true) "a.gif" 2 2 [demo_frame 2; demo_frame 1; demo_frame 0] /\
  ff_opens (demo_ff 0 0 AVERROR_EOF demo_film) "a.mkv" 0 (fun _ => True) /\
  session (ffmpeg_reader (demo_ff 0 0 AVERROR_EOF demo_film) (without 4)) (without 4) "a.mkv" [] = Ok (0, 0, RDENOMEM, []).
Proof. exact library_opens_example. Qed.

(** C71, finding: with FFmpeg this holds for stream 0 only.  If the pictures are in another
    stream and there is no memory for the codec context, the stream number is taken for an
    error and the file is reported as invalid. *)
Theorem ff_memory_refuted : exists L k, ff_ok L /\ (exists P, ff_opens L "a.mkv" 1 P) /\
  session (ffmpeg_reader L (without k)) (without k) "a.mkv" [] = Ok (0, 0, RDEINVAL, []).
Proof. exact ff_memory_refuted_claim. Qed.
Print Assumptions ff_memory_refuted.
