(**     Properties C31-C37, C39, C44 and a finding about C41: the image formats. *)
From Coq Require Import Reals Lra.
From Flocq Require Import Core IEEE754.Binary IEEE754.Bits.
From Verif Require Import Base Flt Util Methods Analysis Spec Stdio Pgm Pfm Y4m Image ImageHistory SpecImage SpecFormats Demo DemoImages DemoFormats.
From Verif Require Import BaseProofs UtilProofs ImageSafe ImageApi PgmFilm PfmFilm Y4mFilm SeekProofs FormatProofs.
Open Scope list_scope.
Open Scope Z_scope.
From Verif Require Import FormatClaims.

(** C31.  A well-formed PGM file with maxval up to 255 opens with its dimensions, unless
    memory runs out or it is over the limit, and gives one frame: each sample divided by
    maxval, correctly rounded.  Every program of reads and seeks gets the replies that
    belong to this one frame. *)
Theorem pgm_round_trip : forall R E Y f want wd s width height maxval head samples tail,
  config_ok (e_cfg E) = true -> system_ok Y -> r_pgm R = true -> delivers Y f s -> s_rest s = head ++ samples ++ tail ->
  pgm_head width height maxval head -> 1 <= width <= SIZE_MAX -> 1 <= height <= SIZE_MAX -> 1 <= maxval <= 255 -> zlen samples = width * height ->
  exists vs, Forall2 (fun c v => quotient c maxval v) samples vs /\
  opens_as E width height (within E width height 1)
    (fun i => (exists i', frames Y i [vs] RDEOK i') /\ (forall cs, Forall (proper width height) cs -> screens E Y RDEOK i [vs] cs))
    (resdet_open_image_with_reader R E Y (Some f) (Some "PGM"%string) true want wd).
Proof. exact pgm_round_trip_claim. Qed.
Print Assumptions pgm_round_trip.

Example pgm_round_trip_witness : config_ok (e_cfg demo_env) = true /\ system_ok (system_of strict_host demo_pgm_file) /\ r_pgm native_readers = true /\
  delivers (system_of strict_host demo_pgm_file) "a.pgm" (file_of demo_pgm_file) /\ pgm_head 3 2 255 demo_pgm_head /\ zlen demo_samples = 3 * 2 /\
  within demo_env 3 2 1 /\ (forall k, e_alloc demo_env k = true).
Proof. exact pgm_round_trip_example. Qed.

(** C31, finding: the magic number is not enforced.  After "P" the reader skips a '5' if
    there is one, so a file that starts with "P6 2 2" opens as a grey image of 6x2. *)
Theorem pgm_magic_refuted : exists bytes im buf w', firstn 6 bytes = chars "P6 2 2" /\
  open_by native_readers demo_env (system_of strict_host bytes) (Some "a.pgm"%string) (ByType None) true true w0 = Ok (Some im, 6, 2, buf, RDEOK, w').
Proof. exact pgm_magic_refuted_claim. Qed.
Print Assumptions pgm_magic_refuted.

(** C31, finding: comments are only understood between the magic number and the width.
    Netpbm allows them anywhere in the header. *)
Theorem pgm_comment_refuted : exists w',
  open_by native_readers demo_env (system_of strict_host (chars "P5 1 " ++ chars "# height next" ++ [10] ++ chars "1 255 " ++ [7])) (Some "a.pgm"%string) (ByType None) true true w0 =
    Ok (None, 0, 0, None, RDEINVAL, w').
Proof. exact pgm_comment_refuted_claim. Qed.
Print Assumptions pgm_comment_refuted.

(** C32.  A well-formed PFM file of any number of frames, grey or colour, of either byte
    order, opens with its dimensions and gives the frames: the samples bit by bit for
    grey, the mean of the three for colour, top row first.  Every program of reads and
    seeks gets the replies that belong to these frames, if all frames are of one kind,
    memory suffices for what a seek needs, and the first call is not a seek by 0. *)
Theorem pfm_round_trip : forall R E Y f want wd s width height fs,
  config_ok (e_cfg E) = true -> system_ok Y -> r_pfm R = true -> delivers Y f s ->
  forall kind, pfm_frames (y_host Y) kind width height [] fs (s_rest s) -> fs <> [] -> 1 <= width <= SIZE_MAX -> 1 <= height <= SIZE_MAX ->
  opens_as E width height (within E width height 1)
    (fun i => (exists i', frames Y i fs (end_of s) i') /\
      (kind <> None -> width * height * 12 <= SIZE_MAX -> (s_seekable s = true \/ forall n, e_alloc E n = true) ->
       forall cs, Forall (proper width height) cs -> moves cs -> screens E Y (end_of s) i fs cs))
    (resdet_open_image_with_reader R E Y (Some f) (Some "PFM"%string) true want wd).
Proof. exact pfm_round_trip_claim. Qed.
Print Assumptions pfm_round_trip.

Example pfm_round_trip_witness : config_ok (e_cfg demo_env) = true /\ system_ok (system_of demo_host demo_pfm_file) /\ r_pfm native_readers = true /\
  delivers (system_of demo_host demo_pfm_file) "a.pfm" (file_of demo_pfm_file) /\
  pfm_frames demo_host (Some false) 1 2 [] [[f0; f1]; [f1; f0]] demo_pfm_file /\ within demo_env 1 2 1.
Proof. exact pfm_round_trip_example. Qed.

(** C33.  A well-formed YUV4MPEG2 stream of any number of frames, with 4:2:0, 4:2:2, 4:4:4
    or no chroma and 8 to 16 bits, opens with its dimensions and gives the luma planes,
    each sample divided by 2^depth-1 and correctly rounded, and the chroma is passed over
    exactly.  On big-endian hosts 16-bit samples are taken with their bytes swapped.
    The limit is a quarter of what it is for the other formats. *)
Theorem y4m_round_trip : forall R E Y f want wd s width height sub depth head samples l,
  config_ok (e_cfg E) = true -> system_ok Y -> r_y4m R = true -> delivers Y f s -> s_rest s = head ++ l ->
  y4m_head width height sub depth head -> y4m_frames width height sub depth [] samples l -> 1 <= width <= SIZE_MAX -> 1 <= height <= SIZE_MAX ->
  exists fs, Forall2 (Forall2 (fun c v => quotient (taken_for (y_host Y) depth c) (2 ^ depth - 1) v)) samples fs /\
  opens_as E width height (y4m_within E width height sub depth)
    (fun i => (exists i', frames Y i fs (end_of s) i') /\ (forall calls, Forall (proper width height) calls -> screens E Y (end_of s) i fs calls))
    (resdet_open_image_with_reader R E Y (Some f) (Some "Y4M"%string) true want wd).
Proof. exact y4m_round_trip_claim. Qed.
Print Assumptions y4m_round_trip.

Example y4m_round_trip_witness : config_ok (e_cfg demo_env) = true /\ system_ok (system_of strict_host demo_y4m_file) /\ r_y4m native_readers = true /\
  delivers (system_of strict_host demo_y4m_file) "-" (pipe_of demo_y4m_file) /\
  y4m_head 2 2 S420 8 demo_y4m_head /\ y4m_frames 2 2 S420 8 [] [[0; 51; 102; 255]; [255; 0; 51; 102]] demo_y4m_frames /\
  y4m_within demo_env 2 2 S420 8 /\ (forall c, taken_for strict_host 8 c = c).
Proof. exact y4m_round_trip_example. Qed.

(** C33, finding: 4:1:1 is taken for 4:2:0.  A 4x1 frame has two chroma samples then, and
    the reader passes over four: the second frame is not found. *)
Theorem y4m_411_refuted : 
  verdicts (image_program native_readers demo_env (system_of strict_host (y4m_text "YUV4MPEG2 W4 H1 C411" [[0; 0; 0; 0; 128; 128]; [0; 0; 0; 0; 128; 128]]))
    (Some "a.y4m"%string) (ByType None) true true [IRead (Some (repeat None 4)); IRead (Some (repeat None 4))] w0) = Some [(true, RDEOK); (false, RDEINVAL)].
Proof. exact y4m_411_refuted_claim. Qed.
Print Assumptions y4m_411_refuted.

(** C33, finding: 4:4:4 with an alpha plane is taken for plain 4:4:4; the alpha plane is
    then taken for the start of the next frame. *)
Theorem y4m_alpha_refuted : 
  verdicts (image_program native_readers demo_env (system_of strict_host (y4m_text "YUV4MPEG2 W1 H1 C444alpha" [[0; 128; 128; 255]; [0; 128; 128; 255]]))
    (Some "a.y4m"%string) (ByType None) true true [IRead (Some [None]); IRead (Some [None])] w0) = Some [(true, RDEOK); (false, RDEINVAL)].
Proof. exact y4m_alpha_refuted_claim. Qed.
Print Assumptions y4m_alpha_refuted.

(** C33, finding: on big-endian hosts the 16-bit sample 1 reads as 256/65535. *)
Theorem y4m_16_bit_refuted : exists v,
  replies (image_program native_readers demo_env (system_of big_host (y4m_text "YUV4MPEG2 W1 H1 Cmono16" [[1; 0]]))
    (Some "a.y4m"%string) (ByType None) true true [IRead (Some [None])] w0) = Some [IFrame true RDEOK (Some [Some v])] /\
  quotient 256 65535 v /\ ~ quotient 1 65535 v.
Proof. exact y4m_16_bit_refuted_claim. Qed.
Print Assumptions y4m_16_bit_refuted.

(** C33, finding: an image of 3x2 is too big for a limit of 6 pixels. *)
Theorem y4m_limit_refuted : exists w', within (limit_env 6) 3 2 1 /\
  open_by native_readers (limit_env 6) (system_of strict_host (y4m_text "YUV4MPEG2 W3 H2 Cmono" [[0; 0; 0; 0; 0; 0]]))
    (Some "a.y4m"%string) (ByType None) true true w0 = Ok (None, 0, 0, None, RDETOOBIG, w').
Proof. exact y4m_limit_refuted_claim. Qed.
Print Assumptions y4m_limit_refuted.

(** C34.  On a well-formed file, seeking by k and reading gives the frame that k+1 reads
    give, the k+1st, for every k less than the number of frames; for PFM not k = 0, which
    needs no seek, and only with the memory a seek takes. *)
Theorem seek_then_read : forall R E Y f want wd s width height name limit fs (k : nat) frame,
  config_ok (e_cfg E) = true -> system_ok Y -> provides R name -> delivers Y f s -> 1 <= width <= SIZE_MAX -> 1 <= height <= SIZE_MAX ->
  film E (y_host Y) width height (s_rest s) name limit fs -> nth_error fs k = Some frame ->
  (name = "PFM"%string -> (1 <= k)%nat /\ width * height * 12 <= SIZE_MAX /\ (s_seekable s = true \/ forall n, e_alloc E n = true)) ->
  opens_as E width height limit (fun i => forall buf wd0, width * height <= Z.of_nat (length buf) ->
      (exists i' wd', do_image_calls E Y [ISeek (Z.of_nat k); IRead (Some buf)] (Some i) wd0 =
        Ok ([ISought true RDEOK (zrange 1 (Z.of_nat k + 1)); IFrame true RDEOK (Some (map Some frame ++ skipn (length frame) buf))], i', wd')) /\
      (exists rs i' wd', do_image_calls E Y (repeat (IRead (Some buf)) k ++ [IRead (Some buf)]) (Some i) wd0 =
        Ok (rs ++ [IFrame true RDEOK (Some (map Some frame ++ skipn (length frame) buf))], i', wd')))
    (resdet_open_image_with_reader R E Y (Some f) (Some name) true want wd).
Proof. exact seek_then_read_claim. Qed.
Print Assumptions seek_then_read.

Example seek_then_read_witness :
  film demo_env demo_host 3 2 demo_pgm_file "PGM" (within demo_env 3 2 1) [demo_values] /\
  film demo_env demo_host 1 2 demo_pfm_file "PFM" (within demo_env 1 2 1) [[f0; f1]; [f1; f0]] /\
  film demo_env demo_host 2 2 demo_y4m_file "Y4M" (y4m_within demo_env 2 2 S420 8) (map (map value_of) [[0; 51; 102; 255]; [255; 0; 51; 102]]) /\
  provides native_readers "PGM" /\ provides native_readers "PFM" /\ provides native_readers "Y4M".
Proof. exact seek_then_read_example. Qed.

(** C34, finding: PFM seeks skip frames of the size of the first frame.  With a colour
    frame among grey ones the seek ends inside a frame. *)
Theorem mixed_seek_refuted : 
  pfm_frames demo_host None 1 1 [] [[f1]; [mean3 f0 f0 f0]; [f1]] mixed_pfm /\
  replies (image_program native_readers demo_env (system_of demo_host mixed_pfm) (Some "a.pfm"%string) (ByType None) true true
    [ISeek 2; IRead (Some [None])] w0) = Some [ISought true RDEOK [1; 2]; IFrame false RDEINVAL (Some [None])].
Proof. exact mixed_seek_refuted_claim. Qed.
Print Assumptions mixed_seek_refuted.

(** C35.  For PGM and YUV4MPEG2 a seek by 0 succeeds and changes nothing, whatever the
    input and the state. *)
Theorem seek_zero : forall E Y i w, (match im_ctx i with CPgm _ | CY4m _ => True | _ => False end) ->
  resdet_seek_frame E Y (Some i) 0 w = Ok (true, RDEOK, [], Some i, w).
Proof. exact seek_zero_claim. Qed.
Print Assumptions seek_zero.

Example seek_zero_witness : exists i width height buf w', open_by native_readers demo_env (system_of strict_host demo_y4m_file) (Some "-"%string) (ByReader (Some "Y4M"%string)) true true w0 =
    Ok (Some i, width, height, buf, RDEOK, w') /\ match im_ctx i with CPgm _ | CY4m _ => True | _ => False end.
Proof. exact seek_zero_example. Qed.

(** C35, finding: a seek by 0 on a PFM image that has just been opened reports success and
    loses the first frame: the next read takes the samples for a header. *)
Theorem seek_zero_pfm_refuted : 
  verdicts (image_program native_readers demo_env (system_of demo_host demo_pfm_file) (Some "a.pfm"%string) (ByType None) true true
    [IRead (Some [None; None])] w0) = Some [(true, RDEOK)] /\
  verdicts (image_program native_readers demo_env (system_of demo_host demo_pfm_file) (Some "a.pfm"%string) (ByType None) true true
    [ISeek 0; IRead (Some [None; None])] w0) = Some [(true, RDEOK); (false, RDEINVAL)].
Proof. exact seek_zero_pfm_refuted_claim. Qed.
Print Assumptions seek_zero_pfm_refuted.

(** C36.  A seek calls the progress function with 1, 2, ..., n for some n up to the offset,
    whatever the input, and with all of them if it succeeds. *)
Theorem seek_progress : forall E Y i k wd b e calls i' wd', bytes_ahead i <> None -> 0 <= k ->
  resdet_seek_frame E Y (Some i) k wd = Ok (b, e, calls, i', wd') ->
  exists n, 0 <= n <= k /\ calls = zrange 1 (n + 1) /\ (b = true -> n = k).
Proof. exact seek_progress_claim. Qed.
Print Assumptions seek_progress.

Example seek_progress_witness : exists i width height buf w' i' w'', open_by native_readers demo_env (system_of strict_host demo_y4m_file) (Some "-"%string) (ByReader (Some "Y4M"%string)) true true w0 =
    Ok (Some i, width, height, buf, RDEOK, w') /\ bytes_ahead i <> None /\
  resdet_seek_frame demo_env (system_of strict_host demo_y4m_file) (Some i) 5 w' = Ok (false, RDEOK, [1; 2], i', w'').
Proof. exact seek_progress_example. Qed.

(** C37.  Whatever the input: if a native reader reports a frame then all the bytes of its
    samples were there and were taken from the input.  If it reports no frame and no
    error, the PGM image had been read before, or nothing at all was left.  [reached]: for
    every image and state a client can come to. *)
Theorem read_needs_samples : forall E Y i buf b e buf' i' l, config_ok (e_cfg E) = true -> system_ok Y -> reached E Y i ->
  image_call_ok (im_width i) (im_height i) (IRead (Some buf)) -> bytes_ahead i = Some l ->
  resdet_read_image_frame Y (Some i) (Some buf) = Ok (b, e, buf', i') ->
  exists i1, i' = Some i1 /\ im_width i1 = im_width i /\ im_height i1 = im_height i /\
  (b = true -> exists used l', l = used ++ l' /\ bytes_ahead i1 = Some l' /\ im_width i * im_height i * bytes_per_pixel i1 <= zlen used) /\
  (b = false -> e = RDEOK -> finished i).
Proof. exact read_needs_samples_claim. Qed.
Print Assumptions read_needs_samples.

Example read_needs_samples_witness : exists i l, reached demo_env (system_of strict_host demo_y4m_file) i /\ bytes_ahead i = Some l /\
  im_width i = 2 /\ im_height i = 2 /\
  match resdet_read_image_frame (system_of strict_host demo_y4m_file) (Some i) (Some (repeat None 4)) with Ok (b, _, _, _) => b = true | _ => False end.
Proof. exact read_needs_samples_example. Qed.

(** C37.  Files that end inside a frame: the complete frames are read, then the read
    reports an invalid image.  PGM: *)
Theorem pgm_truncated : forall R E Y f want wd s width height maxval head samples,
  config_ok (e_cfg E) = true -> system_ok Y -> r_pgm R = true -> delivers Y f s -> s_rest s = head ++ samples ->
  pgm_head width height maxval head -> 1 <= width <= SIZE_MAX -> 1 <= height <= SIZE_MAX -> 1 <= maxval <= 255 -> zlen samples < width * height ->
  opens_as E width height (within E width height 1) (fun i => exists i', frames Y i [] RDEINVAL i')
    (resdet_open_image_with_reader R E Y (Some f) (Some "PGM"%string) true want wd).
Proof. exact pgm_truncated_claim. Qed.
Print Assumptions pgm_truncated.

(** PFM, with complete frames [fs] of any kind before the incomplete one: *)
Theorem pfm_truncated : forall R E Y f want wd s width height fs little colour head part,
  config_ok (e_cfg E) = true -> system_ok Y -> r_pfm R = true -> delivers Y f s ->
  pfm_frames (y_host Y) None width height (head ++ part) fs (s_rest s) -> pfm_head (y_host Y) little colour width height head ->
  zlen part < width * height * (if colour then 12 else 4) -> 1 <= width <= SIZE_MAX -> 1 <= height <= SIZE_MAX ->
  opens_as E width height (within E width height 1) (fun i => exists i', frames Y i fs RDEINVAL i')
    (resdet_open_image_with_reader R E Y (Some f) (Some "PFM"%string) true want wd).
Proof. exact pfm_truncated_claim. Qed.
Print Assumptions pfm_truncated.

(** YUV4MPEG2; on seekable files only the luma samples count (see the finding below): *)
Theorem y4m_truncated : forall R E Y f want wd s width height sub depth head t samples l,
  config_ok (e_cfg E) = true -> system_ok Y -> r_y4m R = true -> delivers Y f s -> s_rest s = head ++ l ->
  y4m_head width height sub depth head -> y4m_frames width height sub depth t samples l ->
  y4m_cut ((width * height + if s_seekable s then 0 else chroma sub width height) * sample_size depth) t -> 1 <= width <= SIZE_MAX -> 1 <= height <= SIZE_MAX ->
  exists fs, Forall2 (Forall2 (fun c v => quotient (taken_for (y_host Y) depth c) (2 ^ depth - 1) v)) samples fs /\
  opens_as E width height (y4m_within E width height sub depth) (fun i => exists i', frames Y i fs RDEINVAL i')
    (resdet_open_image_with_reader R E Y (Some f) (Some "Y4M"%string) true want wd).
Proof. exact y4m_truncated_claim. Qed.
Print Assumptions y4m_truncated.

Example y4m_truncated_witness :
  y4m_frames 2 2 S420 8 (Y4m.chars "FRAME" ++ [] ++ 10 :: [1; 2; 3]) [] (Y4m.chars "FRAME" ++ [] ++ 10 :: [1; 2; 3]) /\
  y4m_cut ((2 * 2 + 0) * sample_size 8) (Y4m.chars "FRAME" ++ [] ++ 10 :: [1; 2; 3]) /\
  pfm_frames demo_host None 1 2 (demo_pfm_head "-1.0" ++ [1; 2; 3; 4; 5]) [] (demo_pfm_head "-1.0" ++ [1; 2; 3; 4; 5]) /\
  pfm_head demo_host true false 1 2 (demo_pfm_head "-1.0").
Proof. exact y4m_truncated_example. Qed.

(** C37 and C39, finding: a seekable file that ends inside the chroma samples of a frame
    gives that frame without an error; the same bytes from a pipe do not. *)
Theorem truncated_chroma_refuted : 
  verdicts (image_program native_readers demo_env (system_of strict_host short_y4m) (Some "a.y4m"%string) (ByReader (Some "Y4M"%string)) true true [IRead (Some (repeat None 4))] w0) = Some [(true, RDEOK)] /\
  verdicts (image_program native_readers demo_env (system_of strict_host short_y4m) (Some "-"%string) (ByReader (Some "Y4M"%string)) true true [IRead (Some (repeat None 4))] w0) = Some [(false, RDEINVAL)].
Proof. exact truncated_chroma_refuted_claim. Qed.
Print Assumptions truncated_chroma_refuted.

(** C39.  Well-formed bytes give the same from a file and from a pipe: the same dimensions,
    the same frames, the same replies to every program of reads and seeks. *)
Theorem pipes_and_files : forall R E Y1 Y2 f1 f2 want1 want2 wd1 wd2 s1 s2 width height name limit fs,
  config_ok (e_cfg E) = true -> system_ok Y1 -> system_ok Y2 -> provides R name -> delivers Y1 f1 s1 -> delivers Y2 f2 s2 -> 1 <= width <= SIZE_MAX -> 1 <= height <= SIZE_MAX ->
  y_host Y1 = y_host Y2 -> s_rest s1 = s_rest s2 -> s_broken s1 = s_broken s2 ->
  film E (y_host Y1) width height (s_rest s1) name limit fs ->
  forall i1 a1 b1 buf1 e1 w1 i2 a2 b2 buf2 e2 w2,
    resdet_open_image_with_reader R E Y1 (Some f1) (Some name) true want1 wd1 = Ok (Some i1, a1, b1, buf1, e1, w1) ->
    resdet_open_image_with_reader R E Y2 (Some f2) (Some name) true want2 wd2 = Ok (Some i2, a2, b2, buf2, e2, w2) ->
    (a1 = a2 /\ b1 = b2) /\
    (exists e i1' i2', frames Y1 i1 fs e i1' /\ frames Y2 i2 fs e i2') /\
    (forall cs, film_calls E name width height s1 cs -> film_calls E name width height s2 cs ->
       exists rs i1' w1' i2' w2', do_image_calls E Y1 cs (Some i1) w1 = Ok (rs, i1', w1') /\ do_image_calls E Y2 cs (Some i2) w2 = Ok (rs, i2', w2')).
Proof. exact pipes_and_files_claim. Qed.
Print Assumptions pipes_and_files.

Example pipes_and_files_witness :
  delivers (system_of demo_host demo_pfm_file) "a.pfm" (file_of demo_pfm_file) /\ delivers (system_of demo_host demo_pfm_file) "-" (pipe_of demo_pfm_file) /\
  film demo_env demo_host 1 2 demo_pfm_file "PFM" (within demo_env 1 2 1) [[f0; f1]; [f1; f0]] /\
  (forall f, In f ["a.pfm"; "-"]%string ->
     match resdet_open_image_with_reader native_readers demo_env (system_of demo_host demo_pfm_file) (Some f) (Some "PFM"%string) true true w0 with
     | Ok (Some _, width, height, _, e, _) => (width, height, e) = (1, 2, RDEOK) | _ => False end).
Proof. exact pipes_and_files_example. Qed.

(** C44.  The integer formats deliver, for samples up to the maximum [m] (maxval, or
    2^depth-1): finite values from 0 to 1, 0 for 0 and 1 for [m], and greater values for
    greater samples. *)
Theorem normalised : forall m c c' v v', 1 <= m <= 65535 -> 0 <= c <= m -> 0 <= c' <= m -> quotient c m v -> quotient c' m v' ->
  is_finite 24 128 v = true /\ (0 <= B2R 24 128 v <= 1)%R /\ (c = 0 -> v = f0) /\ (c = m -> v = f32_of_Z 1) /\
  (c < c' -> (B2R 24 128 v < B2R 24 128 v')%R).
Proof. exact normalised_claim. Qed.
Print Assumptions normalised.

(** PGM files of which no sample exceeds maxval: *)
Theorem pgm_normalised : forall R E Y f want wd s width height maxval head samples tail,
  config_ok (e_cfg E) = true -> system_ok Y -> r_pgm R = true -> delivers Y f s -> s_rest s = head ++ samples ++ tail ->
  pgm_head width height maxval head -> 1 <= width <= SIZE_MAX -> 1 <= height <= SIZE_MAX -> 1 <= maxval <= 255 -> zlen samples = width * height ->
  Forall (fun c => 0 <= c <= maxval) samples ->
  exists vs, Forall (fun v => is_finite 24 128 v = true /\ (0 <= B2R 24 128 v <= 1)%R) vs /\
  opens_as E width height (within E width height 1) (fun i => exists i', frames Y i [vs] RDEOK i')
    (resdet_open_image_with_reader R E Y (Some f) (Some "PGM"%string) true want wd).
Proof. exact pgm_normalised_claim. Qed.
Print Assumptions pgm_normalised.

(** YUV4MPEG2 streams of which no sample exceeds 2^depth-1: *)
Theorem y4m_normalised : forall R E Y f want wd s width height sub depth head samples l,
  config_ok (e_cfg E) = true -> system_ok Y -> r_y4m R = true -> delivers Y f s -> s_rest s = head ++ l ->
  y4m_head width height sub depth head -> y4m_frames width height sub depth [] samples l -> 1 <= width <= SIZE_MAX -> 1 <= height <= SIZE_MAX ->
  8 <= depth <= 16 -> Forall (Forall (fun c => 0 <= taken_for (y_host Y) depth c <= 2 ^ depth - 1)) samples ->
  exists fs, Forall (Forall (fun v => is_finite 24 128 v = true /\ (0 <= B2R 24 128 v <= 1)%R)) fs /\ length fs = length samples /\
  opens_as E width height (y4m_within E width height sub depth) (fun i => exists i', frames Y i fs (end_of s) i')
    (resdet_open_image_with_reader R E Y (Some f) (Some "Y4M"%string) true want wd).
Proof. exact y4m_normalised_claim. Qed.
Print Assumptions y4m_normalised.

Example normalised_witness : exists v v', quotient 0 255 v /\ quotient 51 255 v' /\ 1 <= 255 <= 65535 /\ Forall (fun c => 0 <= c <= 255) demo_samples.
Proof. exact normalised_example. Qed.

(** C44, finding: PGM samples above maxval are accepted and exceed 1. *)
Theorem pgm_sample_refuted : exists v,
  replies (image_program native_readers demo_env (system_of strict_host (chars "P5 1 1 1 " ++ [255])) (Some "a.pgm"%string) (ByType None) true true [IRead (Some [None])] w0) = Some [IFrame true RDEOK (Some [Some v])] /\ (1 < B2R 24 128 v)%R.
Proof. exact pgm_sample_refuted_claim. Qed.
Print Assumptions pgm_sample_refuted.

(** C44, finding: PGM maxval 0 is accepted and gives values that are not finite. *)
Theorem pgm_maxval_refuted : exists v,
  replies (image_program native_readers demo_env (system_of strict_host (chars "P5 1 1 0 " ++ [5])) (Some "a.pgm"%string) (ByType None) true true [IRead (Some [None])] w0) = Some [IFrame true RDEOK (Some [Some v])] /\ is_finite 24 128 v = false.
Proof. exact pgm_maxval_refuted_claim. Qed.
Print Assumptions pgm_maxval_refuted.

(** C41, finding: a file of one frame that is exactly as large as the limit can be opened
    and read frame by frame, but not with resdet_read_image. *)
Theorem read_image_limit_refuted : exists w2, within (limit_env 6) 3 2 1 /\
  verdicts (image_program native_readers (limit_env 6) demo_pgm_system (Some "a.pgm"%string) (ByType None) true true
    [IRead (Some (repeat None 6)); IRead (Some (repeat None 6))] w0) = Some [(true, RDEOK); (false, RDEOK)] /\
  resdet_read_image native_readers (limit_env 6) demo_pgm_system (Some "a.pgm"%string) None true w0 = Ok (None, 1, 3, 2, RDETOOBIG, w2).
Proof. exact read_image_limit_refuted_claim. Qed.
Print Assumptions read_image_limit_refuted.
