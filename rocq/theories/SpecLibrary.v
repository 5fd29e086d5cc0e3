(** What the properties of the library readers speak about: what is assumed of the libraries
    and what a reader has to do. *)
From Coq Require Import Reals.
From Flocq Require Import Core IEEE754.Binary IEEE754.Bits.
From Verif Require Import Base Flt Util Methods Analysis Spec Stdio Pgm Pfm Y4m Image ImageHistory SpecImage SpecFormats SpecCli Library.
Open Scope list_scope.
Open Scope Z_scope.

(** ** What a reader has to do *)
(** the reply to a call: a frame comes without error and fills the first width*height samples;
    a seek reports 1, 2, and so on *)
Definition served (width height : Z) (c : image_call) (r : image_reply) : Prop :=
  match c, r with
  | IRead None, IFrame ok e None => ok = false /\ e = RDEPARAM
  | IRead (Some buf), IFrame ok e (Some buf') =>
      known_code e /\ length buf' = length buf /\
      (ok = true -> e = RDEOK /\
         exists f : list f32, zlen f = width * height /\ buf' = map Some f ++ skipn (Z.to_nat (width * height)) buf)
  | ISeek k, ISought ok e calls =>
      known_code e /\ (ok = true -> e = RDEOK) /\
      exists n, 0 <= n <= k /\ calls = zrange 1 (n + 1) /\ (ok = true -> n = k)
  | _, _ => False
  end.
Definition frames_in (rs : list image_reply) : nat :=
  length (filter (fun r => match r with IFrame ok _ _ => ok | ISought _ _ _ => false end) rs).

(** Opening a file either fails with an error and leaves nothing behind, or gives an image
    within the limits.  Then any reads and seeks are answered, there are not more than [N]
    frames, and closing leaves nothing behind. *)
Definition contract (rd : image_reader) (E : env) (filename : string) : Prop :=
  forall w0, exists c width height e w1,
    opened_by rd E filename w0 = Ok (c, width, height, e, w1) /\ known_code e /\
    match c with
    | None => e <> RDEOK /\ holds w1 w0 [] []
    | Some c =>
        e = RDEOK /\ 1 <= width /\ 1 <= height /\ within E width height 1 /\
        exists N, forall cs, Forall (proper width height) cs ->
          exists rs c' w2 w3,
            calls_by rd c width height cs w1 = Ok (rs, c', w2) /\ rd_close rd c' w2 = Ok w3 /\ holds w3 w0 [] [] /\
            Forall2 (served width height) cs rs /\ (frames_in rs <= N)%nat
    end.

(** The file is a film of frames [fs]: opening it gives an image of that size, if it is within
    the limits, and every program of reads and seeks gets these frames in order and then no
    more, without error. *)
Definition projects (rd : image_reader) (E : env) (filename : string) (width height : Z) (fs : list (list f32)) : Prop :=
  forall w0, exists c w1,
    (within E width height 1 /\ opened_by rd E filename w0 = Ok (Some c, width, height, RDEOK, w1) /\
     forall cs, Forall (proper width height) cs ->
       exists c' w2, calls_by rd c width height cs w1 = Ok (screening RDEOK cs fs, c', w2)) \/
    (~ within E width height 1 /\ opened_by rd E filename w0 = Ok (None, 0, 0, RDETOOBIG, w1)).

(** opening may fail for lack of memory or because the image is too large, but not otherwise *)
Definition fails_for_size_only (rd : image_reader) (E : env) (filename : string) : Prop :=
  forall w0 c width height e w1, opened_by rd E filename w0 = Ok (c, width, height, e, w1) ->
    e = RDEOK \/ e = RDENOMEM \/ e = RDETOOBIG.

(** the environment: limits make sense; errno is a positive int *)
Definition surroundings_ok (E : env) (Y : system) : Prop :=
  config_ok (e_cfg E) = true /\ system_ok Y /\ codes_ok Y.
Definition memory_suffices (E : env) : Prop := forall n, e_alloc E n = true.
(** every stream a file name may give *)
Definition may_give (Y : system) (filename : string) (s : stream) : Prop :=
  if String.eqb filename "-" then exists n, s = y_stdin Y n else exists n, y_fopen Y n filename = inl s.

(** ** libpng *)
(** colour types and bit depths of the PNG specification, 11.2.2; tRNS only with types 0, 2, 3 *)
Definition png_kind (color depth : Z) : Prop :=
  (color = 0 /\ In depth [1; 2; 4; 8; 16]) \/ (color = 2 /\ In depth [8; 16]) \/ (color = 3 /\ In depth [1; 2; 4; 8]) \/
  (color = 4 /\ In depth [8; 16]) \/ (color = 6 /\ In depth [8; 16]).
Definition png_valid (i : png_info) : Prop :=
  1 <= pi_width i <= 2^31 - 1 /\ 1 <= pi_height i <= 2^31 - 1 /\ png_kind (pi_color i) (pi_depth i) /\
  (pi_trns i = true -> In (pi_color i) [0; 2; 3]).
(** Headers are valid.  A row has the bytes the transformations give.  It is complete if the
    image is not interlaced; if it is, only if the order of calls is that of the manual, and
    then only after all passes (not stated). *)
Definition png_ok (L : png_lib) : Prop :=
  (forall d i, pl_info L d = Some i -> png_valid i) /\
  (forall d i t early k l, pl_info L d = Some i -> pl_row L t early d k = Some l ->
     zlen l = png_rowbytes i t /\ (forall c, In (Some c) l -> 0 <= c < 256) /\ (pi_interlaced i = false -> ~ In None l)).
Definition png_plain (L : png_lib) (Y : system) (filename : string) : Prop :=
  forall s i, may_give Y filename s -> pl_info L (skipn 8 (s_rest s)) = Some i -> pi_interlaced i = false.
(** the value of a pixel with these channels *)
Inductive pixel_of : list Z -> f32 -> Prop :=
| pixel_grey c v : quotient c 255 v -> pixel_of [c] v
| pixel_colour r g b x y z : quotient r 255 x -> quotient g 255 y -> quotient b 255 z -> pixel_of [r; g; b] (mean3 x y z).
(** every stream of the name is a PNG file that libpng decodes to [rows] of pixels, after the
    transformations [t] *)
Definition png_file (L : png_lib) (Y : system) (filename : string) (i : png_info) (rows : list (list (list Z))) : Prop :=
  (exists t, may_give Y filename t) /\ (forall n e, y_fopen Y n filename = inr e -> filename = "-"%string) /\
  forall s, may_give Y filename s ->
    firstn 8 (s_rest s) = [137; 80; 78; 71; 13; 10; 26; 10] /\ (8 <= length (s_rest s))%nat /\
    let d := skipn 8 (s_rest s) in
    pl_info L d = Some i /\ pl_update L d = true /\ pl_end L d = true /\
    zlen rows = pi_height i /\
    Forall (fun r => zlen r = pi_width i) rows /\
    forall t early k r, png_updated i t = (0, 8) \/ png_updated i t = (2, 8) -> nth_error rows k = Some r ->
      (forall p, In p r -> zlen p = png_channels (fst (png_updated i t))) /\
      pl_row L t early d k = Some (map Some (concat r)).

(** ** libjpeg *)
Fixpoint lines_before (L : jpeg_lib) (d : list Z) (k : nat) : list (list Z) :=
  match k with
  | O => []
  | S k => lines_before L d k ++ match jl_lines L d k with Lines rows => rows | Message => [] end
  end.
Definition jpeg_ok (L : jpeg_lib) : Prop :=
  forall d width height, jl_header L d = Some (width, height) ->
    1 <= width <= 65535 /\ 1 <= height <= 65535 /\
    forall k rows, zlen (lines_before L d k) < height -> jl_lines L d k = Lines rows ->
      1 <= zlen rows <= height - zlen (lines_before L d k) /\
      Forall (fun r => zlen r = width /\ Forall (fun c => 0 <= c < 256) r) rows.
(** while lines are read libjpeg has no error, no warning and no trace message *)
Definition jpeg_quiet (L : jpeg_lib) (Y : system) (filename : string) : Prop :=
  forall s width height k, may_give Y filename s -> jl_header L (s_rest s) = Some (width, height) ->
    zlen (lines_before L (s_rest s) k) < height -> jl_lines L (s_rest s) k <> Message.
(** every stream of the name is a JPEG file that libjpeg decodes, [n] calls, to [rows] *)
Definition jpeg_file (L : jpeg_lib) (Y : system) (filename : string) (width height : Z) (rows : list (list Z)) : Prop :=
  (exists t, may_give Y filename t) /\ (forall n e, y_fopen Y n filename = inr e -> filename = "-"%string) /\
  zlen rows = height /\
  forall s, may_give Y filename s ->
    jl_header L (s_rest s) = Some (width, height) /\ (exists k, lines_before L (s_rest s) k = rows).

(** ** MagickWand *)
Definition magick_ok (L : magick_lib) : Prop :=
  (forall n f ex errno, ml_read L n f = inr (ex, errno) -> 0 <= errno <= INT_MAX) /\
  (forall n f, 0 <= ml_fopen L n f <= INT_MAX) /\
  (forall n f s, ml_read L n f = inl s -> is_size (fst (ml_size L s)) /\ is_size (snd (ml_size L s))) /\
  (forall s s', ml_next L s = Some s' -> (ml_left L s' < ml_left L s)%nat) /\
  (forall s width height l, 0 <= width -> 0 <= height -> ml_export L s width height = Some l -> zlen l = width * height).
(** pixels can always be exported *)
Definition magick_exports (L : magick_lib) : Prop := forall s width height, ml_export L s width height <> None.
(** the wand is before the frames [fs] *)
Inductive wand_at (L : magick_lib) (width height : Z) : nat -> list (list f32) -> Prop :=
| wand_end s : ml_next L s = None -> wand_at L width height s []
| wand_next s s' f fs : ml_next L s = Some s' -> ml_export L s' width height = Some f ->
    wand_at L width height s' fs -> wand_at L width height s (f :: fs).
Definition magick_film (L : magick_lib) (filename : string) (width height : Z) (fs : list (list f32)) : Prop :=
  forall n, exists s, ml_read L n filename = inl s /\ ml_size L s = (width, height) /\ wand_at L width height s fs.

(** ** FFmpeg *)
(** results are ints; errno values are negated; what is still to come gets less *)
Definition ff_ok (L : ff_lib) : Prop :=
  exists size : fl_state L -> Z * Z,
    (forall n f e, fl_open L n f = inr e -> - INT_MAX <= e < 0) /\
    (forall s, - INT_MAX <= fl_stream_info L s /\ - INT_MAX <= fl_best_stream L s /\ - INT_MAX <= fl_sws_init L s /\
       - INT_MAX <= fl_open2 L s <= 0) /\
    (forall n f s, fl_open L n f = inl s -> is_size (fst (fl_size L s)) /\ is_size (snd (fl_size L s)) /\ size s = fl_size L s) /\
    (forall e, fl_errno L e = true -> e < 0) /\
    (forall s e s', fl_receive L s = (e, s') -> - INT_MAX <= e <= 0 /\ size s' = size s /\
       (fl_left L s' <= fl_left L s)%nat /\ (e = 0 -> (fl_left L s' < fl_left L s)%nat)) /\
    (forall s e i s', fl_packet L s = (e, i, s') -> size s' = size s /\
       (fl_left L s' <= fl_left L s)%nat /\ (e = 0 -> (fl_left L s' < fl_left L s)%nat)) /\
    (forall s b e s', fl_send L s b = (e, s') -> - INT_MAX <= e <= 0 /\ size s' = size s /\
       (fl_left L s' <= fl_left L s)%nat /\ (e = 0 -> b = false -> (fl_left L s' < fl_left L s)%nat)) /\
    (forall s e rows s', fl_scale L s = (e, rows, s') -> - INT_MAX <= e /\ size s' = size s /\
       (fl_left L s' <= fl_left L s)%nat /\
       (0 <= e -> zlen rows = snd (size s) /\ Forall (fun r => fst (size s) <= zlen r) rows)).

(** A file of packets, each of a stream; the decoder of the video stream keeps a queue of
    decoded frames; at the end it also gives the frames it has held back. *)
Record decoder := mkDecoder {
  dc_packets : list (Z * list (list f32));      (* packets to come, and what each completes *)
  dc_packet : list (list f32);                  (* the packet read last *)
  dc_ready : list (list f32);                   (* decoded, not yet received *)
  dc_held : list (list f32);                    (* decoded when draining *)
  dc_drained : bool
}.
(** the frames still to come *)
Definition to_come (index : Z) (d : decoder) : list (list f32) :=
  dc_ready d ++
  (if dc_drained d then [] else concat (map snd (filter (fun p => fst p =? index) (dc_packets d))) ++ dc_held d).
(** rows of a frame, which may be longer than the image is wide *)
Definition rows_of (width height : Z) (rows : list (list f32)) (f : list f32) : Prop :=
  zlen rows = height /\ Forall (fun r => width <= zlen r) rows /\ concat (map (firstn (Z.to_nat width)) rows) = f.
(** the library behaves like that; [read_end] is what av_read_frame returns after the last packet *)
Definition decodes (L : ff_lib) (width height read_end : Z) (dec : fl_state L -> decoder) : Prop :=
  (forall s, exists s', dec s' = mkDecoder (dc_packets (dec s)) (dc_packet (dec s)) (tl (dc_ready (dec s))) (dc_held (dec s)) (dc_drained (dec s)) /\
     match dc_ready (dec s) with
     | f :: _ => fl_receive L s = (0, s') /\
         exists rows s'', fl_scale L s' = (0, rows, s'') /\ rows_of width height rows f /\ dec s'' = dec s'
     | [] => fl_receive L s = (if dc_drained (dec s) then AVERROR_EOF else AVERROR_EAGAIN, s')
     end) /\
  (forall s, match dc_packets (dec s) with
     | (i, fs) :: ps => exists s', fl_packet L s = (0, i, s') /\
         dec s' = mkDecoder ps fs (dc_ready (dec s)) (dc_held (dec s)) (dc_drained (dec s))
     | [] => exists i s', fl_packet L s = (read_end, i, s') /\ dec s' = dec s
     end) /\
  (forall s, dc_drained (dec s) = false -> exists s', fl_send L s true = (0, s') /\
     dec s' = mkDecoder (dc_packets (dec s)) [] (dc_ready (dec s) ++ dc_packet (dec s)) (dc_held (dec s)) false) /\
  (forall s, dc_drained (dec s) = false -> exists s', fl_send L s false = (0, s') /\
     dec s' = mkDecoder (dc_packets (dec s)) (dc_packet (dec s)) (dc_ready (dec s) ++ dc_held (dec s)) [] true).
(** standard input has another name *)
Definition ff_name (filename : string) : string := if String.eqb filename "-" then "pipe:"%string else filename.
(** opening succeeds, with video stream [index] *)
Definition ff_opens (L : ff_lib) (filename : string) (index : Z) (P : fl_state L -> Prop) : Prop :=
  forall n, exists s, fl_open L n (ff_name filename) = inl s /\ 0 <= fl_stream_info L s /\ fl_best_stream L s = index /\ 0 <= index <= INT_MAX /\
    0 <= fl_parameters L s /\ fl_open2 L s = 0 /\ 0 <= fl_sws_init L s /\ P s.
(** av_err2str and strerror agree on this value *)
Definition is_errno (L : ff_lib) (e : Z) : Prop := fl_errno L e = true.
(** opening fails at a step that returns the error [e] *)
Definition ff_fails (L : ff_lib) (filename : string) (e : Z) : Prop :=
  e < 0 /\
  forall n, fl_open L n (ff_name filename) = inr e \/
    exists s, fl_open L n (ff_name filename) = inl s /\
      (fl_stream_info L s = e \/
       0 <= fl_stream_info L s /\
       (fl_best_stream L s = e \/
        0 <= fl_best_stream L s /\ 0 <= fl_parameters L s /\
        (fl_open2 L s = e \/
         fl_open2 L s = 0 /\ fl_sws_init L s = e))).
