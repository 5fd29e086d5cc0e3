(** What the image properties speak about. *)
From Coq Require Import Ascii String.
From Verif Require Import Base Flt Util Methods Analysis History Spec SpecReport Stdio Pgm Pfm Y4m Image ImageHistory.
Open Scope list_scope.
Open Scope Z_scope.

(** ** Frames of an opened image *)
(** Reading the next frame of [im], into whatever buffer of sufficient size, returns [b]
    and [e], leaves [im'] and, if [b] is true, stores [f] at the start of the buffer. *)
Definition gives (Y : system) (im : rdimage) (b : bool) (e : Z) (f : list f32) (im' : rdimage) : Prop :=
  let n := im_width im * im_height im in
  forall buf, n <= Z.of_nat (length buf) ->
  exists buf', resdet_read_image_frame Y (Some im) (Some buf) = Ok (b, e, Some buf', Some im') /\
    length buf' = length buf /\
    (b = true -> Z.of_nat (length f) = n /\ buf' = map Some f ++ skipn (Z.to_nat n) buf).
(** [frames Y im fs e im']: consecutive reads give the frames [fs] and then no more, with
    error [e]; [im'] is the image after that. *)
Inductive frames (Y : system) : rdimage -> list (list f32) -> Z -> rdimage -> Prop :=
| frames_none im e f im' : gives Y im false e f im' -> frames Y im [] e im'
| frames_one im f im1 fs e im' : gives Y im true RDEOK f im1 -> frames Y im1 fs e im' -> frames Y im (f :: fs) e im'.

(** the client's frame buffers are large enough *)
Definition image_call_ok (width height : Z) (c : image_call) : Prop :=
  match c with IRead (Some buf) => width * height <= Z.of_nat (length buf) | _ => True end.

(** replies: success comes with no error, buffers keep their size *)
Definition image_reply_ok (c : image_call) (r : image_reply) : Prop :=
  match c, r with
  | IRead b, IFrame ok e b' => (ok = true -> e = RDEOK) /\ option_map (@length _) b' = option_map (@length _) b
  | ISeek k, ISought _ _ _ => True
  | _, _ => False
  end.
(** the block of a returned frame buffer, which is the client's *)
Definition buffer_blocks (b : option buffer) : list nat := match b with Some (b, _) => [b] | None => [] end.

(** [n] frames are within the pixel limit and their size in bytes fits size_t *)
Definition within (E : env) (width height n : Z) : Prop :=
  width * height * n <= c_pixel_max (e_cfg E) /\ width * height * n * 4 <= SIZE_MAX.

(** a bound on the bytes (for external readers: frames) behind a file name *)
Definition bytes_bound (Y : system) (filename : string) (N : nat) : Prop :=
  (forall t, filename = "-"%string -> (length (s_rest (y_stdin Y t)) <= N)%nat) /\
  (forall t s, y_fopen Y t filename = inl s -> (length (s_rest s) <= N)%nat) /\
  (forall x t c width height, x_open (y_ext Y x) t filename = inl (c, width, height) -> (x_frames (y_ext Y x) c <= N)%nat).

(** ** Analysing the frames of a file by hand: create, analyse the frames until one fails,
    then report the error [er] that ended the frames, or fetch the results *)
Definition by_hand_file (E : env) (fs : list (list f32)) (er : Z) (width height : Z) (q : wants)
    (m : option method) (p : option params) (o : outs) (wd : world) : res (Z * outs * world) :=
  '(a, e, wd) <- resdet_create_analysis E m width height p wd ;;
  match a with
  | None => Ok (e, clear_outs q o, wd)
  | Some a =>
      '(e, a, wd) <- analyze_frames E fs (Some a) wd ;;
      let e := if e =? 0 then er else e in
      '(e, o, wd) <- (if e =? 0 then resdet_analysis_results E a q o wd
                      else Ok (e, clear_outs q o, wd)) ;;
      wd <- resdet_destroy_analysis a wd ;;
      Ok (e, o, wd)
  end.

(** ** Reader selection *)
(** equal without regard to case *)
Definition same_nocase (a b : string) : Prop := map lower (chars a) = map lower (chars b).
Definition without (c : Ascii.ascii) (s : string) : Prop := ~ In c (list_ascii_of_string s).
Definition mime_types : list (string * string) :=
  [("image/jpeg", "jpg"); ("image/png", "png"); ("video/yuv4mpeg", "y4m");
   ("image/x-portable-graymap", "pgm"); ("image/x-portable-floatmap", "pfm")]%string.
(** the type an image is opened as, from its name and the type given *)
Inductive image_type (filename : string) : option string -> string -> Prop :=
| type_given t : without "/"%char t -> image_type filename (Some t) t
| type_mime t e : In (t, e) mime_types -> image_type filename (Some t) e
| type_unknown t : ~ without "/"%char t -> ~ In t (map fst mime_types) -> image_type filename (Some t) ""
| type_suffix base e : filename = (base ++ "." ++ e)%string -> without "."%char e -> image_type filename None e
| type_none : without "."%char filename -> image_type filename None "".
(** which types a reader, by name, is for *)
Definition reads_type (R : readers) (Y : system) (name ext : string) : Prop :=
  (name = "PGM"%string /\ same_nocase ext "pgm") \/ (name = "PFM"%string /\ same_nocase ext "pfm") \/
  (name = "Y4M"%string /\ same_nocase ext "y4m") \/ (name = "libpng"%string /\ same_nocase ext "png") \/
  (name = "libjpeg"%string /\ (same_nocase ext "jpg" \/ same_nocase ext "jpeg")) \/
  (name = "FFmpeg"%string /\ (r_magickwand R = true -> x_supports (y_ext Y Ffmpeg) ext = true)) \/
  name = "MagickWand"%string.
(** the first reader of the build that is for type [ext] *)
Definition chosen (R : readers) (Y : system) (ext name : string) : Prop :=
  exists before after, resdet_list_image_readers R = before ++ name :: after /\ reads_type R Y name ext /\
    Forall (fun n => ~ reads_type R Y n ext) before.
