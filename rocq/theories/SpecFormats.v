(** The image file formats, as texts: what a well-formed PGM, PFM or YUV4MPEG2 file is
    and which samples it holds.  Nothing here refers to the readers. *)
From Coq Require Import Reals.
From Flocq Require Import Core IEEE754.Binary IEEE754.Bits.
From Verif Require Import Base Flt Util Methods Analysis Spec Stdio Pgm Pfm Y4m Image ImageHistory SpecImage.
Open Scope list_scope.
Open Scope Z_scope.

(** ** Text *)
Definition white (c : Z) : Prop := c = 32 \/ 9 <= c <= 13.
Definition blank (l : list Z) : Prop := Forall white l.
Definition gap (l : list Z) : Prop := l <> [] /\ blank l.
Definition digit (c : Z) : Prop := 48 <= c <= 57.
(** a word: not empty, no white space *)
Definition word (l : list Z) : Prop := l <> [] /\ Forall (fun c => ~ white c) l.
(** decimal numerals *)
Inductive spells : list Z -> Z -> Prop :=
| spells_digit c : digit c -> spells [c] (c - 48)
| spells_next l v c : spells l v -> digit c -> spells (l ++ [c]) (10 * v + (c - 48)).
(** comments run from # to the end of the line *)
Inductive comments : list Z -> Prop :=
| comments_none : comments []
| comments_one t l : ~ In 10 t -> comments l -> comments (35 :: t ++ 10 :: l).

(** Netpbm headers: a magic letter, white space, comment lines, two numbers and a third
    item, separated by white space, and one final white space character *)
Definition netpbm_header (letter : Z) (width height : Z) (item l : list Z) : Prop :=
  exists b0 cs b1 tw b2 th b3 c,
    gap b0 /\ comments cs /\ blank b1 /\ spells tw width /\ gap b2 /\ spells th height /\ gap b3 /\ white c /\
    l = 80 :: letter :: b0 ++ cs ++ b1 ++ tw ++ b2 ++ th ++ b3 ++ item ++ [c].

(** ** Sample values *)
(** the float nearest to a/b *)
Definition quotient (a b : Z) (v : f32) : Prop :=
  is_finite 24 128 v = true /\ Bsign 24 128 v = false /\
  B2R 24 128 v = round radix2 (FLT_exp (-149) 24) ZnearestE (IZR a / IZR b)%R.

(** ** PGM *)
Definition pgm_head (width height maxval : Z) (l : list Z) : Prop :=
  exists item, spells item maxval /\ netpbm_header 53 width height item l.

(** ** PFM *)
(** the bytes of a float, in either order *)
Definition float_bytes (little : bool) (v : f32) : list Z :=
  let z := bits_of_b32 v in
  let l := [z mod 256; z / 2^8 mod 256; z / 2^16 mod 256; z / 2^24 mod 256] in
  if little then l else rev l.
Definition mean3 (r g b : f32) : f32 := fdiv (fadd (fadd r g) b) (f32_of_Z 3).
Inductive pixel_bytes (little : bool) : bool -> f32 -> list Z -> Prop :=
| grey_bytes v : pixel_bytes little false v (float_bytes little v)
| colour_bytes r g b :
    pixel_bytes little true (mean3 r g b) (float_bytes little r ++ float_bytes little g ++ float_bytes little b).
Definition row_bytes (little colour : bool) (row : list f32) (l : list Z) : Prop :=
  exists ls, Forall2 (pixel_bytes little colour) row ls /\ l = concat ls.
(** the samples in reading order (top row first); the file has the bottom row first *)
Definition plane_bytes (little colour : bool) (width height : Z) (vs : list f32) (l : list Z) : Prop :=
  exists rows ls, zlen rows = height /\ Forall (fun r => zlen r = width) rows /\ vs = concat rows /\
    Forall2 (row_bytes little colour) rows ls /\ l = concat (rev ls).
(** [t] is a numeral for [v], as the host's %f conversion understands numerals *)
Definition float_text (H : host) (t : list Z) (v : f32) : Prop :=
  word t /\ forall c l, white c -> h_float H (t ++ c :: l) = (length t, Some v).
(** the scale: its sign is the byte order *)
Definition scale_text (H : host) (little : bool) (t : list Z) : Prop :=
  exists v, float_text H t v /\ is_finite 24 128 v = true /\ (little = true <-> (B2R 24 128 v < 0)%R).
Definition pfm_letter (colour : bool) : Z := if colour then 70 else 102.
Definition pfm_head (H : host) (little colour : bool) (width height : Z) (l : list Z) : Prop :=
  exists item, scale_text H little item /\ netpbm_header (pfm_letter colour) width height item l.
Definition pfm_frame (H : host) (colour : bool) (width height : Z) (vs : list f32) (l : list Z) : Prop :=
  exists little head data, pfm_head H little colour width height head /\
    plane_bytes little colour width height vs data /\ l = head ++ data.
(** any number of frames, then [tail]; with [kind], all grey or all colour *)
Inductive pfm_frames (H : host) (kind : option bool) (width height : Z) (tail : list Z) : list (list f32) -> list Z -> Prop :=
| pfm_frames_none : pfm_frames H kind width height tail [] tail
| pfm_frames_one colour vs fs l l' : (forall k, kind = Some k -> colour = k) ->
    pfm_frame H colour width height vs l -> pfm_frames H kind width height tail fs l' ->
    pfm_frames H kind width height tail (vs :: fs) (l ++ l').

(** ** YUV4MPEG2 *)
Inductive param := PWidth (v : Z) | PHeight (v : Z) | PColour (t : list Z) | POther (c : Z) (t : list Z).
Inductive param_text : param -> list Z -> Prop :=
| text_width v t : spells t v -> param_text (PWidth v) (87 :: t)
| text_height v t : spells t v -> param_text (PHeight v) (72 :: t)
| text_colour t : word t -> zlen t <= 9 -> param_text (PColour t) (67 :: t)
| text_other c t : ~ white c -> ~ In c [87; 72; 67] -> word t -> param_text (POther c t) (c :: t).
Definition spaces (l : list Z) : Prop := Forall (fun c => c = 32) l.
Inductive params_text : list param -> list Z -> Prop :=
| params_end sp : spaces sp -> params_text [] (sp ++ [10])
| params_next p ps sp t l : spaces sp -> sp <> [] -> param_text p t -> params_text ps l ->
    params_text (p :: ps) (sp ++ t ++ l).
(** the parameters that matter; the colour space defaults to 420jpeg *)
Definition says (ps : list param) (width height : Z) (colour : list Z) : Prop :=
  In (PWidth width) ps /\ (forall v, In (PWidth v) ps -> v = width) /\
  In (PHeight height) ps /\ (forall v, In (PHeight v) ps -> v = height) /\
  (forall t, In (PColour t) ps -> t = colour) /\
  (In (PColour colour) ps \/ ((forall t, ~ In (PColour t) ps) /\ colour = Y4m.chars "420jpeg")).

(** colour spaces: chroma samples of a frame, bit depth *)
Inductive subsampling := S420 | S422 | S444 | Smono.
Definition chroma (s : subsampling) (width height : Z) : Z :=
  match s with
  | S420 => 2 * ((width + 1) / 2) * ((height + 1) / 2)
  | S422 => 2 * ((width + 1) / 2) * height
  | S444 => 2 * width * height
  | Smono => 0
  end.
Inductive colour_space_text : list Z -> subsampling -> Z -> Prop :=
| cs_420 t : In t ["420"; "420jpeg"; "420mpeg2"; "420paldv"]%string -> colour_space_text (Y4m.chars t) S420 8
| cs_420p t d : spells t d -> 8 <= d <= 16 -> colour_space_text (Y4m.chars "420p" ++ t) S420 d
| cs_422 : colour_space_text (Y4m.chars "422") S422 8
| cs_422p t d : spells t d -> 8 <= d <= 16 -> colour_space_text (Y4m.chars "422p" ++ t) S422 d
| cs_444 : colour_space_text (Y4m.chars "444") S444 8
| cs_444p t d : spells t d -> 8 <= d <= 16 -> colour_space_text (Y4m.chars "444p" ++ t) S444 d
| cs_mono : colour_space_text (Y4m.chars "mono") Smono 8
| cs_mono_n t d : spells t d -> 8 <= d <= 16 -> colour_space_text (Y4m.chars "mono" ++ t) Smono d.

Definition y4m_head (width height : Z) (s : subsampling) (depth : Z) (l : list Z) : Prop :=
  exists ps t colour, params_text ps t /\ says ps width height colour /\ colour_space_text colour s depth /\
    l = Y4m.chars "YUV4MPEG2" ++ t.
(** samples of up to 8 bits take one byte, others two, low byte first *)
Definition sample_size (depth : Z) : Z := if depth <=? 8 then 1 else 2.
Definition sample_bytes (depth c : Z) : list Z := if depth <=? 8 then [c] else [c mod 256; c / 256].
(** what the reader takes a sample for: on big-endian hosts 16-bit samples get swapped *)
Definition taken_for (H : host) (depth c : Z) : Z :=
  if h_little H || (depth <=? 8) then c else 256 * (c mod 256) + c / 256.
Definition y4m_frame (width height : Z) (s : subsampling) (depth : Z) (samples : list Z) (l : list Z) : Prop :=
  exists ps uv, ~ In 10 ps /\ zlen samples = width * height /\
    Forall (fun c => 0 <= c < 256 ^ sample_size depth) samples /\
    zlen uv = chroma s width height * sample_size depth /\
    l = Y4m.chars "FRAME" ++ ps ++ [10] ++ concat (map (sample_bytes depth) samples) ++ uv.
(** any number of frames, then [tail] *)
Inductive y4m_frames (width height : Z) (s : subsampling) (depth : Z) (tail : list Z) : list (list Z) -> list Z -> Prop :=
| y4m_frames_none : y4m_frames width height s depth tail [] tail
| y4m_frames_one f fs l l' : y4m_frame width height s depth f l -> y4m_frames width height s depth tail fs l' ->
    y4m_frames width height s depth tail (f :: fs) (l ++ l').

(** what there is of an incomplete frame: fewer than [need] bytes of data, if any *)
Inductive y4m_cut (need : Z) : list Z -> Prop :=
| cut_word t r : Y4m.chars "FRAME" = t ++ r -> t <> [] -> r <> [] -> y4m_cut need t
| cut_line ps : ~ In 10 ps -> y4m_cut need (Y4m.chars "FRAME" ++ ps)
| cut_data ps data : ~ In 10 ps -> zlen data < need -> y4m_cut need (Y4m.chars "FRAME" ++ ps ++ 10 :: data).
(** the size limit: four times the pixels, and the bytes of a frame *)
Definition y4m_within (E : env) (width height : Z) (s : subsampling) (depth : Z) : Prop :=
  width * height * 4 <= c_pixel_max (e_cfg E) /\
  (width * height + chroma s width height) * sample_size depth <= SIZE_MAX.

(** ** Opening a file *)
(** [filename] leads to the stream [s], whenever it is opened; for "-" that is standard input *)
Definition delivers (Y : system) (filename : string) (s : stream) : Prop :=
  s_eof s = false /\ stream_ok s /\
  (filename = "-"%string -> forall t, y_stdin Y t = s) /\
  (filename <> "-"%string -> forall t, y_fopen Y t filename = inl s).
(** what reading past the last frame reports: the end of the file, or a read error *)
Definition end_of (s : stream) : Z := if s_broken s then RDEINVAL else RDEOK.

(** The outcome of opening an image of known size: out of memory, over the limit, or an
    image satisfying [P]. *)
Definition opens_as (E : env) (width height : Z) (limit : Prop) (P : rdimage -> Prop) (r : res opened) : Prop :=
  exists im w h buf e wd, r = Ok (im, w, h, buf, e, wd) /\
  ((e = RDENOMEM /\ im = None /\ exists k, e_alloc E k = false) \/
   (e = RDETOOBIG /\ im = None /\ ~ limit) \/
   (e = RDEOK /\ w = width /\ h = height /\ limit /\ exists i, im = Some i /\ P i)).

(** ** What reads and seeks reply, for a list of frames still to come *)
Definition shown (end_error : Z) (c : image_call) (fs : list (list f32)) : image_reply * list (list f32) :=
  match c with
  | IRead None => (IFrame false RDEPARAM None, fs)
  | IRead (Some buf) =>
      match fs with
      | [] => (IFrame false end_error (Some buf), [])
      | f :: fs => (IFrame true RDEOK (Some (map Some f ++ skipn (length f) buf)), fs)
      end
  | ISeek k =>
      (ISought (k <=? zlen fs) (if k <=? zlen fs then RDEOK else end_error) (zrange 1 (Z.min k (zlen fs) + 1)),
       skipn (Z.to_nat k) fs)
  end.
Fixpoint screening (end_error : Z) (cs : list image_call) (fs : list (list f32)) : list image_reply :=
  match cs with
  | [] => []
  | c :: cs => let '(r, fs) := shown end_error c fs in r :: screening end_error cs fs
  end.
(** every program of reads and seeks on [im] gets exactly those replies *)
Definition screens (E : env) (Y : system) (end_error : Z) (im : rdimage) (fs : list (list f32)) (cs : list image_call) : Prop :=
  forall wd, exists im' wd', do_image_calls E Y cs (Some im) wd = Ok (screening end_error cs fs, im', wd').
(** the calls are proper: buffers are large enough, offsets not negative *)
Definition proper (width height : Z) (c : image_call) : Prop :=
  image_call_ok width height c /\ (forall k, c = ISeek k -> 0 <= k).

(** programs whose first call reads, or skips at least one frame *)
Definition moves (cs : list image_call) : Prop :=
  match cs with [] => True | IRead (Some _) :: _ => True | IRead None :: _ => False | ISeek k :: _ => k <> 0 end.

(** ** Well-formed files, for the three native readers *)
(** [film E H w h l name limit fs]: the bytes [l] are a file for reader [name] of frames
    [fs], of w x h samples each; [limit] is the condition for accepting it *)
Inductive film (E : env) (H : host) (width height : Z) : list Z -> string -> Prop -> list (list f32) -> Prop :=
| film_pgm maxval head samples tail vs :
    pgm_head width height maxval head -> 1 <= maxval <= 255 -> zlen samples = width * height ->
    Forall2 (fun c v => quotient c maxval v) samples vs ->
    film E H width height (head ++ samples ++ tail) "PGM" (within E width height 1) [vs]
| film_pfm colour l fs :
    pfm_frames H (Some colour) width height [] fs l -> fs <> [] ->
    film E H width height l "PFM" (within E width height 1) fs
| film_y4m s depth head samples l fs :
    y4m_head width height s depth head -> y4m_frames width height s depth [] samples l ->
    Forall2 (Forall2 (fun c v => quotient (taken_for H depth c) (2 ^ depth - 1) v)) samples fs ->
    film E H width height (head ++ l) "Y4M" (y4m_within E width height s depth) fs.
Definition provides (R : readers) (name : string) : Prop :=
  (name = "PGM"%string -> r_pgm R = true) /\ (name = "PFM"%string -> r_pfm R = true) /\ (name = "Y4M"%string -> r_y4m R = true).
(** the error of a read past the last frame *)
Definition film_end (name : string) (s : stream) : Z := if String.eqb name "PGM" then RDEOK else end_of s.
(** calls that work on every film: not a PFM image before anything was read, and not
    without the memory a PFM seek needs *)
Definition film_calls (E : env) (name : string) (width height : Z) (s : stream) (cs : list image_call) : Prop :=
  Forall (proper width height) cs /\
  (name = "PFM"%string -> moves cs /\ width * height * 12 <= SIZE_MAX /\ (s_seekable s = true \/ forall n, e_alloc E n = true)).

(** ** Any input *)
(** an image some client program can come to hold *)
Definition reached (E : env) (Y : system) (i : rdimage) : Prop :=
  exists R f o ptrs want w i0 width height buf e w1 cs rs w2,
    open_by R E Y f o ptrs want w = Ok (Some i0, width, height, buf, e, w1) /\
    Forall (image_call_ok width height) cs /\ do_image_calls E Y cs (Some i0) w1 = Ok (rs, Some i, w2).
(** the native readers: bytes still to come, bytes per pixel of the current frame *)
Definition bytes_ahead (i : rdimage) : option (list Z) :=
  match im_ctx i with
  | CPgm c => Some (s_rest (pg_s c))
  | CPfm c => Some (s_rest (pf_s c))
  | CY4m c => Some (s_rest (ym_s c))
  | CExt _ _ => None
  end.
Definition bytes_per_pixel (i : rdimage) : Z :=
  match im_ctx i with
  | CPgm _ => 1
  | CPfm c => if pf_format c =? 102 then 4 else 12
  | CY4m c => sample_size (ym_depth c)
  | CExt _ _ => 0
  end.
(** nothing more to come: a PGM file whose image has been read, or no bytes left *)
Definition finished (i : rdimage) : Prop :=
  match im_ctx i with CPgm c => pg_eof c = true | _ => bytes_ahead i = Some [] end.
