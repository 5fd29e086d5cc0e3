(** Model of the readers that call an image library: lib/image/libpng.c, libjpeg.c,
    magickwand.c and ffmpeg.c.

    What the libraries do is a parameter; what is assumed of it is in SpecLibrary.v.  In the
    rest of the model these readers are the parameter [ext_system] (Pgm.v); the theorems about
    this file say how far they meet what is assumed of that (ImageHistory.v [ext_ok]).
    Objects of the libraries (png_struct, AVFrame and so on) are blocks like those of malloc.
    A context that is an image reader's is followed by its file, if it has one. *)
From Verif Require Import Base Flt Util Methods Analysis Stdio Pgm Pfm Y4m Image ImageHistory.
Open Scope list_scope.
Open Scope Z_scope.

(** an object a library makes without reporting failure *)
Definition library_object (w : world) : nat * world :=
  (w_count w, mkWorld (S (w_count w)) (w_count w :: w_live w) (w_nfile w) (w_files w)).

(** struct image_reader (lib/image.h:13-19) without supports_ext: open gives the context, width,
    height and error; read the return value, the error, the buffer; seek the return value, the
    error, the arguments of the progress calls *)
Record image_reader := mkReader {
  rd_ctx : Type;
  rd_open : string -> world -> res (option rd_ctx * Z * Z * Z * world);
  rd_read : rd_ctx -> list (option f32) -> Z -> Z -> world -> res (bool * Z * list (option f32) * rd_ctx * world);
  rd_seek : rd_ctx -> Z -> world -> res (bool * Z * list Z * rd_ctx * world);
  rd_close : rd_ctx -> world -> res world
}.

(** *** What lib/image.c does with a reader *)
(** lib/image.c:64-75: opening, without the block of the RDImage and the frame buffer; the
    context, the size, the error.  The sizes are 0 before. *)
Definition opened_by (rd : image_reader) (E : env) (filename : string) (w : world)
  : res (option (rd_ctx rd) * Z * Z * Z * world) :=
  '(c, width, height, e, w) <- rd_open rd filename w ;;
  let fail e w := w <- (match c with None => Ok w | Some c => rd_close rd c w end) ;; Ok (None, 0, 0, e, w) in
  if negb (e =? 0) then fail e w
  else
    big <- dims_exceed_limit (e_cfg E) width height 1 4 ;;
    if big : bool then fail RDETOOBIG w
    else
      match c with
      | None => Undef NullDeref
      | Some c => Ok (Some c, width, height, RDEOK, w)
      end.
(** lib/image.c:178-207 *)
Definition call_by (rd : image_reader) (c : rd_ctx rd) (width height : Z) (call : image_call) (w : world)
  : res (image_reply * rd_ctx rd * world) :=
  match call with
  | IRead None => Ok (IFrame false RDEPARAM None, c, w)
  | IRead (Some buf) => '(b, e, buf, c, w) <- rd_read rd c buf width height w ;; Ok (IFrame b e (Some buf), c, w)
  | ISeek k => '(b, e, calls, c, w) <- rd_seek rd c k w ;; Ok (ISought b e calls, c, w)
  end.
Fixpoint calls_by (rd : image_reader) (c : rd_ctx rd) (width height : Z) (cs : list image_call) (w : world)
  : res (list image_reply * rd_ctx rd * world) :=
  match cs with
  | [] => Ok ([], c, w)
  | call :: cs =>
      '(r, c, w) <- call_by rd c width height call w ;;
      '(rs, c, w) <- calls_by rd c width height cs w ;;
      Ok (r :: rs, c, w)
  end.

(** ** libpng.c *)
(** *** The library *)
(** what png_read_info finds *)
Record png_info := mkInfo {
  pi_width : Z; pi_height : Z;
  pi_depth : Z; pi_color : Z;      (* png_get_bit_depth, png_get_color_type *)
  pi_trns : bool;                  (* png_get_valid(PNG_INFO_tRNS) *)
  pi_interlaced : bool
}.
Definition COLOR_MASK_COLOR := 2.
Definition COLOR_MASK_ALPHA := 4.
Definition COLOR_TYPE_PALETTE := 3.
Definition has (color mask : Z) : bool := negb (Z.land color mask =? 0).
(** the transformations requested *)
Record png_trans := mkTrans { pt_expand : bool; pt_trns : bool; pt_strip_alpha : bool; pt_strip_16 : bool }.
Definition no_trans : png_trans := mkTrans false false false false.
Definition png_set_tRNS_to_alpha (t : png_trans) := mkTrans true true (pt_strip_alpha t) (pt_strip_16 t).
Definition png_set_palette_to_rgb (t : png_trans) := mkTrans true true (pt_strip_alpha t) (pt_strip_16 t).
Definition png_set_expand_gray_1_2_4_to_8 (t : png_trans) := mkTrans true (pt_trns t) (pt_strip_alpha t) (pt_strip_16 t).
Definition png_set_strip_alpha (t : png_trans) := mkTrans (pt_expand t) (pt_trns t) true (pt_strip_16 t).
Definition png_set_strip_16 (t : png_trans) := mkTrans (pt_expand t) (pt_trns t) (pt_strip_alpha t) true.
(** png_read_update_info: the colour type and bit depth of the rows *)
Definition png_updated (i : png_info) (t : png_trans) : Z * Z :=
  let '(color, depth) :=
    if pt_expand t then
      if pi_color i =? COLOR_TYPE_PALETTE then ((if pi_trns i then 6 else 2), 8)
      else ((if pi_trns i && pt_trns t then Z.lor (pi_color i) COLOR_MASK_ALPHA else pi_color i),
            (if pi_depth i <? 8 then 8 else pi_depth i))
    else (pi_color i, pi_depth i) in
  let depth := if pt_strip_16 t && (depth =? 16) then 8 else depth in
  let color := if pt_strip_alpha t then Z.ldiff color COLOR_MASK_ALPHA else color in
  (color, depth).
Definition png_channels (color : Z) : Z :=
  (if color =? COLOR_TYPE_PALETTE then 1 else if has color COLOR_MASK_COLOR then 3 else 1) +
  (if has color COLOR_MASK_ALPHA then 1 else 0).
(** bytes of a row as png_read_row stores it *)
Definition png_rowbytes (i : png_info) (t : png_trans) : Z :=
  let '(color, depth) := png_updated i t in (pi_width i * (png_channels color * depth) + 7) / 8.

(** [pl_info]: png_read_info, None is an error (longjmp); [pl_update]: png_read_update_info
    succeeds; [pl_row t early k]: what the k-th png_read_row stores, None in a place left alone,
    where [t] are the transformations and [early] says that png_set_interlace_handling was called before png_read_update_info;
    [pl_end]: png_read_end succeeds *)
Record png_lib := mkPngLib {
  pl_info : list Z -> option png_info;
  pl_update : list Z -> bool;
  pl_row : png_trans -> bool -> list Z -> nat -> option (list (option Z));
  pl_end : list Z -> bool
}.
Definition png_signature : list Z := [137; 80; 78; 71; 13; 10; 26; 10].

(** *** The reader *)
(** libpng.c:16-21; [pn_data]: what the library reads from, [pn_info]: what it found *)
Record png_context := mkPng {
  pn_blk : nat; pn_file : option nat; pn_eof : bool; pn_png : option nat; pn_infop : option nat;
  pn_data : list Z; pn_info : png_info; pn_trans : png_trans
}.
(** libpng.c:23-33; png_destroy_read_struct also frees the info structure *)
Definition png_close (c : png_context) (w : world) : res world :=
  w <- (match pn_png c with
        | None => Ok w
        | Some p => w <- free_opt (pn_infop c) w ;; free_block p w
        end) ;;
  w <- close_stream (pn_file c) w ;;
  free_block (pn_blk c) w.
(** libpng.c:82-95 *)
Definition png_choose (i : png_info) : png_trans :=
  let t := no_trans in
  let color := pi_color i in
  let '(color, t) := if pi_trns i then (Z.lor color COLOR_MASK_ALPHA, png_set_tRNS_to_alpha t) else (color, t) in
  let t := if has color COLOR_MASK_ALPHA then png_set_strip_alpha t else t in
  let t := if color =? COLOR_TYPE_PALETTE then png_set_palette_to_rgb t else t in
  if pi_depth i =? 16 then png_set_strip_16 t
  else if pi_depth i <? 8 then png_set_expand_gray_1_2_4_to_8 t
  else t.
Definition no_info : png_info := mkInfo 0 0 0 0 false false.
(** libpng.c:35-104 *)
Definition png_open (L : png_lib) (E : env) (Y : system) (filename : string) (w : world)
  : res (option png_context * Z * Z * Z * world) :=
  match alloc (e_alloc E) w with
  | (None, w) => Ok (None, 0, 0, RDENOMEM, w)
  | (Some blk, w) =>
      match open_stream Y filename w with
      | (inr errno, w) => w <- free_block blk w ;; Ok (None, 0, 0, - errno, w)
      | (inl (f, s), w) =>
          let fail png info width height e w :=
            w <- png_close (mkPng blk f false png info [] no_info no_trans) w ;; Ok (None, width, height, e, w) in
          let '(header, s) := fread 8 s in
          if negb (zlen header =? 8) then fail None None 0 0 RDEINVAL w
          else if negb (if list_eq_dec Z.eq_dec header png_signature then true else false) then fail None None 0 0 RDEINVAL w
          else
            match alloc (e_alloc E) w with
            | (None, w) => fail None None 0 0 RDENOMEM w
            | (Some png, w) =>
                match alloc (e_alloc E) w with
                | (None, w) => fail (Some png) None 0 0 RDENOMEM w
                | (Some info, w) =>
                    let data := s_rest s in
                    match pl_info L data with
                    | None => fail (Some png) (Some info) 0 0 RDEINVAL w
                    | Some i =>
                        if negb (pl_update L data) then fail (Some png) (Some info) (pi_width i) (pi_height i) RDEINVAL w
                        else Ok (Some (mkPng blk f false (Some png) (Some info) data i (png_choose i)), pi_width i, pi_height i, RDEOK, w)
                    end
                end
            end
      end
  end.

(** storing bytes, or leaving them alone *)
Fixpoint store_bytes (buf : list (option Z)) (i : Z) (l : list (option Z)) : res (list (option Z)) :=
  match l with
  | [] => Ok buf
  | v :: l => buf <- (if in_range buf i then match v with Some _ => set buf i v | None => Ok buf end else Undef OutOfBounds) ;;
              store_bytes buf (i + 1) l
  end.
(** libpng.c:125-131: png_set_interlace_handling comes after png_read_update_info.  [n] rows, the next is the [k]-th call and goes to row [y] of [height];
    false: error *)
Fixpoint png_rows (L : png_lib) (t : png_trans) (data : list Z) (n k : nat) (y height rowsize : Z) (imagec : list (option Z)) : res (bool * list (option Z)) :=
  match n with
  | O => Ok (true, imagec)
  | S n =>
      match pl_row L t false data k with
      | None => Ok (false, imagec)
      | Some l =>
          imagec <- store_bytes imagec (wrap (y * rowsize)) l ;;
          png_rows L t data n (S k) (if y + 1 =? height then 0 else y + 1) height rowsize imagec
      end
  end.
(** imagec[i]/255.f *)
Definition byte_value (imagec : list (option Z)) (i : Z) : res f32 :=
  b <- get imagec i ;;
  match b with
  | None => Undef Uninit
  | Some b => Ok (fdiv (f32_of_Z b) (f32_of_Z 255))
  end.
(** libpng.c:135-140 *)
Definition png_convert (imagec : list (option Z)) (channels count : Z) (image : list (option f32)) : res (list (option f32)) :=
  for_range 0 count (fun i image =>
    v <- for_range 0 channels (fun c v =>
           b <- byte_value imagec (wrap (wrap (i * channels) + c)) ;;
           Ok (fadd v b)) (f32_of_Z 0) ;;
    set image i (Some (fdiv v (f32_of_Z channels)))) image.
(** libpng.c:106-146 *)
Definition png_read (L : png_lib) (E : env) (c : png_context) (image : list (option f32)) (width height : Z) (w : world)
  : res (bool * Z * list (option f32) * png_context * world) :=
  if pn_eof c then Ok (false, RDEOK, image, c, w)
  else
    let c := mkPng (pn_blk c) (pn_file c) true (pn_png c) (pn_infop c) (pn_data c) (pn_info c) (pn_trans c) in
    let color := fst (png_updated (pn_info c) (pn_trans c)) in
    let channels := if has color COLOR_MASK_COLOR then 3 else 1 in
    match alloc (e_alloc E) w with
    | (None, w) => Ok (false, RDENOMEM, image, c, w)
    | (Some blk, w) =>
        let imagec := repeat None (Z.to_nat (wrap (wrap (width * height) * channels))) in
        let passes := if pi_interlaced (pn_info c) then 7%nat else 1%nat in
        '(b, imagec) <- png_rows L (pn_trans c) (pn_data c) (passes * Z.to_nat height) 0 0 height (wrap (width * channels)) imagec ;;
        '(e, image) <-
          (if b && pl_end L (pn_data c)
           then image <- png_convert imagec channels (wrap (width * height)) image ;; Ok (RDEOK, image)
           else Ok (RDEINVAL, image)) ;;
        w <- free_block blk w ;;
        Ok (e =? RDEOK, e, image, c, w)
    end.
(** libpng.c:148-157 *)
Definition png_seek (c : png_context) (offset : Z) (w : world) : res (bool * Z * list Z * png_context * world) :=
  let ret := (offset =? 0) || negb (pn_eof c || (offset >? 1)) in
  if negb (offset =? 0) && negb (pn_eof c)
  then Ok (ret, RDEOK, [1], mkPng (pn_blk c) (pn_file c) true (pn_png c) (pn_infop c) (pn_data c) (pn_info c) (pn_trans c), w)
  else Ok (ret, RDEOK, [], c, w).
Definition libpng_reader (L : png_lib) (E : env) (Y : system) : image_reader :=
  mkReader png_context (png_open L E Y) (png_read L E) png_seek png_close.

(** ** libjpeg.c *)
(** *** The library *)
(** [jl_header]: jpeg_read_header and jpeg_start_decompress: output_width and output_height, or
    None for an error.  [jl_lines k]: what the k-th jpeg_read_scanlines does. *)
Inductive jpeg_lines :=
| Lines (rows : list (list Z))      (* rows stored *)
| Message.                          (* a warning, an error, or the note that a restart marker was
                                       found: the error manager is called *)
Record jpeg_lib := mkJpegLib { jl_header : list Z -> option (Z * Z); jl_lines : list Z -> nat -> jpeg_lines }.

(** *** The reader *)
(** libjpeg.c:17-21 *)
Record jpeg_context := mkJpeg {
  jp_blk : nat; jp_file : option nat; jp_eof : bool; jp_cinfo : nat;
  jp_err : bool;                    (* cinfo.err points to an object that still exists *)
  jp_data : list Z; jp_width : Z; jp_height : Z
}.
(** libjpeg.c:23-32 *)
Definition jpeg_close (c : jpeg_context) (w : world) : res world :=
  w <- free_block (jp_cinfo c) w ;;
  w <- close_stream (jp_file c) w ;;
  free_block (jp_blk c) w.
(** libjpeg.c:34-75.  The error manager is a compound literal: it exists until the function
    returns.  jpeg_create_decompress is taken not to fail. *)
Definition jpeg_open (L : jpeg_lib) (E : env) (Y : system) (filename : string) (w : world)
  : res (option jpeg_context * Z * Z * Z * world) :=
  match alloc (e_alloc E) w with
  | (None, w) => Ok (None, 0, 0, RDENOMEM, w)
  | (Some blk, w) =>
      match open_stream Y filename w with
      | (inr errno, w) => w <- free_block blk w ;; Ok (None, 0, 0, - errno, w)
      | (inl (f, s), w) =>
          let '(cinfo, w) := library_object w in
          match jl_header L (s_rest s) with
          | None => w <- jpeg_close (mkJpeg blk f false cinfo true [] 0 0) w ;; Ok (None, 0, 0, RDEINVAL, w)
          | Some (width, height) =>
              Ok (Some (mkJpeg blk f false cinfo false (s_rest s) width height), width, height, RDEOK, w)
          end
      end
  end.
(** libjpeg.c:95-100: output_scanline is [line], and [it] is that many rows into imagec.
    Simplifications: the pointers to rows behind the end that are not used are not modelled;
    a message of a live error manager is taken to be an error (it is never live here). *)
Fixpoint jpeg_scan (fuel : nat) (L : jpeg_lib) (c : jpeg_context) (k : nat) (line : Z) (imagec : list (option Z)) : res (bool * list (option Z)) :=
  if line >=? jp_height c then Ok (true, imagec)
  else
    match fuel with
    | O => Undef OutOfFuel
    | S fuel =>
        match jl_lines L (jp_data c) k with
        | Message => if jp_err c then Ok (false, imagec) else Undef OutOfBounds
        | Lines rows =>
            imagec <- store_bytes imagec (line * jp_width c) (map Some (concat rows)) ;;
            jpeg_scan fuel L c (S k) (line + zlen rows) imagec
        end
    end.
(** libjpeg.c:77-108 *)
Definition jpeg_read (L : jpeg_lib) (E : env) (c : jpeg_context) (image : list (option f32)) (width height : Z) (w : world)
  : res (bool * Z * list (option f32) * jpeg_context * world) :=
  if jp_eof c then Ok (false, RDEOK, image, c, w)
  else
    let c := mkJpeg (jp_blk c) (jp_file c) true (jp_cinfo c) (jp_err c) (jp_data c) (jp_width c) (jp_height c) in
    match alloc (e_alloc E) w with
    | (None, w) => Ok (false, RDENOMEM, image, c, w)
    | (Some blk, w) =>
        '(b, imagec) <- jpeg_scan (S (Z.to_nat (jp_height c))) L c 0 0 (repeat None (Z.to_nat (wrap (width * height)))) ;;
        '(e, image) <-
          (if b : bool then
             image <- for_range 0 (wrap (width * height)) (fun i image =>
                        v <- byte_value imagec i ;; set image i (Some v)) image ;;
             Ok (RDEOK, image)
           else Ok (RDEINVAL, image)) ;;
        w <- free_block blk w ;;
        Ok (e =? RDEOK, e, image, c, w)
    end.
(** libjpeg.c:110-119 *)
Definition jpeg_seek (c : jpeg_context) (offset : Z) (w : world) : res (bool * Z * list Z * jpeg_context * world) :=
  let ret := (offset =? 0) || negb (jp_eof c || (offset >? 1)) in
  if negb (offset =? 0) && negb (jp_eof c)
  then Ok (ret, RDEOK, [1], mkJpeg (jp_blk c) (jp_file c) true (jp_cinfo c) (jp_err c) (jp_data c) (jp_width c) (jp_height c), w)
  else Ok (ret, RDEOK, [], c, w).
Definition libjpeg_reader (L : jpeg_lib) (E : env) (Y : system) : image_reader :=
  mkReader jpeg_context (jpeg_open L E Y) (jpeg_read L E) jpeg_seek jpeg_close.

(** ** magickwand.c *)
(** *** The library *)
(** exceptions the reader tells apart *)
Inductive magick_exception := BlobError | FileOpenError | ResourceLimitError | ResourceLimitFatalError | MissingDelegateError | OtherException.
(** A wand that has read a file is named by a number and so is its position.
    [ml_read]: MagickReadImage, or the exception and errno after it; [ml_fopen]: errno of
    fopen(filename,"r"), 0 if it succeeds; [ml_size]: MagickGetImageWidth and Height;
    [ml_next]: MagickNextImage; [ml_export]: MagickExportImagePixels, None if it fails;
    [ml_left]: images still to come *)
Record magick_lib := mkMagickLib {
  ml_read : nat -> string -> nat + magick_exception * Z;
  ml_fopen : nat -> string -> Z;
  ml_size : nat -> Z * Z;
  ml_next : nat -> option nat;
  ml_export : nat -> Z -> Z -> option (list f32);
  ml_left : nat -> nat
}.
(** *** The reader *)
(** magickwand.c:20-22 *)
Record magick_context := mkMagick { mg_blk : nat; mg_wand : nat; mg_state : nat }.
(** magickwand.c:24-30 *)
Definition magick_close (c : magick_context) (w : world) : res world :=
  w <- free_block (mg_wand c) w ;; free_block (mg_blk c) w.
(** magickwand.c:43-63 *)
Definition magick_error (L : magick_lib) (n : nat) (filename : string) (ex : magick_exception) (errno : Z) : Z :=
  match ex with
  | BlobError | FileOpenError => - errno
  | ResourceLimitError | ResourceLimitFatalError => RDENOMEM
  | MissingDelegateError =>
      if String.eqb filename "-" then RDEUNSUPP
      else if ml_fopen L n filename =? 0 then RDEUNSUPP else - ml_fopen L n filename
  | OtherException => RDEINVAL
  end.
(** magickwand.c:32-77; the file opened for MissingDelegateError is closed at once *)
Definition magick_open (L : magick_lib) (E : env) (filename : string) (w : world)
  : res (option magick_context * Z * Z * Z * world) :=
  match alloc (e_alloc E) w with
  | (None, w) => Ok (None, 0, 0, RDENOMEM, w)
  | (Some blk, w) =>
      let '(wand, w) := library_object w in
      match ml_read L (w_count w) filename with
      | inr (ex, errno) =>
          let '(exception, w) := library_object w in
          let e := magick_error L (w_count w) filename ex errno in
          w <- free_block exception w ;;
          w <- magick_close (mkMagick blk wand 0) w ;;
          Ok (None, 0, 0, e, w)
      | inl s =>
          let '(width, height) := ml_size L s in
          Ok (Some (mkMagick blk wand s), width, height, RDEOK, w)
      end
  end.
(** magickwand.c:79-87; what MagickExportImagePixels returns is not looked at *)
Definition magick_read (L : magick_lib) (c : magick_context) (image : list (option f32)) (width height : Z) (w : world)
  : res (bool * Z * list (option f32) * magick_context * world) :=
  match ml_next L (mg_state c) with
  | None => Ok (false, RDEOK, image, c, w)
  | Some s =>
      image <- (match ml_export L s width height with Some l => store image 0 l | None => Ok image end) ;;
      Ok (true, RDEOK, image, mkMagick (mg_blk c) (mg_wand c) s, w)
  end.
(** magickwand.c:89-98 *)
Fixpoint magick_skip (L : magick_lib) (n : nat) (i : Z) (calls : list Z) (c : magick_context) : bool * list Z * magick_context :=
  match n with
  | O => (true, calls, c)
  | S n =>
      match ml_next L (mg_state c) with
      | None => (false, calls, c)
      | Some s => magick_skip L n (i + 1) (calls ++ [i + 1]) (mkMagick (mg_blk c) (mg_wand c) s)
      end
  end.
Definition magick_seek (L : magick_lib) (c : magick_context) (offset : Z) (w : world) : res (bool * Z * list Z * magick_context * world) :=
  let '(b, calls, c) := magick_skip L (Z.to_nat offset) 0 [] c in Ok (b, RDEOK, calls, c, w).
Definition magickwand_reader (L : magick_lib) (E : env) : image_reader :=
  mkReader magick_context (magick_open L E) (magick_read L) (magick_seek L) magick_close.

(** ** ffmpeg.c *)
(** *** The library *)
Definition AVERROR_EAGAIN := -11.
Definition AVERROR_EOF := -541478725.
(** The format context, the decoder and the scaler together are in a state; [fl_start]: nothing is open.
    [fl_open]: avformat_open_input, or its error; [fl_stream_info], [fl_best_stream],
    [fl_parameters], [fl_open2], [fl_sws_init]: what these functions return; [fl_size]: width and
    height of the codec; [fl_receive]: avcodec_receive_frame; [fl_packet]: av_read_frame and the
    stream index of the packet; [fl_send]: avcodec_send_packet with a packet or with NULL;
    [fl_scale]: sws_scale_frame and the rows of the result; [fl_errno]: av_err2str gives the text
    strerror gives for AVUNERROR of it; [fl_left]: bounds what is still to come *)
Record ff_lib := mkFfLib {
  fl_state : Type; fl_start : fl_state;
  fl_open : nat -> string -> fl_state + Z;
  fl_stream_info : fl_state -> Z; fl_best_stream : fl_state -> Z; fl_parameters : fl_state -> Z; fl_open2 : fl_state -> Z; fl_sws_init : fl_state -> Z;
  fl_size : fl_state -> Z * Z;
  fl_receive : fl_state -> Z * fl_state;
  fl_packet : fl_state -> Z * Z * fl_state;
  fl_send : fl_state -> bool -> Z * fl_state;
  fl_scale : fl_state -> Z * list (list f32) * fl_state;
  fl_errno : Z -> bool;
  fl_left : fl_state -> nat
}.
(** *** The reader *)
(** ffmpeg.c:14-21; fmt, codec, sws, swsframe, frame, packet *)
Record ff_context (L : ff_lib) := mkFf {
  ff_blk : nat; ff_fmt : option nat; ff_codec : option nat; ff_sws : option nat;
  ff_swsframe : option nat; ff_frame : option nat; ff_packet : option nat;
  ff_index : Z; ff_state : fl_state L
}.
Arguments mkFf {L}. Arguments ff_blk {L}. Arguments ff_fmt {L}. Arguments ff_codec {L}. Arguments ff_sws {L}. Arguments ff_swsframe {L}.
Arguments ff_frame {L}. Arguments ff_packet {L}. Arguments ff_index {L}. Arguments ff_state {L}.
Definition AVUNERROR (e : Z) : Z := - e.
(** ffmpeg.c:23-32 *)
Definition rderror_from_averror (L : ff_lib) (averr : Z) : Z :=
  if averr =? 0 then RDEOK
  else if fl_errno L averr then - AVUNERROR averr
  else RDEINVAL.
(** ffmpeg.c:34-46; each of these functions accepts NULL *)
Definition ff_close {L} (c : ff_context L) (w : world) : res world :=
  w <- free_opt (ff_codec c) w ;;
  w <- free_opt (ff_frame c) w ;;
  w <- free_opt (ff_swsframe c) w ;;
  w <- free_opt (ff_packet c) w ;;
  w <- free_opt (ff_sws c) w ;;
  w <- free_opt (ff_fmt c) w ;;
  free_block (ff_blk c) w.
(** ffmpeg.c:50-117.  [fail] is the label error: averr, and the value of *error so far. *)
Definition ff_open (L : ff_lib) (E : env) (filename : string) (w : world)
  : res (option (ff_context L) * Z * Z * Z * world) :=
  match alloc (e_alloc E) w with
  | (None, w) => Ok (None, 0, 0, RDENOMEM, w)
  | (Some blk, w) =>
      let filename := if String.eqb filename "-" then "pipe:"%string else filename in
      let fail c averr e w :=
        w <- ff_close c w ;;
        Ok (None, 0, 0, (if negb (averr =? 0) then rderror_from_averror L averr else e), w) in
      match fl_open L (w_count w) filename with
      | inr averr => fail (mkFf blk None None None None None None 0 (fl_start L)) averr RDEOK w
      | inl s =>
          let '(fmt, w) := library_object w in
          let c := mkFf blk (Some fmt) None None None None None 0 s in
          let averr := fl_stream_info L s in
          if averr <? 0 then fail c averr RDEOK w
          else
            let index := fl_best_stream L s in
            let averr := index in
            if averr <? 0 then fail c averr RDEOK w
            else
              match alloc (e_alloc E) w with
              | (None, w) => fail c averr RDENOMEM w
              | (Some codec, w) =>
                  let c := mkFf blk (Some fmt) (Some codec) None None None None index s in
                  let averr := if fl_parameters L s <? 0 then 1 else 0 in
                  if negb (averr =? 0) then fail c averr RDEOK w
                  else
                    let averr := fl_open2 L s in
                    if negb (averr =? 0) then fail c averr RDEOK w
                    else
                      match alloc (e_alloc E) w with
                      | (None, w) => fail c averr RDENOMEM w
                      | (Some sws, w) =>
                          let c := mkFf blk (Some fmt) (Some codec) (Some sws) None None None index s in
                          match alloc (e_alloc E) w with
                          | (None, w) => fail c averr RDENOMEM w
                          | (Some frame, w) =>
                              let c := mkFf blk (Some fmt) (Some codec) (Some sws) None (Some frame) None index s in
                              match alloc (e_alloc E) w with
                              | (None, w) => fail c averr RDENOMEM w
                              | (Some swsframe, w) =>
                                  let c := mkFf blk (Some fmt) (Some codec) (Some sws) (Some swsframe) (Some frame) None index s in
                                  match alloc (e_alloc E) w with
                                  | (None, w) => fail c averr RDENOMEM w
                                  | (Some packet, w) =>
                                      let c := mkFf blk (Some fmt) (Some codec) (Some sws) (Some swsframe) (Some frame) (Some packet) index s in
                                      let averr := fl_sws_init L s in
                                      if averr <? 0 then fail c averr RDEOK w
                                      else
                                        let '(width, height) := fl_size L s in
                                        Ok (Some c, width, height, RDEOK, w)
                                  end
                              end
                          end
                      end
              end
      end
  end.
(** ffmpeg.c:122-123: packets of other streams are dropped *)
Fixpoint ff_next_packet (fuel : nat) (L : ff_lib) (index : Z) (s : fl_state L) : res (Z * fl_state L) :=
  match fuel with
  | O => Undef OutOfFuel
  | S fuel =>
      let '(averr, i, s) := fl_packet L s in
      if (averr =? 0) && negb (i =? index) then ff_next_packet fuel L index s else Ok (averr, s)
  end.
(** ffmpeg.c:119-134 *)
Fixpoint ff_next_frame (fuel : nat) (L : ff_lib) (index : Z) (s : fl_state L) : res (Z * fl_state L) :=
  match fuel with
  | O => Undef OutOfFuel
  | S fuel =>
      let '(averr, s) := fl_receive L s in
      if negb (averr =? AVERROR_EAGAIN) then Ok (averr, s)
      else
        '(averr, s) <- ff_next_packet (S (fl_left L s)) L index s ;;
        let '(averr, s) := fl_send L s (averr =? 0) in
        if negb (averr =? 0) then Ok (averr, s) else ff_next_frame fuel L index s
  end.
Definition ff_with {L} (c : ff_context L) (s : fl_state L) : ff_context L :=
  mkFf (ff_blk c) (ff_fmt c) (ff_codec c) (ff_sws c) (ff_swsframe c) (ff_frame c) (ff_packet c) (ff_index c) s.
Definition ff_read_frame (L : ff_lib) (c : ff_context L) : res (Z * ff_context L) :=
  '(averr, s) <- ff_next_frame (S (fl_left L (ff_state c))) L (ff_index c) (ff_state c) ;;
  Ok (averr, ff_with c s).
(** ffmpeg.c:136-152 *)
Definition ff_read (L : ff_lib) (c : ff_context L) (image : list (option f32)) (width height : Z) (w : world)
  : res (bool * Z * list (option f32) * ff_context L * world) :=
  let failed averr := if negb (averr =? AVERROR_EOF) then rderror_from_averror L averr else RDEOK in
  '(averr, c) <- ff_read_frame L c ;;
  if negb (averr =? 0) then Ok (false, failed averr, image, c, w)
  else
    let '(averr, rows, s) := fl_scale L (ff_state c) in
    let c := ff_with c s in
    if averr <? 0 then Ok (false, failed averr, image, c, w)
    else
      image <- for_range 0 height (fun y image =>
                 row <- get rows y ;;
                 if zlen row <? width then Undef OutOfBounds
                 else store image (wrap (y * width)) (firstn (Z.to_nat width) row)) image ;;
      Ok (true, RDEOK, image, c, w).
(** ffmpeg.c:154-168 *)
Fixpoint ff_skip (L : ff_lib) (n : nat) (i : Z) (calls : list Z) (c : ff_context L) : res (Z * list Z * ff_context L) :=
  match n with
  | O => Ok (0, calls, c)
  | S n =>
      '(averr, c) <- ff_read_frame L c ;;
      if negb (averr =? 0) then Ok (averr, calls, c) else ff_skip L n (i + 1) (calls ++ [i + 1]) c
  end.
Definition ff_seek (L : ff_lib) (c : ff_context L) (offset : Z) (w : world) : res (bool * Z * list Z * ff_context L * world) :=
  '(averr, calls, c) <- ff_skip L (Z.to_nat offset) 0 [] c ;;
  Ok (averr =? 0,
      (if negb (averr =? 0) && negb (averr =? AVERROR_EOF) then rderror_from_averror L averr else RDEOK),
      calls, c, w).
Definition ffmpeg_reader (L : ff_lib) (E : env) : image_reader :=
  mkReader (ff_context L) (ff_open L E) (ff_read L) (ff_seek L) ff_close.
