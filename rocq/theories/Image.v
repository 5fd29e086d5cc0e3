(** Model of lib/image.c, lib/image_readers.c, the supports_ext functions of the
    readers, and resdetect_file of lib/resdetect.c. *)
From Verif Require Import Base Flt Util Methods Analysis Stdio Pgm Pfm Y4m.
Open Scope list_scope.
Open Scope Z_scope.

(** ** Strings.  A C string is the list of its characters before the terminator. *)
(** lib/image.c:26-31 resdet_strieq *)
Fixpoint strieq_chars (H : host) (l r : list Z) : res bool :=
  match l, r with
  | [], [] => Ok true
  | c :: l, d :: r =>
      a <- tolower H c ;;
      b <- tolower H d ;;
      if a =? b then strieq_chars H l r else Ok false
  | _, _ => Ok false
  end.
Definition resdet_strieq (H : host) (l r : string) : res bool := strieq_chars H (chars l) (chars r).

(** lib/image.c:33-45 *)
Definition ext_from_mimetype (mimetype : string) : string :=
  if String.eqb mimetype "image/jpeg" then "jpg"
  else if String.eqb mimetype "image/png" then "png"
  else if String.eqb mimetype "video/yuv4mpeg" then "y4m"
  else if String.eqb mimetype "image/x-portable-graymap" then "pgm"
  else if String.eqb mimetype "image/x-portable-floatmap" then "pfm"
  else ""%string.
Definition slash := Ascii.ascii_of_nat 47.
Definition dot := Ascii.ascii_of_nat 46.
(** strchr(s,c) != NULL *)
Fixpoint strchr (c : Ascii.ascii) (s : string) : bool :=
  match s with
  | EmptyString => false
  | String a s => if Ascii.eqb a c then true else strchr c s
  end.
(** what follows strrchr(s,c) *)
Fixpoint after_last (c : Ascii.ascii) (s : string) : option string :=
  match s with
  | EmptyString => None
  | String a t => match after_last c t with
                  | Some r => Some r
                  | None => if Ascii.eqb a c then Some t else None
                  end
  end.

(** ** Readers *)
Inductive reader := RPgm | RPfm | RY4m | RExt (x : extern).
(** build configuration: which readers are compiled in *)
Record readers := mkReaders {
  r_pgm : bool; r_pfm : bool; r_y4m : bool;
  r_libjpeg : bool; r_libpng : bool; r_ffmpeg : bool; r_magickwand : bool
}.
Definition when {A} (b : bool) (a : A) : list A := if b then [a] else [].
(** lib/image_readers.c:30-57 *)
Definition resdet_image_readers (R : readers) : list reader :=
  when (r_pgm R) RPgm ++ when (r_pfm R) RPfm ++ when (r_y4m R) RY4m ++
  when (r_libjpeg R) (RExt Libjpeg) ++ when (r_libpng R) (RExt Libpng) ++
  when (r_ffmpeg R) (RExt Ffmpeg) ++ when (r_magickwand R) (RExt Magickwand).
(** lib/image_readers.c:59-86 *)
Definition resdet_list_image_readers (R : readers) : list string :=
  (when (r_pgm R) "PGM" ++ when (r_pfm R) "PFM" ++ when (r_y4m R) "Y4M" ++
   when (r_libjpeg R) "libjpeg" ++ when (r_libpng R) "libpng" ++
   when (r_ffmpeg R) "FFmpeg" ++ when (r_magickwand R) "MagickWand")%list%string.
(** pgm.c:101-103, pfm.c:208-210, y4m.c:208-210, libjpeg.c, libpng.c, magickwand.c,
    ffmpeg.c:170-182 *)
Definition supports_ext (R : readers) (Y : system) (r : reader) (ext : string) : res bool :=
  let H := y_host Y in
  match r with
  | RPgm => resdet_strieq H ext "pgm"
  | RPfm => resdet_strieq H ext "pfm"
  | RY4m => resdet_strieq H ext "y4m"
  | RExt Libjpeg => b <- resdet_strieq H ext "jpg" ;;
                    if b : bool then Ok true else resdet_strieq H ext "jpeg"
  | RExt Libpng => resdet_strieq H ext "png"
  | RExt Ffmpeg => Ok (if r_magickwand R then x_supports (y_ext Y Ffmpeg) ext else true)
  | RExt Magickwand => Ok true
  end.

(** reader_ctx; None is NULL *)
Inductive context := CPgm (c : pgm_context) | CPfm (c : pfm_context) | CY4m (c : y4m_context)
| CExt (x : extern) (c : nat).

Definition map_open {A} (k : A -> context) (m : res (option A * Z * Z * Z * world))
  : res (option context * Z * Z * Z * world) :=
  '(c, width, height, e, w) <- m ;; Ok (option_map k c, width, height, e, w).
Definition reader_open (E : env) (Y : system) (r : reader) (filename : string) (w : world)
  : res (option context * Z * Z * Z * world) :=
  match r with
  | RPgm => map_open CPgm (pgm_open E Y filename w)
  | RPfm => map_open CPfm (pfm_open E Y filename w)
  | RY4m => map_open CY4m (y4m_open E Y filename w)
  | RExt x => match x_open (y_ext Y x) (w_count w) filename with
              | inl (c, width, height) => Ok (Some (CExt x c), width, height, RDEOK, w)
              | inr e => Ok (None, 0, 0, e, w)
              end
  end.
Definition reader_read (Y : system) (c : context) (image : list (option f32)) (width height : Z)
  : res (bool * Z * list (option f32) * context) :=
  match c with
  | CPgm c => '(b, e, image, c) <- pgm_read c image width height ;; Ok (b, e, image, CPgm c)
  | CPfm c => '(b, e, image, c) <- pfm_read (y_host Y) c image width height ;; Ok (b, e, image, CPfm c)
  | CY4m c => '(b, e, image, c) <- y4m_read (y_host Y) c image width height ;; Ok (b, e, image, CY4m c)
  | CExt x c => let '(b, e, l, c) := x_read (y_ext Y x) c in
                image <- store image 0 l ;; Ok (b, e, image, CExt x c)
  end.
Definition reader_seek (E : env) (Y : system) (c : context) (offset width height : Z) (w : world)
  : res (bool * Z * list Z * context * world) :=
  match c with
  | CPgm c => let '(b, calls, c) := pgm_seek c offset in Ok (b, RDEOK, calls, CPgm c, w)
  | CPfm c => '(b, e, calls, c, w) <- pfm_seek E Y c offset width height w ;; Ok (b, e, calls, CPfm c, w)
  | CY4m c => '(b, e, calls, c) <- y4m_seek c offset ;; Ok (b, e, calls, CY4m c, w)
  | CExt x c => let '(b, e, calls, c) := x_seek (y_ext Y x) c offset in Ok (b, e, calls, CExt x c, w)
  end.
(** close also takes NULL *)
Definition reader_close (c : option context) (w : world) : res world :=
  match c with
  | None => Ok w
  | Some (CPgm c) => pgm_close c w
  | Some (CPfm c) => pfm_close c w
  | Some (CY4m c) => y4m_close c w
  | Some (CExt _ _) => Ok w
  end.

(** ** Images *)
(** struct RDImage *)
Record rdimage := mkImage { im_blk : nat; im_ctx : context; im_width : Z; im_height : Z }.

(** lib/image.c:209-216 resdet_close_image *)
Definition resdet_close_image (im : option rdimage) (w : world) : res world :=
  match im with
  | None => Ok w
  | Some im => w <- reader_close (Some (im_ctx im)) w ;; free_block (im_blk im) w
  end.

(** a frame buffer: its block and what it holds *)
Definition buffer := (nat * list (option f32))%type.
Definition opened := (option rdimage * Z * Z * option buffer * Z * world)%type.

(** lib/image.c:47-90 open_image: image, *width, *height, *imagebuf, error.
    [want]: imagebuf is not NULL. *)
Definition open_image (E : env) (Y : system) (r : option reader) (filename : string) (want : bool) (w : world)
  : res opened :=
  match alloc (e_alloc E) w with
  | (None, w) => Ok (None, 0, 0, None, RDENOMEM, w)
  | (Some blk, w) =>
      match r with
      | None => w <- free_block blk w ;; Ok (None, 0, 0, None, RDEUNSUPP, w)
      | Some r =>
          '(c, width, height, e, w) <- reader_open E Y r filename w ;;
          let fail e w :=
            w <- reader_close c w ;; w <- free_block blk w ;; Ok (None, 0, 0, None, e, w) in
          if negb (e =? 0) then fail e w
          else
            big <- dims_exceed_limit (e_cfg E) width height 1 4 ;;
            if big : bool then fail RDETOOBIG w
            else
              match c with
              | None => Undef NullDeref
              | Some c =>
                  let im := mkImage blk c width height in
                  if want then
                    match alloc (e_alloc E) w with
                    | (None, w) => fail RDENOMEM w
                    | (Some b, w) =>
                        Ok (Some im, width, height,
                            Some (b, repeat None (Z.to_nat (wrap (wrap (width * height) * 4) / 4))), RDEOK, w)
                    end
                  else Ok (Some im, width, height, None, RDEOK, w)
              end
      end
  end.

(** for(i = 0; readers[i]; i++) if(test) break *)
Fixpoint first_that {A} (test : A -> res bool) (l : list A) : res (option A) :=
  match l with
  | [] => Ok None
  | a :: l => b <- test a ;; if b : bool then Ok (Some a) else first_that test l
  end.

(** lib/image.c:114-120 *)
Definition file_ext (filename : string) (filetype : option string) : string :=
  match filetype with
  | Some t => if strchr slash t then ext_from_mimetype t else t
  | None => match after_last dot filename with Some e => e | None => ""%string end
  end.

(** lib/image.c:92-137 resdet_open_image.  [ptrs]: width and height are not NULL. *)
Definition resdet_open_image (R : readers) (E : env) (Y : system) (filename filetype : option string)
    (ptrs want : bool) (w : world) : res opened :=
  if negb ptrs then Ok (None, 0, 0, None, RDEPARAM, w)
  else
    match filename with
    | None => Ok (None, 0, 0, None, RDEPARAM, w)
    | Some filename =>
        r <- first_that (fun r => supports_ext R Y r (file_ext filename filetype)) (resdet_image_readers R) ;;
        open_image E Y r filename want w
    end.

(** lib/image.c:139-176 resdet_open_image_with_reader *)
Definition resdet_open_image_with_reader (R : readers) (E : env) (Y : system) (filename name : option string)
    (ptrs want : bool) (w : world) : res opened :=
  if negb ptrs then Ok (None, 0, 0, None, RDEPARAM, w)
  else
    match filename, name with
    | Some filename, Some name =>
        i <- first_that (fun '(_, n) => resdet_strieq (y_host Y) n name)
               (combine (seq 0 (length (resdet_list_image_readers R))) (resdet_list_image_readers R)) ;;
        r <- (match i with
              | None => Ok None
              | Some (i, _) => r <- get (resdet_image_readers R) (Z.of_nat i) ;; Ok (Some r)
              end) ;;
        open_image E Y r filename want w
    | _, _ => Ok (None, 0, 0, None, RDEPARAM, w)
    end.

(** lib/image.c:178-191 resdet_read_image_frame *)
Definition resdet_read_image_frame (Y : system) (im : option rdimage) (image : option (list (option f32)))
  : res (bool * Z * option (list (option f32)) * option rdimage) :=
  match im, image with
  | Some im, Some image =>
      '(b, e, image, c) <- reader_read Y (im_ctx im) image (im_width im) (im_height im) ;;
      Ok (b, e, Some image, Some (mkImage (im_blk im) c (im_width im) (im_height im)))
  | _, _ => Ok (false, RDEPARAM, image, im)
  end.

(** lib/image.c:193-207 resdet_seek_frame; the list: arguments of the progress calls *)
Definition resdet_seek_frame (E : env) (Y : system) (im : option rdimage) (offset : Z) (w : world)
  : res (bool * Z * list Z * option rdimage * world) :=
  match im with
  | None => Ok (false, RDEPARAM, [], None, w)
  | Some im =>
      '(b, e, calls, c, w) <- reader_seek E Y (im_ctx im) offset (im_width im) (im_height im) w ;;
      Ok (b, e, calls, Some (mkImage (im_blk im) c (im_width im) (im_height im)), w)
  end.

(** ** Whole files *)
(** a bound on the frames still to come, for the loops below *)
Definition frames_bound (Y : system) (c : context) : nat :=
  match c with
  | CPgm _ => 1
  | CPfm c => S (length (s_rest (pf_s c)))
  | CY4m c => length (s_rest (ym_s c))
  | CExt x c => x_frames (y_ext Y x) c
  end.

(** reading at image+off *)
Definition read_at (Y : system) (im : rdimage) (image : list (option f32)) (off : Z)
  : res (bool * Z * list (option f32) * rdimage) :=
  if (off <? 0) || (zlen image <? off) then Undef OutOfBounds
  else
    '(b, e, r, im') <- resdet_read_image_frame Y (Some im) (Some (skipn (Z.to_nat off) image)) ;;
    match r, im' with
    | Some r, Some im' => Ok (b, e, firstn (Z.to_nat off) image ++ r, im')
    | _, _ => Undef NullDeref
    end.

(** lib/image.c:227-242; [image] is the buffer, [n] is *nimages *)
Fixpoint read_loop (fuel : nat) (E : env) (Y : system) (im : rdimage) (blk : nat) (image : list (option f32))
    (n width height : Z) (w : world) : res (Z * rdimage * buffer * Z * world) :=
  match fuel with
  | O => Undef OutOfFuel
  | S fuel =>
      '(b, e, image, im) <- read_at Y im image (wrap (wrap (width * height) * n)) ;;
      if negb b then Ok (e, im, (blk, image), n, w)
      else
        let n := wrap (n + 1) in
        big <- dims_exceed_limit (e_cfg E) width height (wrap (n + 1)) 4 ;;
        if big : bool then Ok (RDETOOBIG, im, (blk, image), n, w)
        else
          let bytes := wrap (wrap (wrap (width * height) * wrap (n + 1)) * 4) in
          '(r, w) <- realloc_block (e_alloc E) blk w ;;
          match r with
          | None => Ok (RDENOMEM, im, (blk, image), n, w)
          | Some blk =>
              let image := firstn (Z.to_nat (bytes / 4)) (image ++ repeat None (Z.to_nat (bytes / 4) - length image)) in
              read_loop fuel E Y im blk image n width height w
          end
  end.

(** lib/image.c:218-252 resdet_read_image: *images, *nimages, *width, *height, error *)
Definition resdet_read_image (R : readers) (E : env) (Y : system) (filename filetype : option string)
    (ptrs : bool) (w : world) : res (option buffer * Z * Z * Z * Z * world) :=
  '(im, width, height, buf, e, w) <- resdet_open_image R E Y filename filetype ptrs true w ;;
  if negb (e =? 0) then Ok (buf, 0, width, height, e, w)
  else
    match im, buf with
    | Some im, Some (blk, image) =>
        '(e, im, buf, n, w) <- read_loop (S (frames_bound Y (im_ctx im))) E Y im blk image 0 width height w ;;
        '(buf, w) <- (if e =? 0 then Ok (Some buf, w)
                      else w <- free_block (fst buf) w ;; Ok (None, w)) ;;
        w <- resdet_close_image (Some im) w ;;
        Ok (buf, n, width, height, e, w)
    | _, _ => Undef NullDeref
    end.

(** the samples of a buffer that is going to be read in full *)
Fixpoint filled (l : list (option f32)) : res (list f32) :=
  match l with
  | [] => Ok []
  | None :: _ => Undef Uninit
  | Some v :: l => l <- filled l ;; Ok (v :: l)
  end.

(** lib/resdetect.c:62-64; there error is assigned by either call *)
Fixpoint file_loop (fuel : nat) (E : env) (Y : system) (im : rdimage) (image : list (option f32))
    (a : option analysis) (w : world) : res (Z * rdimage * option analysis * world) :=
  match fuel with
  | O => Undef OutOfFuel
  | S fuel =>
      '(b, e, image, im) <- read_at Y im image 0 ;;
      if negb b then Ok (e, im, a, w)
      else
        f <- filled image ;;
        '(e, a, w) <- resdet_analyze_image E a (Some f) w ;;
        if negb (e =? 0) then Ok (e, im, a, w)
        else file_loop fuel E Y im image a w
  end.

(** lib/resdetect.c:40-74 resdetect_file *)
Definition resdetect_file (R : readers) (E : env) (Y : system) (filename filetype : option string)
    (q : wants) (m : option method) (p : option params) (o : outs) (w : world) : res (Z * outs * world) :=
  let o := clear_outs q o in
  if bad_wants q then Ok (RDEPARAM, o, w)
  else
    '(im, width, height, buf, e, w) <- resdet_open_image R E Y filename filetype true true w ;;
    if negb (e =? 0) then Ok (e, o, w)
    else
      match im, buf with
      | Some im, Some (blk, image) =>
          '(a, e, w) <- resdet_create_analysis E m width height p w ;;
          '(e, im, a, o, w) <-
            (if negb (e =? 0) then Ok (e, im, a, o, w)
             else
               '(e, im, a, w) <- file_loop (S (frames_bound Y (im_ctx im))) E Y im image a w ;;
               '(e, o, w) <- (if e =? 0 then resdet_analysis_results E a q o w else Ok (e, o, w)) ;;
               Ok (e, im, a, o, w)) ;;
          w <- free_block blk w ;;
          w <- resdet_destroy_analysis a w ;;
          w <- resdet_close_image (Some im) w ;;
          Ok (e, o, w)
      | _, _ => Undef NullDeref
      end.
