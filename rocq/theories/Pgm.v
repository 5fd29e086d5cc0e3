(** Model of lib/image/pgm.c, and what the readers share (lib/image.c:16-31). *)
From Verif Require Import Base Flt Util Methods Analysis Stdio.
Open Scope Z_scope.

(** The readers for which a library does the work are not modelled; what they do is a
    parameter.  Their contexts are named by numbers.  [x_open] gives a context, width and
    height, or an error; [x_read] the return value, the error, the samples stored and the
    context afterwards; [x_seek] the return value, the error, the arguments of the
    progress calls and the context; [x_frames] bounds the frames still to come. *)
Inductive extern := Libjpeg | Libpng | Ffmpeg | Magickwand.
Record ext_system := mkExt {
  x_open : nat -> string -> nat * Z * Z + Z;
  x_read : nat -> bool * Z * list f32 * nat;
  x_seek : nat -> Z -> bool * Z * list Z * nat;
  x_supports : string -> bool;
  x_frames : nat -> nat
}.

(** What the readers get from the system.  Streams may depend on the time of opening,
    taken as the number of allocation requests made before. *)
Record system := mkSystem {
  y_host : host;
  y_stdin : nat -> stream;
  y_fopen : nat -> string -> stream + Z;     (* or an errno value *)
  y_ext : extern -> ext_system
}.
(** strcmp(filename,"-") ? fopen(filename,"rb") : stdin.  A handle of None is stdin. *)
Definition open_stream (Y : system) (filename : string) (w : world) : (option nat * stream + Z) * world :=
  if String.eqb filename "-" then (inl (None, y_stdin Y (w_count w)), w)
  else match y_fopen Y (w_count w) filename with
       | inr errno => (inr errno, w)
       | inl s => let '(f, w) := open_file w in (inl (Some f, s), w)
       end.
(** if(f && f != stdin) fclose(f) *)
Definition close_stream (f : option nat) (w : world) : res world :=
  match f with None => Ok w | Some f => close_file f w end.

(** lib/image.c:16-24 resdet_fskip; [buf] is the size of the buffer, if there is one.
    An offset above LONG_MAX would turn negative; no caller passes one. *)
Definition resdet_fskip (s : stream) (offset : Z) (buf : option Z) : res (Z * stream) :=
  match buf with
  | Some size =>
      if offset >? size then Undef OutOfBounds
      else let '(l, s) := fread offset s in
           Ok (if zlen l =? offset then RDEOK else RDEINVAL, s)
  | None =>
      if offset >? LONG_MAX then Undef IntOverflow
      else match fseek_cur offset s with
           | (None, s) => Ok (RDEOK, s)
           | (Some errno, s) => Ok (- errno, s)
           end
  end.

(** pgm.c:27-36 and pfm.c:77-86 skip_comments: [comment] tells whether inside one *)
Fixpoint after_comments (comment : bool) (l : list Z) : option (list Z) :=
  match l with
  | [] => None
  | c :: t => if comment then after_comments (negb (c =? 10)) t
              else if c =? 35 then after_comments true t
              else Some l
  end.
Definition skip_comments (s : stream) : bool * stream :=
  match after_comments false (s_rest s) with
  | None => (false, at_end s)
  | Some r => (true, with_rest s r)
  end.

(** isspace(fgetc(f)) *)
Definition get_space (s : stream) : bool * stream :=
  match fgetc s with
  | (Some c, s) => (isspace c, s)
  | (None, s) => (false, s)
  end.

(** pgm.c:11-15 *)
Record pgm_context := mkPgm {
  pg_blk : nat; pg_file : option nat; pg_s : stream; pg_eof : bool; pg_depth : Z
}.

(** pgm.c:17-25 *)
Definition pgm_close (c : pgm_context) (w : world) : res world :=
  w <- close_stream (pg_file c) w ;;
  free_block (pg_blk c) w.

(** pgm.c:53-58: width, height and maximum, if the header is accepted *)
Definition pgm_header (H : host) (s : stream) : res (option (Z * Z * Z) * stream) :=
  '(n, _, s) <- fscanf H [Lit 80; Lit 53; Space] s ;;
  if n <? 0 then Ok (None, s)
  else
    let '(b, s) := skip_comments s in
    if negb b then Ok (None, s)
    else
      '(n, vs, s) <- fscanf H [Zu; Space; Zu; Space; Hu] s ;;
      if negb (n =? 3) then Ok (None, s)
      else
        match vs with
        | [VInt width; VInt height; VInt depth] =>
            let '(b, s) := get_space s in
            if negb b then Ok (None, s)
            else if depth >? 255 then Ok (None, s)
            else Ok (Some (width, height, depth), s)
        | _ => Undef Uninit
        end.

(** pgm.c:38-69 pgm_reader_open: context, width, height, error *)
Definition pgm_open (E : env) (Y : system) (filename : string) (w : world)
  : res (option pgm_context * Z * Z * Z * world) :=
  match alloc (e_alloc E) w with
  | (None, w) => Ok (None, 0, 0, RDENOMEM, w)
  | (Some blk, w) =>
      match open_stream Y filename w with
      | (inr errno, w) => w <- free_block blk w ;; Ok (None, 0, 0, - errno, w)
      | (inl (f, s), w) =>
          '(h, s) <- pgm_header (y_host Y) s ;;
          match h with
          | None => w <- pgm_close (mkPgm blk f s false 0) w ;; Ok (None, 0, 0, RDEINVAL, w)
          | Some (width, height, depth) => Ok (Some (mkPgm blk f s false depth), width, height, RDEOK, w)
          end
      end
  end.

(** pgm.c:77-84: the samples; [c/(float)depth] *)
Fixpoint pgm_samples (n : nat) (i : Z) (depth : Z) (image : list (option f32)) (s : stream)
  : res (bool * list (option f32) * stream) :=
  match n with
  | O => Ok (true, image, s)
  | S n =>
      match fgetc s with
      | (None, s) => Ok (false, image, s)
      | (Some c, s) =>
          image <- set image i (Some (fdiv (f32_of_Z c) (f32_of_Z depth))) ;;
          pgm_samples n (i + 1) depth image s
      end
  end.

(** pgm.c:71-88 pgm_reader_read_frame *)
Definition pgm_read (c : pgm_context) (image : list (option f32)) (width height : Z)
  : res (bool * Z * list (option f32) * pgm_context) :=
  if pg_eof c then Ok (false, RDEOK, image, c)
  else
    '(b, image, s) <- pgm_samples (Z.to_nat (wrap (width * height))) 0 (pg_depth c) image (pg_s c) ;;
    let e := if b : bool then RDEOK else RDEINVAL in
    Ok (e =? RDEOK, e, image, mkPgm (pg_blk c) (pg_file c) s true (pg_depth c)).

(** pgm.c:90-99 pgm_reader_seek_frame; the list: arguments of the progress calls *)
Definition pgm_seek (c : pgm_context) (offset : Z) : bool * list Z * pgm_context :=
  let ret := (offset =? 0) || negb (pg_eof c || (offset >? 1)) in
  if negb (offset =? 0) && negb (pg_eof c)
  then (ret, [1], mkPgm (pg_blk c) (pg_file c) (pg_s c) true (pg_depth c))
  else (ret, [], c).
