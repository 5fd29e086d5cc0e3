(** Model of lib/image/y4m.c. *)
From Verif Require Import Base Flt Util Methods Analysis Stdio Pgm.
Open Scope list_scope.
Open Scope Z_scope.

(** y4m.c:10-16; the buffer is its block and size *)
Record y4m_context := mkY4m {
  ym_blk : nat; ym_file : option nat; ym_s : stream; ym_buf : option (nat * Z);
  ym_y : Z; ym_uv : Z; ym_depth : Z; ym_seekable : bool
}.

(** y4m.c:18-26 *)
Definition y4m_close (c : y4m_context) (w : world) : res world :=
  w <- free_opt (option_map fst (ym_buf c)) w ;;
  w <- close_stream (ym_file c) w ;;
  free_block (ym_blk c) w.

(** ** C strings in a char array *)
Definition chars (s : string) : list Z := map (fun a => Z.of_nat (Ascii.nat_of_ascii a)) (list_ascii_of_string s).
(** strncmp(a,b,n) == 0, b a literal *)
Fixpoint strncmp_eq (n : nat) (a b : list Z) : res bool :=
  match n with
  | O => Ok true
  | S n =>
      match a with
      | [] => Undef OutOfBounds
      | c :: a =>
          match b with
          | [] => Ok (c =? 0)
          | d :: b => if c =? d then strncmp_eq n a b else Ok false
          end
      end
  end.
(** strtoul(a,NULL,10) where a starts with a digit, up to the first other character *)
Fixpoint number_at (a : list Z) (v : Z) : res Z :=
  match a with
  | [] => Undef OutOfBounds
  | c :: a => if is_digit c then number_at a (v * 10 + (c - 48)) else Ok v
  end.

(** char csp[10] = "420jpeg" and what %9s leaves in it *)
Definition csp_default : list Z := chars "420jpeg" ++ [0; 0; 0].
Definition store_word (buf w : list Z) : res (list Z) :=
  if zlen buf <=? zlen w then Undef OutOfBounds
  else Ok (w ++ 0 :: skipn (S (length w)) buf).

(** y4m.c:49-70: the header loop.  Width, height and csp so far; None: invalid. *)
Fixpoint y4m_params (fuel : nat) (H : host) (width height : Z) (csp : list Z) (s : stream)
  : res (option (Z * Z * list Z) * stream) :=
  match fuel with
  | O => Undef OutOfFuel
  | S fuel =>
      match fgetc s with
      | (None, s) => Ok (None, s)
      | (Some c, s) =>
          if c =? 10 then Ok (Some (width, height, csp), s)
          else if c =? 87 then
            '(n, vs, s) <- fscanf H [Zu] s ;;
            match vs with
            | [VInt v] => if n =? 1 then y4m_params fuel H v height csp s else Ok (None, s)
            | _ => Ok (None, s)
            end
          else if c =? 72 then
            '(n, vs, s) <- fscanf H [Zu] s ;;
            match vs with
            | [VInt v] => if n =? 1 then y4m_params fuel H width v csp s else Ok (None, s)
            | _ => Ok (None, s)
            end
          else if c =? 67 then
            '(n, vs, s) <- fscanf H [Word 9] s ;;
            match vs with
            | [VWord v] => if n =? 1 then csp <- store_word csp v ;; y4m_params fuel H width height csp s
                           else Ok (None, s)
            | _ => Ok (None, s)
            end
          else if c =? 32 then y4m_params fuel H width height csp s
          else
            '(n, _, s) <- fscanf H [SkipWord] s ;;
            if n <? 0 then Ok (None, s) else y4m_params fuel H width height csp s
      end
  end.

(** y4m.c:80-102: the size of the chroma planes in samples and the bit depth, unless
    the colour space is unknown *)
Definition colour_space (H : host) (csp : list Z) (width height : Z) : res (option (Z * Z)) :=
  let depth_from i :=
    c <- get csp i ;;
    d <- isdigit H c ;;
    if d : bool then number_at (skipn (Z.to_nat i) csp) 0 else Ok 8 in
  mono <- strncmp_eq 4 csp (chars "mono") ;;
  if mono : bool then
    depth <- depth_from 4 ;;
    Ok (Some (0, depth))
  else
    c420 <- strncmp_eq 3 csp (chars "420") ;;
    c411 <- (if c420 : bool then Ok false else strncmp_eq 3 csp (chars "411")) ;;
    c422 <- strncmp_eq 3 csp (chars "422") ;;
    c444 <- strncmp_eq 3 csp (chars "444") ;;
    alpha <- strncmp_eq 10 csp (chars "444alpha") ;;
    let uv :=
      if c420 || c411 then Some (wrap (wrap (wrap (width + 1) / 2 * (wrap (height + 1) / 2)) * 2))
      else if c422 : bool then Some (wrap (wrap (wrap (width + 1) / 2 * height) * 2))
      else if c444 : bool then Some (wrap (wrap (width * height) * 2))
      else if alpha : bool then Some (wrap (wrap (width * height) * 3))
      else None in
    match uv with
    | None => Ok None
    | Some uv =>
        c3 <- get csp 3 ;;
        depth <- (if c3 =? 112 then depth_from 4 else Ok 8) ;;
        Ok (Some (uv, depth))
    end.

(** y4m.c:28-137 y4m_reader_open.  The file is kept in a context that is completed
    step by step. *)
Definition y4m_open (E : env) (Y : system) (filename : string) (w : world)
  : res (option y4m_context * Z * Z * Z * world) :=
  match alloc (e_alloc E) w with
  | (None, w) => Ok (None, 0, 0, RDENOMEM, w)
  | (Some blk, w) =>
      match open_stream Y filename w with
      | (inr errno, w) => w <- free_block blk w ;; Ok (None, 0, 0, - errno, w)
      | (inl (f, s), w) =>
          let fail s width height e w :=
            w <- y4m_close (mkY4m blk f s None 0 0 0 false) w ;; Ok (None, width, height, e, w) in
          let '(magic, s) := fread 10 s in
          if negb (if list_eq_dec Z.eq_dec magic (chars "YUV4MPEG2 ") then true else false)
          then fail s 0 0 RDEINVAL w
          else
            '(h, s) <- y4m_params (S (length (s_rest s))) (y_host Y) 0 0 csp_default s ;;
            match h with
            | None => fail s 0 0 RDEINVAL w
            | Some (width, height, csp) =>
                if (width =? 0) || (height =? 0) then fail s width height RDEINVAL w
                else
                  big <- dims_exceed_limit (e_cfg E) width height 4 1 ;;
                  if big : bool then fail s width height RDETOOBIG w
                  else
                    cs <- colour_space (y_host Y) csp width height ;;
                    match cs with
                    | None => fail s width height RDEINVAL w
                    | Some (uv, depth) =>
                        let y := wrap (width * height) in
                        if (depth <? 8) || (depth >? 16) then fail s width height RDEINVAL w
                        else
                          let bytewidth := (depth + 7) / 8 in
                          if SIZE_MAX / bytewidth <? wrap (y + uv) then fail s width height RDETOOBIG w
                          else
                            let y := wrap (y * bytewidth) in
                            let uv := wrap (uv * bytewidth) in
                            let '(seekable, s) :=
                              if wrap (y + uv) <=? LONG_MAX then
                                match fseek_cur 0 s with
                                | (None, s) => (true, s)
                                | (Some _, s) => (false, s)
                                end
                              else (false, s) in
                            let bufsize := if seekable then y else if uv <? y then y else uv in
                            match alloc (e_alloc E) w with
                            | (None, w) => fail s width height RDENOMEM w
                            | (Some b, w) =>
                                Ok (Some (mkY4m blk f s (Some (b, bufsize)) y uv depth seekable), width, height, RDEOK, w)
                            end
                    end
            end
      end
  end.

Definition with_stream (c : y4m_context) (s : stream) : y4m_context :=
  mkY4m (ym_blk c) (ym_file c) s (ym_buf c) (ym_y c) (ym_uv c) (ym_depth c) (ym_seekable c).

(** y4m.c:151-154: to the end of the line; None: end of input *)
Fixpoint after_line (l : list Z) : option (list Z) :=
  match l with
  | [] => None
  | c :: t => if c =? 10 then Some t else after_line t
  end.

(** y4m.c:139-161 read_frame_header *)
Definition y4m_frame_header (s : stream) : bool * Z * stream :=
  let '(l, s) := fread 5 s in
  if zlen l <? 5 then
    (false, if (zlen l =? 0) && feof s then RDEOK else RDEINVAL, s)
  else if negb (if list_eq_dec Z.eq_dec l (chars "FRAME") then true else false) then (false, RDEINVAL, s)
  else match after_line (s_rest s) with
       | None => (false, RDEINVAL, at_end s)
       | Some r => (true, RDEOK, with_rest s r)
       end.

(** the buffer argument of resdet_fskip: ctx->seekable ? NULL : ctx->buf *)
Definition skip_buf (c : y4m_context) : res (option Z) :=
  if ym_seekable c then Ok None
  else match ym_buf c with Some (_, n) => Ok (Some n) | None => Ok None end.

(** y4m.c:163-189 y4m_reader_read_frame *)
Definition y4m_read (H : host) (c : y4m_context) (image : list (option f32)) (width height : Z)
  : res (bool * Z * list (option f32) * y4m_context) :=
  let '(b, e, s) := y4m_frame_header (ym_s c) in
  if negb b then Ok (false, e, image, with_stream c s)
  else
    size <- (match ym_buf c with Some (_, n) => Ok n | None => Undef NullDeref end) ;;
    if ym_y c >? size then Undef OutOfBounds
    else
      let '(buf, s) := fread (ym_y c) s in
      if negb (zlen buf =? ym_y c) then Ok (false, RDEINVAL, image, with_stream c s)
      else if (ym_depth c <? 0) || (ym_depth c >=? 32) then Undef BadShift
      else
        let scale := f32_of_Z (2 ^ ym_depth c - 1) in
        image <- for_range 0 (wrap (width * height)) (fun i image =>
          val <- (if ym_depth c >? 8 then
                    a <- get buf (wrap (i * 2)) ;;
                    b <- get buf (wrap (i * 2) + 1) ;;
                    Ok (if h_little H then a + 256 * b else b + 256 * a)
                  else get buf i) ;;
          set image i (Some (fdiv (f32_of_Z val) scale))) image ;;
        sb <- skip_buf c ;;
        '(e, s) <- resdet_fskip s (ym_uv c) sb ;;
        Ok (e =? 0, e, image, with_stream c s).

(** y4m.c:191-206 y4m_reader_seek_frame *)
Fixpoint y4m_skip (n : nat) (i : Z) (calls : list Z) (c : y4m_context) : res (bool * Z * list Z * y4m_context) :=
  match n with
  | O => Ok (true, RDEOK, calls, c)
  | S n =>
      let '(b, e, s) := y4m_frame_header (ym_s c) in
      if negb b then Ok (false, e, calls, with_stream c s)
      else
        sb <- skip_buf c ;;
        '(e, s) <- resdet_fskip s (ym_y c) sb ;;
        if negb (e =? 0) then Ok (false, e, calls, with_stream c s)
        else
          '(e, s) <- resdet_fskip s (ym_uv c) sb ;;
          if negb (e =? 0) then Ok (false, e, calls, with_stream c s)
          else y4m_skip n (i + 1) (calls ++ [i + 1]) (with_stream c s)
  end.
Definition y4m_seek (c : y4m_context) (offset : Z) := y4m_skip (Z.to_nat offset) 0 [] c.
