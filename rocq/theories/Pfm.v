(** Model of lib/image/pfm.c. *)
From Flocq Require IEEE754.Bits.
From Verif Require Import Base Flt Util Methods Analysis Stdio Pgm.
Open Scope Z_scope.

(** pfm.c:10-15 *)
Record pfm_context := mkPfm {
  pf_blk : nat; pf_file : option nat; pf_s : stream;
  pf_scale : f32; pf_format : Z; pf_consumed : bool
}.

(** a float object holding the given four bytes *)
Definition float_of_bytes (H : host) (b : list Z) : f32 :=
  let le := fold_right (fun c v => c + 256 * v) 0 in
  IEEE754.Bits.b32_of_bits (le (if h_little H then b else rev b)).

(** (endianness_scale < 0) == little_endian() : the bytes are in host order *)
Definition host_order (H : host) (scale : f32) : bool :=
  Bool.eqb (flt scale (f32_of_Z 0)) (h_little H).

(** fread of [n] objects of 4 bytes: the complete ones.  (An incomplete one leaves an
    unspecified value, here the old one; the frame is then not reported as read.) *)
Fixpoint words (l : list Z) : list (list Z) :=
  match l with
  | a :: b :: c :: d :: l => [a; b; c; d] :: words l
  | _ => []
  end.
Definition fread4 (n : Z) (s : stream) : list (list Z) * stream :=
  let '(l, s) := fread (4 * n) s in (words l, s).

(** storing consecutive floats *)
Fixpoint store (image : list (option f32)) (i : Z) (l : list f32) : res (list (option f32)) :=
  match l with
  | [] => Ok image
  | v :: l => image <- set image i (Some v) ;; store image (i + 1) l
  end.

(** loops of the form for(j = 0; j < n; j++) if(!body) return false *)
Fixpoint all_of {A} (n : nat) (j : Z) (body : Z -> A -> res (bool * A)) (a : A) : res (bool * A) :=
  match n with
  | O => Ok (true, a)
  | S n => '(b, a) <- body j a ;;
           if b : bool then all_of n (j + 1) body a else Ok (false, a)
  end.
Definition plane_state := (list (option f32) * stream)%type.

(** pfm.c:19-35 read_pfm_plane_gray *)
Definition read_gray (H : host) (width height : Z) (scale : f32) (a : plane_state) : res (bool * plane_state) :=
  if host_order H scale then
    all_of (Z.to_nat height) 0 (fun j '(image, s) =>
      let '(l, s) := fread4 width s in
      image <- store image (wrap ((height - j - 1) * width)) (map (float_of_bytes H) l) ;;
      Ok (negb (zlen l <? width), (image, s))) a
  else
    all_of (Z.to_nat height) 0 (fun j a =>
      all_of (Z.to_nat width) 0 (fun i '(image, s) =>
        let '(l, s) := fread4 1 s in
        match l with
        | [] => Ok (false, (image, s))
        | b :: _ => image <- set image (wrap ((height - j - 1) * width + i)) (Some (float_of_bytes H (rev b))) ;;
                    Ok (true, (image, s))
        end) a) a.

(** (pixel[0] + pixel[1] + pixel[2])/3 *)
Definition grey (r g b : f32) : f32 := fdiv (fadd (fadd r g) b) (f32_of_Z 3).

(** pfm.c:37-61 read_pfm_plane_rgb *)
Definition read_rgb (H : host) (width height : Z) (scale : f32) (a : plane_state) : res (bool * plane_state) :=
  let value b := float_of_bytes H (if host_order H scale then b else rev b) in
  all_of (Z.to_nat height) 0 (fun j a =>
    all_of (Z.to_nat width) 0 (fun i '(image, s) =>
      let '(l, s) := fread4 3 s in
      match l with
      | [r; g; b] => image <- set image (wrap ((height - j - 1) * width + i)) (Some (grey (value r) (value g) (value b))) ;;
                     Ok (true, (image, s))
      | _ => Ok (false, (image, s))
      end) a) a.

(** pfm.c:63-65 read_pfm_plane *)
Definition read_plane (H : host) (width height : Z) (scale : f32) (format : Z) (a : plane_state) :=
  if format =? 102 then read_gray H width height scale a else read_rgb H width height scale a.

(** pfm.c:67-75 *)
Definition pfm_close (c : pfm_context) (w : world) : res world :=
  w <- close_stream (pf_file c) w ;;
  free_block (pf_blk c) w.

(** pfm.c:104-107 and 138-141: everything after the format character *)
Definition pfm_rest (H : host) (s : stream) : res (option (Z * Z * f32) * stream) :=
  '(n, _, s) <- fscanf H [Space] s ;;
  if n =? -1 then Ok (None, s)
  else
    let '(b, s) := skip_comments s in
    if negb b then Ok (None, s)
    else
      '(n, vs, s) <- fscanf H [Zu; Space; Zu; Space; Fl] s ;;
      if negb (n =? 3) then Ok (None, s)
      else
        match vs with
        | [VInt width; VInt height; VFloat scale] =>
            let '(b, s) := get_space s in
            if negb b then Ok (None, s) else Ok (Some (width, height, scale), s)
        | _ => Undef Uninit
        end.
Definition is_format (c : Z) : bool := (c =? 102) || (c =? 70).

(** pfm.c:101-108: format, width, height, scale *)
Definition pfm_header (H : host) (s : stream) : res (option (Z * (Z * Z * f32)) * stream) :=
  '(n, vs, s) <- fscanf H [Lit 80; Ch] s ;;
  if negb (n =? 1) then Ok (None, s)
  else
    match vs with
    | [VChar format] =>
        if negb (is_format format) then Ok (None, s)
        else
          '(h, s) <- pfm_rest H s ;;
          Ok (option_map (fun h => (format, h)) h, s)
    | _ => Undef Uninit
    end.

(** pfm.c:88-120 pfm_reader_open *)
Definition pfm_open (E : env) (Y : system) (filename : string) (w : world)
  : res (option pfm_context * Z * Z * Z * world) :=
  match alloc (e_alloc E) w with
  | (None, w) => Ok (None, 0, 0, RDENOMEM, w)
  | (Some blk, w) =>
      match open_stream Y filename w with
      | (inr errno, w) => w <- free_block blk w ;; Ok (None, 0, 0, - errno, w)
      | (inl (f, s), w) =>
          '(h, s) <- pfm_header (y_host Y) s ;;
          match h with
          | None => w <- pfm_close (mkPfm blk f s f0 0 false) w ;; Ok (None, 0, 0, RDEINVAL, w)
          | Some (format, (width, height, scale)) =>
              Ok (Some (mkPfm blk f s scale format true), width, height, RDEOK, w)
          end
      end
  end.

(** pfm.c:122-153 read_header: whether there is a frame, and the error *)
Definition pfm_next_header (H : host) (c : pfm_context) (width height : Z) : res (bool * Z * pfm_context) :=
  if pf_consumed c then Ok (true, RDEOK, c)
  else
    let keep s := mkPfm (pf_blk c) (pf_file c) s (pf_scale c) (pf_format c) (pf_consumed c) in
    match fgetc (pf_s c) with
    | (None, s) => Ok (false, if feof s then RDEOK else RDEINVAL, keep s)
    | (Some p, s) =>
        if negb (p =? 80) then Ok (false, RDEINVAL, keep s)
        else
          '(n, vs, s) <- fscanf H [Ch] s ;;
          if negb (n =? 1) then Ok (false, RDEINVAL, keep s)
          else
            match vs with
            | [VChar format] =>
                if negb (is_format format) then Ok (false, RDEINVAL, keep s)
                else
                  '(h, s) <- pfm_rest H s ;;
                  match h with
                  | None => Ok (false, RDEINVAL, keep s)
                  | Some (nw, nh, scale) =>
                      if negb (nw =? width) || negb (nh =? height) then Ok (false, RDEINVAL, keep s)
                      else Ok (true, RDEOK, mkPfm (pf_blk c) (pf_file c) s scale format (pf_consumed c))
                  end
            | _ => Undef Uninit
            end
    end.

(** pfm.c:155-169 pfm_reader_read_frame *)
Definition pfm_read (H : host) (c : pfm_context) (image : list (option f32)) (width height : Z)
  : res (bool * Z * list (option f32) * pfm_context) :=
  '(b, e, c) <- pfm_next_header H c width height ;;
  if negb b then Ok (false, e, image, c)
  else
    '(b, (image, s)) <- read_plane H width height (pf_scale c) (pf_format c) (image, pf_s c) ;;
    let put consumed := mkPfm (pf_blk c) (pf_file c) s (pf_scale c) (pf_format c) consumed in
    if b : bool then Ok (true, RDEOK, image, put false)
    else Ok (false, RDEINVAL, image, put (pf_consumed c)).

(** pfm.c:185-198: the loop of pfm_reader_seek_frame; [calls] are the progress calls *)
Fixpoint pfm_skip (n : nat) (i : Z) (H : host) (width height size : Z) (buf : option Z) (calls : list Z) (c : pfm_context)
  : res (bool * Z * list Z * pfm_context) :=
  match n with
  | O => Ok (true, RDEOK, calls, c)
  | S n =>
      '(b, e, c) <- pfm_next_header H c width height ;;
      if negb b then Ok (false, e, calls, c)
      else
        '(e, s) <- resdet_fskip (pf_s c) size buf ;;
        let put consumed := mkPfm (pf_blk c) (pf_file c) s (pf_scale c) (pf_format c) consumed in
        if negb (e =? 0) then Ok (false, e, calls, put (pf_consumed c))
        else pfm_skip n (i + 1) H width height size buf (calls ++ [i + 1]) (put false)
  end.

(** pfm.c:171-206 pfm_reader_seek_frame *)
Definition pfm_seek (E : env) (Y : system) (c : pfm_context) (offset width height : Z) (w : world)
  : res (bool * Z * list Z * pfm_context * world) :=
  let imgsize := wrap (width * height) in
  let imgsize := if pf_format c =? 70 then wrap (imgsize * 3) else imgsize in
  let size := wrap (imgsize * 4) in
  let put c s := mkPfm (pf_blk c) (pf_file c) s (pf_scale c) (pf_format c) (pf_consumed c) in
  let '(seekable, c) :=
    if size <=? LONG_MAX then
      match fseek_cur 0 (pf_s c) with
      | (None, s) => (true, put c s)
      | (Some _, s) => (false, put c s)
      end
    else (false, c) in
  let '(buf, w) := if seekable then (None, w) else alloc (e_alloc E) w in
  if negb seekable && (match buf with None => true | _ => false end) then Ok (false, RDENOMEM, [], c, w)
  else
    '(ret, e, calls, c) <- pfm_skip (Z.to_nat offset) 0 (y_host Y) width height size
                             (option_map (fun _ => size) buf) [] c ;;
    w <- free_opt buf w ;;
    Ok (ret, e, calls, mkPfm (pf_blk c) (pf_file c) (pf_s c) (pf_scale c) (pf_format c) false, w).
