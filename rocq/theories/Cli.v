(** Model of the command line program src/resdet.c.  Standard output and standard error
    are lists of the pieces printed; Printf.v says how printf spells them. *)
From Coq Require Import Ascii String.
From Verif Require Import Base Flt Util Methods Analysis Stdio Pgm Pfm Y4m Image.
Open Scope string_scope.
Open Scope list_scope.
Open Scope Z_scope.

(** ** The C library *)
(** [t_strtod s]: the value strtod converts, None if it converts nothing.
    [t_permute]: getopt looks for options behind operands, as glibc does. *)
Record terminal := mkTerminal { t_strtod : string -> option f64; t_permute : bool }.

(** strtoull, and strtoul on LP64, in base 10.  None: nothing converted, value 0. *)
Definition strtoull_of (s : list Z) : option Z :=
  let '(neg, l) := split_sign (drop_while isspace s) in
  match take_while is_digit l with
  | [] => None
  | ds => let v := digits_value ds in
          Some (if v >? SIZE_MAX then SIZE_MAX else if neg then wrap (- v) else v)
  end.
Definition strtoull (s : string) : option Z := strtoull_of (chars s).
Definition or0 (o : option Z) : Z := match o with Some v => v | None => 0 end.
(** strtol in base 10, and the conversion of long to int *)
Definition strtol (s : string) : Z :=
  let '(neg, l) := split_sign (drop_while isspace (chars s)) in
  let v := digits_value (take_while is_digit l) in
  if neg then Z.max (- v) (- 2^63) else Z.min v (2^63 - 1).
Definition to_int (z : Z) : Z := (z + 2^31) mod 2^32 - 2^31.
(** strcasecmp(a,b) == 0 *)
Definition strcaseeq (a b : string) : bool :=
  if list_eq_dec Z.eq_dec (map lower (chars a)) (map lower (chars b)) then true else false.

(** getopt: the options in order, a "?" for an error, and the operands *)
Inductive event := Opt (c : ascii) (arg : string).
(** is [c] an option, and does it take an argument *)
Fixpoint find_option (spec : string) (c : ascii) : option bool :=
  match spec with
  | EmptyString => None
  | String d spec =>
      if Ascii.eqb c d && negb (Ascii.eqb c ":"%char) then
        Some (match spec with String ":"%char _ => true | _ => false end)
      else find_option spec c
  end.
(** the options in one argument; whether the last one used the next argument *)
Fixpoint option_cluster (spec s : string) (next : option string) : list event * bool :=
  match s with
  | EmptyString => ([], false)
  | String c s =>
      match find_option spec c with
      | None => let '(evs, used) := option_cluster spec s next in (Opt "?"%char "" :: evs, used)
      | Some false => let '(evs, used) := option_cluster spec s next in (Opt c "" :: evs, used)
      | Some true =>
          match s, next with
          | EmptyString, Some a => ([Opt c a], true)
          | EmptyString, None => ([Opt "?"%char ""], false)
          | _, _ => ([Opt c s], false)
          end
      end
  end.
Fixpoint getopt (spec : string) (permute : bool) (args : list string) : list event * list string :=
  match args with
  | [] => ([], [])
  | a :: rest =>
      if String.eqb a "--" then ([], rest)
      else
        match a with
        | String "-"%char (String _ _ as s) =>
            let '(evs, used) := option_cluster spec s (hd_error rest) in
            match rest with
            | _ :: rest' =>
                let '(evs', operands) := if used then getopt spec permute rest' else getopt spec permute rest in
                (evs ++ evs', operands)
            | [] => (evs, [])
            end
        | _ =>
            if permute then let '(evs, operands) := getopt spec permute rest in (evs, a :: operands)
            else ([], args)
        end
  end.

(** ** Output *)
(** %s, %zu, %5zu, %f, %5.2f, %.0f, %17s of "", %-5s, a message of resdet_error_str *)
Inductive piece := Str (s : string) | Num (n : Z) | Num5 (n : Z) | Fixed6 (x : f64) | Fixed2 (x : f64) | Fixed0 (x : f64)
  | Blank17 | Left5 (s : string) | Message (m : message).
Definition newline : string := String (ascii_of_nat 10) "".
Definition return_ : string := String (ascii_of_nat 13) "".
Record exit := mkExit { x_status : Z; x_out : list piece; x_err : list piece }.

(** ** Options *)
Record opts := mkOpts {
  o_verbosity : Z;
  o_method : option string; o_type : option string; o_reader : option string;
  o_range : option string; o_threshold : option string; o_filter : option string;
  o_offset : Z; o_nframes : Z;
  o_progress : bool; o_found : bool                         (* found_reader *)
}.
(** src/resdet.c:64-68 *)
Definition no_opts : opts := mkOpts (-1) None None None None None None 0 0 false false.

Definition optstring := "v:m:t:x:r:pn:o:R:f:hV".

(** src/resdet.c:26-29 *)
Definition usage (self : string) : exit :=
  mkExit 1 [] [Str "Usage: "; Str self; Str " [-h -V -m <method> -v <verbosity> -t <filetype> -R <image_reader> -r <range> -x <threshold> -f <value> -p -o <offset> -n <nframes>] image"; Str newline].
(** src/resdet.c:32-54 *)
Definition help_options (c : config) (self : string) : list piece :=
  [Str "Usage: "; Str self; Str " [-h -V -m <method> -v <verbosity> -t <filetype> -r <range> -x <threshold> -f <value> -p -o <offset> -n <nframes>] image"; Str newline;
   Str " -h   This help text."; Str newline;
   Str " -V   Show the resdet CLI and library version."; Str newline;
   Str newline;
   Str " -m   Optional detection method, see below."; Str newline;
   Str " -v   verbosity: -1 - Human-readable output, default."; Str newline;
   Str "                  0 - Behave like a shell test, returning true if upscaling was detected, false if not or on error."; Str newline;
   Str "                  1 - Print only the best guess width and height."; Str newline;
   Str "                  2 - All detected widths and heights in confidence order."; Str newline;
   Str "                  3 - -v2 plus the floating point confidence value."; Str newline;
   Str " -t   filetype: Override the input type. May be an extension or MIME type."; Str newline;
   Str " -R   image reader: Select a specific image reader to read the file. Mutually exclusive with -t."; Str newline;
   Str "                    Use -R list to see available image readers."; Str newline;
   Str " -r   range: Number of neighboring values to search ("; Num (resdet_default_range c); Str ")."; Str newline;
   Str " -x   threshold: Print all detection results above this method-specific confidence level (0-100)."; Str newline;
   Str " -f   Filter out possible compression artifacts. Value: an integer filter value or ""auto"" to set one based on the file type.";
   Str " -p   Show progress in number of frames analyzed so far."; Str newline;
   Str " -o   offset: Seek to this frame number before starting detection."; Str newline;
   Str " -n   nframes: Limit detection to this number of frames."; Str newline;
   Str newline].
(** src/resdet.c:55-59; the product is rounded to float *)
Definition percent (c : f32) : f64 := f64_of_f32 (fmul c (f32_of_Z 100)).
Definition help_method (m : method) : list piece :=
  [Str "   "; Left5 (method_name m); Str " - "; Fixed0 (percent (method_threshold m)); Str "%"].
Definition help_methods : list piece :=
  [Str "Available detection methods and default thresholds:"; Str newline] ++
  match resdet_methods with
  | [] => []
  | m :: l => help_method m ++ [Str " (default method)"; Str newline] ++ flat_map (fun m => help_method m ++ [Str newline]) l
  end.
(** src/resdet.c:31-61 *)
Definition help (c : config) (self : string) : exit := mkExit 0 (help_options c self ++ help_methods) [].
(** src/resdet.c:110-113 *)
Definition version (R : readers) : exit :=
  let readers := resdet_list_image_readers R in
  mkExit 0
    ([Str "resdet version 2.4.1"; Str newline; Str "libresdet version "; Str resdet_libversion; Str newline;
      Str "Built with image readers: "] ++
     flat_map (fun '(i, r) => [Str r; Str (if (i <? length readers)%nat then ", " else newline)])
       (combine (seq 1 (length readers)) readers)) [].
(** src/resdet.c:82-86 *)
Definition list_readers (R : readers) (arg : string) : exit :=
  let is_list := String.eqb arg "list" in
  mkExit (if is_list then 0 else 1)
    (flat_map (fun r => [Str r; Str newline]) (resdet_list_image_readers R))
    (if is_list then [] else [Str "No image reader """; Str arg; Str """, use one of:"; Str newline]).

(** src/resdet.c:71-115: one option *)
Definition take_option (R : readers) (c : config) (self : string) (e : event) (o : opts) : exit + opts :=
  let '(mkOpts v m t r rg th f off n p found) := o in
  let '(Opt ch arg) := e in
  match ch with
  | "v"%char => inr (mkOpts (to_int (strtol arg)) m t r rg th f off n p found)
  | "m"%char => inr (mkOpts v (Some arg) t r rg th f off n p found)
  | "t"%char => inr (mkOpts v m (Some arg) r rg th f off n p found)
  | "R"%char =>
      let found := found || existsb (fun name => strcaseeq name arg) (resdet_list_image_readers R) in
      if found then inr (mkOpts v m t (Some arg) rg th f off n p found) else inl (list_readers R arg)
  | "x"%char => inr (mkOpts v m t r rg (Some arg) f off n p found)
  | "r"%char => inr (mkOpts v m t r (Some arg) th f off n p found)
  | "f"%char => inr (mkOpts v m t r rg th (Some arg) off n p found)
  | "o"%char =>
      match strtoull arg with
      | None => inl (mkExit 1 [] [Str "Invalid offset "; Str arg; Str newline])
      | Some k => inr (mkOpts v m t r rg th f k n p found)
      end
  | "n"%char =>
      match strtoull arg with
      | Some k =>
          if negb (k =? 0) then inr (mkOpts v m t r rg th f off k p found)
          else inl (mkExit 1 [] [Str "Invalid nframes "; Str arg; Str newline])
      | None => inl (mkExit 1 [] [Str "Invalid nframes "; Str arg; Str newline])
      end
  | "p"%char => inr (mkOpts v m t r rg th f off n true found)
  | "h"%char => inl (help c self)
  | "V"%char => inl (version R)
  | _ => inl (usage self)
  end.
(** src/resdet.c:70-116 *)
Fixpoint take_options (R : readers) (c : config) (self : string) (l : list event) (o : opts) : exit + opts :=
  match l with
  | [] => inr o
  | e :: l => match take_option R c self e o with inl x => inl x | inr o => take_options R c self l o end
  end.

(** src/resdet.c:136-159: the parameters, or what is printed before giving up *)
Definition option_params (T : terminal) (o : opts) (p : params) : list piece + params :=
  let threshold p :=
    match o_threshold o with
    | None => inr p
    | Some arg =>
        let bad := inl [Str "Invalid threshold value "; Str arg; Str newline] in
        match t_strtod T arg with
        | None => bad
        | Some d =>
            match resdet_parameters_set_threshold (Some p) (f32_of_f64 (ddiv d (f64_of_Z 100))) with
            | (0, Some p) => inr p
            | _ => bad
            end
        end
    end in
  let range p :=
    match o_range o with
    | None => inr p
    | Some arg =>
        let bad := inl [Str "Invalid range value "; Str arg; Str newline] in
        match strtoull arg with
        | None => bad
        | Some v => match resdet_parameters_set_range (Some p) v with (0, Some p) => inr p | _ => bad end
        end
    end in
  let filter p :=
    match o_filter o with
    | None => inr p
    | Some arg =>
        if String.eqb arg "auto" then inr p
        else
          let bad := inl [Str "Invalid filter value "; Str arg; Str newline] in
          match strtoull arg with
          | None => bad
          | Some v =>
              if v >? 255 then bad
              else match resdet_parameters_set_compression_filter (Some p) v with (0, Some p) => inr p | _ => bad end
          end
    end in
  match threshold p with
  | inl x => inl x
  | inr p => match range p with inl x => inl x | inr p => filter p end
  end.

(** src/resdet.c:194-205 *)
Definition auto_factor (ext : string) : Z :=
  if strcaseeq ext ".avif" || strcaseeq ext ".heic" then 5
  else if strcaseeq ext ".webp" || strcaseeq ext ".webm" then 2
  else if strcaseeq ext ".jpeg" || strcaseeq ext ".jpg" || strcaseeq ext ".mp4" || strcaseeq ext ".mkv" then 3
  else 0.
Definition auto_filter (o : opts) (input : string) (p : params) : params :=
  match o_filter o, after_last dot input with
  | Some "auto", Some e =>
      match snd (resdet_parameters_set_compression_filter (Some p) (auto_factor ("." ++ e))) with
      | Some p => p
      | None => p
      end
  | _, _ => p
  end.

(** ** Results *)
(** src/resdet.c:244-250 and 251-257; [cw] entries of [l] *)
Definition list_results (verbosity : Z) (l : list rdres) (cw : Z) : res (list piece) :=
  out <- for_range 0 cw (fun i out =>
           r <- get l i ;;
           Ok (out ++ [Num (r_index r)] ++
               (if verbosity =? 3 then [Str ":"; Fixed6 (f64_of_f32 (r_conf r))] else []) ++ [Str " "])) [] ;;
  Ok (out ++ [Str newline]).
(** src/resdet.c:239-272 *)
Definition print_results (verbosity : Z) (rw : list rdres) (cw : Z) (rh : list rdres) (ch : Z) : res (list piece) :=
  if verbosity =? 1 then
    w <- get rw 0 ;; h <- get rh 0 ;;
    Ok [Num (r_index w); Str " "; Num (r_index h); Str newline]
  else if (verbosity =? 2) || (verbosity =? 3) then
    a <- list_results verbosity rw cw ;;
    b <- list_results verbosity rh ch ;;
    Ok (a ++ b)
  else
    gw <- get rw (wrap (cw - 1)) ;; gh <- get rh (wrap (ch - 1)) ;;
    w <- get rw 0 ;; h <- get rh 0 ;;
    let out :=
      [Str "given: "; Num (r_index gw); Str "x"; Num (r_index gh); Str newline;
       Str "best guess: "; Num (r_index w); Str "x"; Num (r_index h);
       Str (if (cw =? 1) && (ch =? 1) then " (not upsampled)" else ""); Str newline] in
    let cw := wrap (cw - 1) in
    let ch := wrap (ch - 1) in
    let n := Z.max cw ch in
    let out := if n =? 0 then out else out ++ [Str "all width        height"; Str newline] in
    for_range 0 n (fun i out =>
      a <- (if i <? cw then
              r <- get rw i ;; Ok [Num5 (r_index r); Str " ("; Fixed2 (percent (r_conf r)); Str "%)   "]
            else Ok [Blank17]) ;;
      b <- (if i <? ch then
              r <- get rh i ;; Ok [Num5 (r_index r); Str " ("; Fixed2 (percent (r_conf r)); Str "%)"]
            else Ok []) ;;
      Ok (out ++ a ++ b ++ [Str newline])) out.

(** src/resdet.c:212-220: error, ct, image, analysis *)
Fixpoint analyze_loop (fuel : nat) (E : env) (Y : system) (o : opts) (im : rdimage) (image : list (option f32))
    (a : option analysis) (ct : Z) (err : list piece) (w : world)
    : res (Z * Z * rdimage * option analysis * list piece * world) :=
  match fuel with
  | O => Undef OutOfFuel
  | S fuel =>
      '(b, e, image, im) <- read_at Y im image 0 ;;
      if negb b then Ok (e, ct, im, a, err, w)
      else
        let err := if o_progress o then err ++ [Str "Analyzing frame "; Num (wrap (ct + o_offset o)); Str return_] else err in
        f <- filled image ;;
        '(e, a, w) <- resdet_analyze_image E a (Some f) w ;;
        if negb (e =? 0) then Ok (e, ct, im, a, err, w)
        else
          let ct := wrap (ct + 1) in
          if negb (o_nframes o =? 0) && (ct >? o_nframes o) then Ok (e, ct, im, a, err, w)
          else analyze_loop fuel E Y o im image a ct err w
  end.

(** what the variables hold at the label "end" *)
Record state := mkState {
  s_e : Z; s_ret : Z;
  s_im : option rdimage; s_an : option analysis;
  s_rw : option (nat * list rdres); s_rh : option (nat * list rdres);
  s_counts : option (Z * Z);                   (* cw and ch once assigned *)
  s_out : list piece; s_err : list piece;
  s_world : world
}.
(** src/resdet.c:22-24 *)
Definition seek_messages (progress : bool) (calls : list Z) : list piece :=
  if progress then flat_map (fun k => [Str "Seeking past frame "; Num k; Str return_]) calls else [].
(** src/resdet.c:181-272, with the image open *)
Definition detect (E : env) (Y : system) (o : opts) (m : method) (p : params) (input : string)
    (im : rdimage) (width height : Z) (image : list (option f32)) (w : world) : res state :=
  let stop e ret im a err w := Ok (mkState e ret (Some im) a None None None [] err w) in
  '(go, e, ret, im, err, w) <-
     (if o_offset o =? 0 then Ok (true, 0, 0, im, [], w)
      else
        '(b, e, calls, im, w) <- resdet_seek_frame E Y (Some im) (o_offset o) w ;;
        match im with
        | None => Undef NullDeref
        | Some im =>
            let err := seek_messages (o_progress o) calls in
            if b then Ok (true, e, 0, im, if o_progress o then err ++ [Str newline] else err, w)
            else if e =? 0 then
              Ok (false, e, 1, im, err ++ [Str "Passed end of file while seeking to frame "; Num (o_offset o); Str newline], w)
            else Ok (false, e, 0, im, err, w)
        end) ;;
  if negb go then stop e ret im None err w
  else
    let p := auto_filter o input p in
    '(a, e, w) <- resdet_create_analysis E (Some m) width height (Some p) w ;;
    if negb (e =? 0) then stop e 0 im a err w
    else
      '(e, ct, im, a, err, w) <- analyze_loop (S (frames_bound Y (im_ctx im))) E Y o im image a 1 err w ;;
      if (e =? 0) && (ct =? 1) then stop e 1 im a (err ++ [Str "No frames left in input."; Str newline]) w
      else
        let err := if o_progress o then err ++ [Str newline] else err in
        if negb (e =? 0) then stop e 0 im a err w
        else
          '(e, r, w) <- resdet_analysis_results E a (mkWants true true true true) (mkOuts None 0 None 0) w ;;
          let st out := Ok (mkState e 0 (Some im) a (o_rw r) (o_rh r) (Some (o_cw r, o_ch r)) out err w) in
          if negb (e =? 0) || (o_verbosity o =? 0) then st []
          else
            match o_rw r, o_rh r with
            | Some (_, rw), Some (_, rh) =>
                out <- print_results (o_verbosity o) rw (o_cw r) rh (o_ch r) ;; st out
            | _, _ => Undef NullDeref
            end.

(** src/resdet.c:274-288.  Printing a NULL string is undefined. *)
Definition finish (verbosity : Z) (blk : nat) (buf : option nat) (s : state) : res (exit * world) :=
  w <- resdet_destroy_analysis (s_an s) (s_world s) ;;
  w <- resdet_close_image (s_im s) w ;;
  w <- free_opt buf w ;;
  w <- free_block blk w ;;
  w <- free_opt (option_map fst (s_rw s)) w ;;
  w <- free_opt (option_map fst (s_rh s)) w ;;
  '(ret, err) <-
     (if s_e s =? 0 then Ok (s_ret s, s_err s)
      else
        m <- resdet_error_str (s_e s) ;;
        match m with
        | NoMsg => Undef NullDeref
        | m => Ok (1, s_err s ++ [Message m; Str newline])
        end) ;;
  if negb (ret =? 0) then Ok (mkExit ret (s_out s) err, w)
  else if verbosity =? 0 then
    match s_counts s with
    | None => Undef Uninit
    | Some (cw, ch) => Ok (mkExit (if (cw =? 1) && (ch =? 1) then 1 else 0) (s_out s) err, w)
    end
  else Ok (mkExit 0 (s_out s) err, w).

(** src/resdet.c:165-288, the parameters in block [blk] *)
Definition cli_run (R : readers) (E : env) (Y : system) (o : opts) (m : method) (blk : nat) (p : params) (input : string) (w : world)
  : res (exit * world) :=
  '(im, width, height, buf, e, w) <-
     (match o_reader o with
      | Some r => resdet_open_image_with_reader R E Y (Some input) (Some r) true true w
      | None => resdet_open_image R E Y (Some input) (o_type o) true true w
      end) ;;
  if negb (e =? 0) then
    finish (o_verbosity o) blk (option_map fst buf) (mkState e 0 im None None None None [] [] w)
  else
    match im, buf with
    | Some im, Some (b, image) =>
        s <- detect E Y o m p input im width height image w ;;
        finish (o_verbosity o) blk (Some b) s
    | _, _ => Undef NullDeref
    end.

(** src/resdet.c:62-289 main.  [self] and [args] are argv. *)
Definition cli_main (R : readers) (E : env) (Y : system) (T : terminal) (self : string) (args : list string) (w : world)
  : res (exit * world) :=
  let '(evs, operands) := getopt optstring (t_permute T) args in
  match take_options R (e_cfg E) self evs no_opts with
  | inl x => Ok (x, w)
  | inr o =>
      match operands with
      | [] => Ok (usage self, w)
      | input :: _ =>
          match resdet_get_method (o_method o) with
          | None =>
              Ok (mkExit 1 [] ([Str "Invalid method """; Str (match o_method o with Some s => s | None => "" end); Str """"; Str newline;
                                Str "Available methods:"; Str newline] ++
                               flat_map (fun m => [Str (method_name m); Str newline]) resdet_methods), w)
          | Some m =>
              match resdet_alloc_default_parameters (e_cfg E) (e_alloc E) w with
              | (None, w) => Ok (mkExit 1 [] [Str "Out of memory"], w)
              | (Some (blk, p), w) =>
                  match option_params T o p with
                  | inl err => w <- free_block blk w ;; Ok (mkExit 1 [] err, w)
                  | inr p =>
                      match o_type o, o_reader o with
                      | Some _, Some _ =>
                          Ok (mkExit 1 [] [Str "Type option (-t) cannot be used with an image reader (-R)"], w)
                      | _, _ => cli_run R E Y o m blk p input w
                      end
                  end
              end
          end
      end
  end.
