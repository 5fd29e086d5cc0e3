(** What the properties of the command line program speak about. *)
From Coq Require Import Ascii String.
From Verif Require Import Base Flt Util Methods Analysis History Spec SpecReport Stdio Pgm Pfm Y4m Image ImageHistory SpecImage Cli.
Open Scope string_scope.
Open Scope list_scope.
Open Scope Z_scope.

(** ** Error codes *)
(** a code of enum RDError, or the negative of an errno value *)
Definition known_code (e : Z) : Prop := - INT_MAX <= e <= RDENOIMG.
(** errno is an int, and the readers that are not modelled return known codes *)
Definition codes_ok (Y : system) : Prop :=
  (forall n f errno, y_fopen Y n f = inr errno -> 0 < errno <= INT_MAX) /\
  (forall x n f e, x_open (y_ext Y x) n f = inr e -> known_code e) /\
  (forall x c b e l c', x_read (y_ext Y x) c = (b, e, l, c') -> known_code e) /\
  (forall x c k b e l c', x_seek (y_ext Y x) c k = (b, e, l, c') -> known_code e).

(** ** Options *)
(** the argument of the last option [c] *)
Fixpoint last_arg (c : ascii) (l : list event) : option string :=
  match l with
  | [] => None
  | Opt d arg :: l =>
      match last_arg c l with
      | Some a => Some a
      | None => if Ascii.eqb c d then Some arg else None
      end
  end.

(** ** Frames *)
(** the frames analysed when [fs] are left and [n] are asked for; 0: all *)
Definition first_frames (n : Z) (fs : list (list f32)) : list (list f32) :=
  if n =? 0 then fs else firstn (Z.to_nat n) fs.
(** the error that ended the frames does not matter if enough were read before *)
Definition end_error (n : Z) (fs : list (list f32)) (er : Z) : Z :=
  if negb (n =? 0) && (n <=? Z.of_nat (length fs)) then RDEOK else er.

(** ** Results *)
Definition own_only (rw rh : list rdres) : bool := ((length rw =? 1) && (length rh =? 1))%nat.
Definition status_of (verbosity : Z) (rw rh : list rdres) : Z :=
  if (verbosity =? 0) && own_only rw rh then 1 else 0.
Definition entry (verbosity : Z) (r : rdres) : list piece :=
  Num (r_index r) :: (if verbosity =? 3 then [Str ":"; Fixed6 (f64_of_f32 (r_conf r))] else []) ++ [Str " "].
Definition cell (r : rdres) : list piece := [Num5 (r_index r); Str " ("; Fixed2 (percent (r_conf r))].
(** line [i] of the table of the results [w] and [h] *)
Definition table_line (w h : list rdres) (i : nat) : list piece :=
  match nth_error w i with Some r => cell r ++ [Str "%)   "] | None => [Blank17] end ++
  match nth_error h i with Some r => cell r ++ [Str "%)"] | None => [] end ++ [Str newline].
Definition best (l : list rdres) : Z := match l with r :: _ => r_index r | [] => 0 end.
(** [ow], [oh]: the size of the image; [w], [h]: the results but for this size *)
Definition printed (verbosity ow oh : Z) (rw rh : list rdres) : list piece :=
  let w := removelast rw in
  let h := removelast rh in
  if verbosity =? 0 then []
  else if verbosity =? 1 then [Num (best rw); Str " "; Num (best rh); Str newline]
  else if (verbosity =? 2) || (verbosity =? 3) then
    flat_map (entry verbosity) rw ++ [Str newline] ++ flat_map (entry verbosity) rh ++ [Str newline]
  else
    [Str "given: "; Num ow; Str "x"; Num oh; Str newline; Str "best guess: "; Num (best rw); Str "x"; Num (best rh);
     Str (if own_only rw rh then " (not upsampled)" else ""); Str newline] ++
    (if own_only rw rh then [] else [Str "all width        height"; Str newline]) ++
    flat_map (table_line w h) (seq 0 (Nat.max (length w) (length h))).

(** ** What the program does, in terms of the library *)
Definition way_of (o : opts) : way := match o_reader o with Some r => ByReader (Some r) | None => ByType (o_type o) end.
(** skipping the frames asked for: went well?, error, image *)
Definition after_seek (E : env) (Y : system) (offset : Z) (im : rdimage) (w : world) : res (bool * Z * option rdimage * world) :=
  if offset =? 0 then Ok (true, RDEOK, Some im, w)
  else '(b, e, _, im, w) <- resdet_seek_frame E Y (Some im) offset w ;; Ok (b, e, im, w).
(** a failing run says why, after what it printed about its progress *)
Definition complains (e : Z) (pre : list piece) (x : exit) : Prop :=
  exists m, resdet_error_str e = Ok m /\ m <> NoMsg /\ x = mkExit 1 [] (pre ++ [Message m; Str newline]).
Definition everything : wants := mkWants true true true true.
Definition no_outs : outs := mkOuts None 0 None 0.
(** seeking in the readers that are not modelled brings no frames back *)
Definition seeks_forward (Y : system) : Prop :=
  forall x c k b e l c', x_seek (y_ext Y x) c k = (b, e, l, c') -> (x_frames (y_ext Y x) c' <= x_frames (y_ext Y x) c)%nat.

(** ** The options in effect *)
(** the values of the last option of each kind, the defaults otherwise *)
Record last_wins (evs : list event) (o : opts) : Prop := {
  lw_verbosity : o_verbosity o = match last_arg "v" evs with Some a => to_int (strtol a) | None => -1 end;
  lw_method : o_method o = last_arg "m" evs;
  lw_type : o_type o = last_arg "t" evs;
  lw_reader : o_reader o = last_arg "R" evs;
  lw_range : o_range o = last_arg "r" evs;
  lw_threshold : o_threshold o = last_arg "x" evs;
  lw_filter : o_filter o = last_arg "f" evs;
  lw_offset : match last_arg "o" evs with Some a => strtoull a = Some (o_offset o) | None => o_offset o = 0 end;
  lw_nframes : match last_arg "n" evs with Some a => strtoull a = Some (o_nframes o) /\ o_nframes o <> 0 | None => o_nframes o = 0 end;
  lw_progress : o_progress o = match last_arg "p" evs with Some _ => true | None => false end
}.
(** the options that end the program at once *)
Definition fatal (e : event) : Prop :=
  match e with
  | Opt c a =>
      c = "h"%char \/ c = "V"%char \/ find_option optstring c = None \/ (c = "o"%char /\ strtoull a = None) \/
      (c = "n"%char /\ (strtoull a = None \/ strtoull a = Some 0))
  end.
Definition reader_named (R : readers) (a : string) : Prop := exists n, In n (resdet_list_image_readers R) /\ same_nocase n a.

(** the setter calls the options -x, -r and -f ask for; -f auto asks for none *)
Definition asked {A} (arg : option string) (conv : string -> option A) (mk : A -> setting) (l : list setting) : Prop :=
  match arg with
  | None => l = []
  | Some a => exists v, conv a = Some v /\ l = [mk v]
  end.
Definition byte_of (a : string) : option Z := match strtoull a with Some v => if v <=? 255 then Some v else None | None => None end.
Definition asked_settings (T : terminal) (o : opts) (l : list setting) : Prop :=
  exists lx lr lf, l = lx ++ lr ++ lf /\
    asked (o_threshold o) (t_strtod T) (fun d => Threshold (f32_of_f64 (ddiv d (f64_of_Z 100)))) lx /\
    asked (o_range o) strtoull Range lr /\
    asked (if match o_filter o with Some a => String.eqb a "auto" | None => false end then None else o_filter o) byte_of Filter lf.
(** the filter -f auto chooses: from what follows the last dot of the name, if there is one *)
Definition auto_table : list (string * Z) :=
  [(".jpeg", 3); (".jpg", 3); (".mp4", 3); (".mkv", 3); (".webp", 2); (".webm", 2); (".avif", 5); (".heic", 5)].

(** ** A run of the program *)
(** the arguments ask for analysing [input] with the options [o], method [m] and
    parameters [p], which are in block [blk] *)
Definition invoked (R : readers) (E : env) (T : terminal) (self : string) (args : list string) (w : world)
    (o : opts) (m : method) (blk : nat) (p : params) (input : string) (w1 : world) : Prop :=
  exists evs rest p0 l, getopt optstring (t_permute T) args = (evs, input :: rest) /\
    take_options R (e_cfg E) self evs no_opts = inr o /\
    resdet_get_method (o_method o) = Some m /\
    resdet_alloc_default_parameters (e_cfg E) (e_alloc E) w = (Some (blk, p0), w1) /\
    asked_settings T o l /\ set_all (Some p0) l = (repeat RDEOK (length l), Some p) /\
    (o_type o = None \/ o_reader o = None).
Definition asks_info (e : event) : Prop := match e with Opt c a => c = "h"%char \/ c = "V"%char \/ (c = "R"%char /\ a = "list") end.

(** ** Spelling options *)
(** [spelled evs args]: the arguments give the options [evs], each argument of an option
    in the next word or behind the letter *)
Inductive spelled : list event -> list string -> Prop :=
| spelled_none : spelled [] []
| spelled_flag c evs args : find_option optstring c = Some false -> spelled evs args ->
    spelled (Opt c "" :: evs) (String "-" (String c "") :: args)
| spelled_apart c a evs args : find_option optstring c = Some true -> spelled evs args ->
    spelled (Opt c a :: evs) (String "-" (String c "") :: a :: args)
| spelled_joined c a evs args : find_option optstring c = Some true -> a <> "" -> spelled evs args ->
    spelled (Opt c a :: evs) (String "-" (String c a) :: args).
Definition operand (a : string) : Prop := forall c s, a <> String "-" (String c s).

(** ** Runs *)
(** every file ends, and errno and the readers that are not modelled behave *)
Record machine_ok (Y : system) : Prop := {
  mo_system : system_ok Y; mo_relaxed : relaxed Y; mo_codes : codes_ok Y; mo_forward : seeks_forward Y;
  mo_files : forall f, exists N, bytes_bound Y f N /\ Z.of_nat N + 3 < SIZE_MAX
}.
(** the input opens as an image of this size, the frames before the offset can be skipped,
    and the frames [used] are read then, which end with error [er] *)
Definition supplies (R : readers) (E : env) (Y : system) (o : opts) (input : string) (w : world)
    (width height : Z) (used : list (list f32)) (er : Z) (wd : world) : Prop :=
  exists i ob w1 e1 i1 fs er0 i2, open_by R E Y (Some input) (way_of o) true true w = Ok (Some i, width, height, ob, RDEOK, w1) /\
    after_seek E Y (o_offset o) i w1 = Ok (true, e1, Some i1, wd) /\ frames Y i1 fs er0 i2 /\
    used = first_frames (o_nframes o) fs /\ er = end_error (o_nframes o) fs er0.
(** a program that hands these frames to the library gets the result lists [rw] and [rh] *)
Definition detects (R : readers) (E : env) (Y : system) (o : opts) (m : method) (p : params) (input : string) (w : world)
    (width height : Z) (used : list (list f32)) (rw rh : list rdres) : Prop :=
  exists er wd out bw bh wd', supplies R E Y o input w width height used er wd /\
    by_hand_file E used er width height everything (Some m) (Some p) no_outs wd = Ok (RDEOK, out, wd') /\
    o_rw out = Some (bw, rw) /\ o_rh out = Some (bh, rh).
(** what -p prints: the frames skipped, if any, the frames analysed, and newlines.  [calls]:
    what the reader reports while seeking *)
Definition note (what : string) (k : Z) : list piece := [Str what; Num k; Str return_].
Definition frame_notes (o : opts) (k : Z) (n : nat) : list piece :=
  flat_map (fun j => note "Analyzing frame " (wrap (k + 1 + Z.of_nat j + o_offset o))) (seq 0 n).
Definition seek_notes (o : opts) (calls : list Z) : list piece :=
  if o_offset o =? 0 then [] else flat_map (note "Seeking past frame ") calls ++ [Str newline].
Definition notes (o : opts) (calls : list Z) (n : nat) : list piece :=
  if o_progress o then seek_notes o calls ++ frame_notes o 0 n ++ [Str newline] else [].
Definition sought (E : env) (Y : system) (offset : Z) (i : rdimage) (w : world) (calls : list Z) : Prop :=
  offset = 0 \/ exists e i' w', resdet_seek_frame E Y (Some i) offset w = Ok (true, e, calls, i', w').
Definition skips (R : readers) (E : env) (Y : system) (o : opts) (input : string) (w : world) (calls : list Z) : Prop :=
  exists i width height ob w1, open_by R E Y (Some input) (way_of o) true true w = Ok (Some i, width, height, ob, RDEOK, w1) /\
    sought E Y (o_offset o) i w1 calls.
(** the reader that -R names or that is chosen for the file *)
Definition selects (R : readers) (Y : system) (o : opts) (input name : string) : Prop :=
  match o_reader o with
  | Some r => In name (resdet_list_image_readers R) /\ same_nocase name r
  | None => exists ext, image_type input (o_type o) ext /\ chosen R Y ext name
  end.
(** a PFM file can only be seeked in if a frame buffer fits memory *)
Definition seekable_film (E : env) (o : opts) (name : string) (width height : Z) (s : stream) : Prop :=
  name = "PFM" -> o_offset o <> 0 -> width * height * 12 <= SIZE_MAX /\ (s_seekable s = true \/ forall n, e_alloc E n = true).
