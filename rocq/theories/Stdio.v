(** Input streams and the parts of stdio the image readers use: fgetc, ungetc of the
    character just read, fread, forward fseek, feof, fscanf.

    This file models the C library, not the project.  A stream is what is still to be
    read from it, as bytes.  When the bytes run out reads hit end of file, or a read
    error for a "broken" stream.  A seek may go past the end. *)
From Verif Require Import Base Flt.
Open Scope Z_scope.

Record stream := mkStream {
  s_rest : list Z;          (* bytes still to come *)
  s_pos : Z;                (* file position *)
  s_eof : bool;             (* end of file indicator *)
  s_broken : bool;          (* running out of bytes is a read error *)
  s_seekable : bool
}.
Definition LONG_MAX := 2^63 - 1.
Definition byte_ok (c : Z) : Prop := 0 <= c < 256.
(** a stream the system can deliver: bytes, and a file position that fits off_t *)
Definition stream_ok (s : stream) : Prop :=
  Forall byte_ok (s_rest s) /\ 0 <= s_pos s /\ (s_seekable s = true -> s_pos s + zlen (s_rest s) <= LONG_MAX).

(** The C library and the host.  [h_strict]: what the C standard leaves undefined
    (numbers in the input that do not fit, ctype functions applied to negative chars)
    is undefined; otherwise it is what glibc does.  [h_signed]: plain char is signed.
    [h_float l]: how many of the bytes [l], which do not start with white space, the %f
    conversion consumes, and the value if they match. *)
Record host := mkHost {
  h_strict : bool;
  h_signed : bool;
  h_little : bool;
  h_float : list Z -> nat * option f32
}.

(** ** Characters.  Plain chars are kept as bytes 0..255. *)
Definition isspace (c : Z) : bool := ((9 <=? c) && (c <=? 13)) || (c =? 32).   (* C locale *)
Definition is_digit (c : Z) : bool := (48 <=? c) && (c <=? 57).
(** argument domain of the ctype functions for a plain char *)
Definition ctype_arg (H : host) (c : Z) : res Z :=
  if h_strict H && h_signed H && (c >=? 128) then Undef BadCtype else Ok c.
Definition isdigit (H : host) (c : Z) : res bool := c <- ctype_arg H c ;; Ok (is_digit c).
Definition lower (c : Z) : Z := if (65 <=? c) && (c <=? 90) then c + 32 else c.
Definition tolower (H : host) (c : Z) : res Z := c <- ctype_arg H c ;; Ok (lower c).

(** ** Reading *)
Definition with_rest (s : stream) (r : list Z) : stream :=
  mkStream r (s_pos s + (zlen (s_rest s) - zlen r)) (s_eof s) (s_broken s) (s_seekable s).
(** the bytes have run out *)
Definition at_end (s : stream) : stream :=
  mkStream [] (s_pos s + zlen (s_rest s)) (negb (s_broken s) || s_eof s) (s_broken s) (s_seekable s).
(** continue at [r]; running out of bytes was noticed if [r] is empty *)
Definition looked_to (s : stream) (r : list Z) : stream :=
  match r with [] => at_end s | _ => with_rest s r end.

(** fgetc: None is EOF *)
Definition fgetc (s : stream) : option Z * stream :=
  match s_rest s with
  | [] => (None, at_end s)
  | c :: r => (Some c, with_rest s r)
  end.
Definition feof (s : stream) : bool := s_eof s.

(** fread of [n] bytes: the bytes there were *)
Definition fread (n : Z) (s : stream) : list Z * stream :=
  if zlen (s_rest s) <? n then (s_rest s, at_end s)
  else (firstn (Z.to_nat n) (s_rest s), with_rest s (skipn (Z.to_nat n) (s_rest s))).

(** fseek(f,off,SEEK_CUR) for off >= 0: an errno value, or None for success *)
Definition ESPIPE := 29.
Definition EOVERFLOW := 75.
Definition fseek_cur (off : Z) (s : stream) : option Z * stream :=
  if negb (s_seekable s) then (Some ESPIPE, s)
  else if s_pos s + off >? LONG_MAX then (Some EOVERFLOW, s)
  else (None, mkStream (skipn (Z.to_nat off) (s_rest s)) (s_pos s + off) false (s_broken s) true).

(** ** fscanf *)
Inductive directive :=
| Lit (c : Z)              (* an ordinary character *)
| Space                    (* white space *)
| Zu                       (* %zu *)
| Hu                       (* %hu *)
| Fl                       (* %f *)
| Ch                       (* %c *)
| Word (width : nat)       (* %<width>s *)
| SkipWord.                (* %*s *)
Inductive value := VInt (z : Z) | VFloat (f : f32) | VChar (c : Z) | VWord (l : list Z).

Fixpoint drop_while (p : Z -> bool) (l : list Z) : list Z :=
  match l with c :: t => if p c then drop_while p t else l | [] => [] end.
Fixpoint take_while (p : Z -> bool) (l : list Z) : list Z :=
  match l with c :: t => if p c then c :: take_while p t else [] | [] => [] end.
Definition skip_space (s : stream) : stream := looked_to s (drop_while isspace (s_rest s)).
Definition digits_value (l : list Z) : Z := fold_left (fun a c => a * 10 + (c - 48)) l 0.

(** strtoul, base 10, on a sign and digits *)
Definition strtoul (H : host) (neg : bool) (ds : list Z) : res Z :=
  let v := digits_value ds in
  if v >? SIZE_MAX then (if h_strict H then Undef IntOverflow else Ok SIZE_MAX)
  else Ok (if neg then wrap (- v) else v).
(** storing into an unsigned short *)
Definition to_ushort (H : host) (v : Z) : res Z :=
  if v >? 65535 then (if h_strict H then Undef IntOverflow else Ok (v mod 65536)) else Ok v.

(** outcome of one directive: input failure, matching failure, or success *)
Inductive outcome := InputFailure | MatchFailure | Done (v : list value).

Definition split_sign (l : list Z) : bool * list Z :=
  match l with
  | c :: t => if c =? 45 then (true, t) else if c =? 43 then (false, t) else (false, l)
  | [] => (false, l)
  end.
Definition run_directive (H : host) (d : directive) (s : stream) : res (outcome * stream) :=
  match d with
  | Lit c =>
      match s_rest s with
      | [] => Ok (InputFailure, at_end s)
      | c' :: r => if c' =? c then Ok (Done [], with_rest s r) else Ok (MatchFailure, s)
      end
  | Space => Ok (Done [], skip_space s)
  | Ch =>
      match s_rest s with
      | [] => Ok (InputFailure, at_end s)
      | c :: r => Ok (Done [VChar c], with_rest s r)
      end
  | Zu | Hu =>
      let s := skip_space s in
      match s_rest s with
      | [] => Ok (InputFailure, at_end s)
      | l =>
          let '(neg, l) := split_sign l in
          let ds := take_while is_digit l in
          let s := looked_to s (drop_while is_digit l) in
          match ds with
          | [] => Ok (MatchFailure, s)
          | _ => v <- strtoul H neg ds ;;
                 v <- (match d with Hu => to_ushort H v | _ => Ok v end) ;;
                 Ok (Done [VInt v], s)
          end
      end
  | Fl =>
      let s := skip_space s in
      match s_rest s with
      | [] => Ok (InputFailure, at_end s)
      | l => let '(n, v) := h_float H l in
             let s := looked_to s (skipn n l) in
             Ok (match v with Some v => Done [VFloat v] | None => MatchFailure end, s)
      end
  | Word width =>
      let s := skip_space s in
      match s_rest s with
      | [] => Ok (InputFailure, at_end s)
      | l => let w := firstn width (take_while (fun c => negb (isspace c)) l) in
             let r := skipn (length w) l in
             Ok (Done [VWord w], if Nat.eqb (length w) width then with_rest s r else looked_to s r)
      end
  | SkipWord =>
      let s := skip_space s in
      match s_rest s with
      | [] => Ok (InputFailure, at_end s)
      | l => Ok (Done [], looked_to s (drop_while (fun c => negb (isspace c)) l))
      end
  end.

(** the return value (-1 for EOF), the values stored, the stream.  Whether a
    conversion has completed only matters for the return value. *)
Definition converts (d : directive) : bool := match d with Lit _ | Space => false | _ => true end.
Fixpoint fscanf_from (H : host) (fmt : list directive) (s : stream) (converted : bool) (vs : list value)
  : res (Z * list value * stream) :=
  match fmt with
  | [] => Ok (zlen vs, vs, s)
  | d :: fmt =>
      '(o, s) <- run_directive H d s ;;
      match o with
      | InputFailure => Ok (if converted then zlen vs else -1, vs, s)
      | MatchFailure => Ok (zlen vs, vs, s)
      | Done v => fscanf_from H fmt s (converted || converts d) (vs ++ v)
      end
  end.
Definition fscanf (H : host) (fmt : list directive) (s : stream) : res (Z * list value * stream) :=
  fscanf_from H fmt s false [].
