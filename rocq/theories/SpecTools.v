(** What the properties of the tools speak about. *)
From Coq Require Import Reals Sorted String.
From Verif Require Import Base Flt Util Methods Analysis Resdetect History Spec SpecAnalysis SpecReport Stdio Pgm Pfm Y4m Image ImageHistory SpecImage Cli Tools.
Open Scope list_scope.
Open Scope Z_scope.

(** ** Times *)
Definition micros (t : timeval) : Z := tv_sec t * 1000000 + tv_usec t.
Definition proper_time (t : timeval) : Prop := 0 <= tv_usec t < 1000000.

(** ** Lists *)
Inductive subsequence {A} : list A -> list A -> Prop :=
| sub_nil l : subsequence [] l
| sub_keep a s l : subsequence s l -> subsequence (a :: s) (a :: l)
| sub_drop a s l : subsequence s l -> subsequence s (a :: l).
Definition ascending (l : list Z) : Prop := StronglySorted Z.lt l.
(** how many of [l] are not in [l'] *)
Fixpoint absent (l l' : list Z) : Z :=
  match l with
  | [] => 0
  | a :: l => (if in_dec Z.eq_dec a l' then 0 else 1) + absent l l'
  end.

(** ** What profile prints about a method, summed *)
Definition method_eqb (a b : method) : bool :=
  match a, b with Msign, Msign | Mmag, Mmag | Morig, Morig | Mzerox, Mzerox => true | _, _ => false end.
Fixpoint summed (f : timeval -> Z -> Z -> Z) (m : method) (l : list notice) : Z :=
  match l with
  | [] => 0
  | Diff m' t plus minus :: l => (if method_eqb m m' then f t plus minus else 0) + summed f m l
  | _ :: l => summed f m l
  end.
Definition spent : method -> list notice -> Z := summed (fun t _ _ => micros t).
Definition added : method -> list notice -> Z := summed (fun _ plus _ => plus).
Definition lacking : method -> list notice -> Z := summed (fun _ _ minus => minus).

(** ** Dictionaries *)
(** lines that start with a line break are skipped between entries *)
Definition blank_line (l : list Z) : Prop := hd 0 l = 10.
Inductive dictionary : list (list Z) -> list (list Z * list Z * list Z) -> Prop :=
| dict_end : dictionary [] []
| dict_blank l ls es : blank_line l -> dictionary ls es -> dictionary (l :: ls) es
| dict_entry l a b ls es : ~ blank_line l -> dictionary ls es -> dictionary (l :: a :: b :: ls) ((l, a, b) :: es).
Definition failed_detection (r : notice) : bool := match r with DetectError _ => true | _ => false end.

(** lost memory blocks: only with the bundled transform, and only if an allocation fails *)
Definition leak_ok (E : env) (leak : list nat) : Prop := leak = [] \/ (c_backend (e_cfg E) = KISS /\ exists n, e_alloc E n = false).

(** ** A run of profile *)
(** totals after an image that took [dt] *)
Definition adds (t : total) (dt : timeval) (plus minus : Z) (t' : total) : Prop :=
  (proper_time dt -> proper_time (to_time t) -> proper_time (to_time t') /\ micros (to_time t') = micros (to_time t) + micros dt) /\
  to_plus t' = wrap (to_plus t + plus) /\ to_minus t' = wrap (to_minus t + minus).
(** [s] is in both lists, in the same order; it is all they have in common if both ascend *)
Definition in_common (s known found : list Z) : Prop :=
  subsequence s known /\ subsequence s found /\ (ascending known -> ascending found -> forall x, In x known -> In x found -> In x s).
Definition sizes_of (l : list rdres) : list Z := map r_index (removelast l).
(** one method on the frames [fs], with the known widths [kw] and heights [kh] *)
Definition measured (E : env) (clock : nat -> timeval) (fs : list (list f32)) (width height : Z) (kw kh : list Z) (m : method) (r : notice) : Prop :=
  (exists e msg, r = DetectError msg /\ e <> RDEOK /\ resdet_error_str e = Ok msg /\
     exists w o w', resdetect E (Some (concat fs)) (zlen fs) width height (mkWants true true true true) (Some m) None (mkOuts None 0 None 0) w = Ok (e, o, w')) \/
  (exists n rw rh sw sh, fs <> [] /\ countable fs /\
     reported E (Some m) width height None fs (seen_x E width height fs) width rw /\
     reported E (Some m) width height None fs (seen_y E width height fs) height rh /\
     in_common sw kw (sizes_of rw) /\ in_common sh kh (sizes_of rh) /\
     r = Diff m (diffts (clock n) (clock (S n)))
           (zlen (sizes_of rw) - zlen sw + (zlen (sizes_of rh) - zlen sh)) (zlen kw - zlen sw + (zlen kh - zlen sh))).
(** the file reads as these frames *)
Definition reads_as (R : readers) (E : env) (Y : system) (filename : string) (width height : Z) (fs : list (list f32)) : Prop :=
  exists w i ob w1 i', resdet_open_image R E Y (Some filename) None true true w = Ok (Some i, width, height, ob, RDEOK, w1) /\ frames Y i fs RDEOK i'.
(** reading the file fails with this code *)
Definition cannot_read (R : readers) (E : env) (Y : system) (filename : string) (e : Z) : Prop :=
  e <> RDEOK /\ exists w n width height w', resdet_read_image R E Y (Some filename) None true w = Ok (None, n, width, height, e, w').
(** the numbers in a line *)
Definition numbers (line : list Z) (vs : list Z) : Prop := Forall2 (fun t v => strtoull_of t = Some v) (tokens line) vs.
Definition unreadable (line : list Z) : Prop := exists t, In t (tokens line) /\ strtoull_of t = None.
Inductive entry_report (R : readers) (E : env) (Y : system) (clock : nat -> timeval) : list Z * list Z * list Z -> list notice -> Prop :=
| entry_unread l a b e msg : cannot_read R E Y (string_of (chop l)) e -> resdet_error_str e = Ok msg ->
    entry_report R E Y clock (l, a, b) [Name (chop l); ReadError (chop l) msg]
| entry_measured l a b width height fs kw kh rs : reads_as R E Y (string_of (chop l)) width height fs ->
    client_ok E width height None -> numbers (chop a) kw -> numbers (chop b) kh ->
    Forall2 (measured E clock fs width height kw kh) resdet_methods rs ->
    entry_report R E Y clock (l, a, b) (Name (chop l) :: rs).
(** a dictionary that breaks off: an entry without its two lines of numbers *)
Definition broken_entry (E : env) (rest : list (list Z)) : Prop :=
  exists l rest', rest = l :: rest' /\ ~ blank_line l /\
    ((length rest' < 2)%nat \/ (exists a, In a (firstn 2 rest') /\ unreadable (chop a)) \/ exists n, e_alloc E n = false).

(** the totals are the sums of what was printed *)
Definition accounts (m : method) (outs : list notice) (t t' : total) : Prop :=
  (Forall (fun r => match r with Diff _ dt _ _ => proper_time dt | _ => True end) outs -> proper_time (to_time t) ->
     proper_time (to_time t') /\ micros (to_time t') = micros (to_time t) + spent m outs) /\
  (0 <= to_plus t < 2^64 -> to_plus t' = wrap (to_plus t + added m outs)) /\
  (0 <= to_minus t < 2^64 -> to_minus t' = wrap (to_minus t + lacking m outs)).

(** The printed reports [outs] of a run with status [ret]: the entries of the dictionary, in order,
    up to the first with a failed detection, or up to the end, or up to an incomplete entry. *)
Definition printed_run (R : readers) (E : env) (Y : system) (clock : nat -> timeval) (lines : list (list Z)) (outs : list notice) (ret : Z) : Prop :=
  exists done rest es outss last, lines = done ++ rest /\ dictionary done es /\ Forall2 (entry_report R E Y clock) es outss /\ outs = concat outss ++ last /\
    ((ret = 0 /\ rest = [] /\ last = [] /\ existsb failed_detection outs = false) \/
     (ret = 1 /\ existsb failed_detection outs = true /\ last = []) \/
     (ret = 1 /\ existsb failed_detection outs = false /\ broken_entry E rest /\
        exists l, hd_error rest = Some l /\ (last = [Name (chop l)] \/ exists e msg, cannot_read R E Y (string_of (chop l)) e /\ resdet_error_str e = Ok msg /\ last = [Name (chop l); ReadError (chop l) msg]))).
