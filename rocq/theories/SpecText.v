(** What the text printed by the command line program should be. *)
From Coq Require Import Ascii String Reals.
From Flocq Require Import Core IEEE754.Binary.
From Verif Require Import Base Flt Util Methods Analysis History Spec SpecReport Stdio Pgm Pfm Y4m SpecFormats Image ImageHistory SpecImage Cli SpecCli Printf.
Open Scope string_scope.
Open Scope list_scope.
Open Scope Z_scope.

(** ** Numerals *)
(** a decimal numeral without superfluous zeros *)
Definition numeral (t : list Z) (n : Z) : Prop := spells t n /\ (length t = 1%nat \/ hd 0 t <> 48).
(** the number v / 10^d with d > 0 digits behind the point *)
Definition fraction (d : nat) (t : list Z) (v : Z) : Prop :=
  exists ti tf i f, numeral ti i /\ spells tf f /\ length tf = d /\ t = ti ++ 46 :: tf /\ v = i * 10 ^ Z.of_nat d + f.
Definition minus_sign (negative : bool) : list Z := if negative then [45] else [].
Definition spaces (t : list Z) : Prop := Forall (fun c => c = 32) t.
(** behind as many spaces as make it [width] characters, if it has fewer *)
Definition padded (width : nat) (t u : list Z) : Prop := exists b, spaces b /\ u = b ++ t /\ length u = Nat.max width (length t).
(** the integer nearest to |x| 10^d; of two, the even one *)
Definition rounded (d : nat) (x : R) : Z := ZnearestE (Rabs x * IZR (10 ^ Z.of_nat d)).

(** ** Result lists *)
(** -v 3: a colon, and the confidence to six digits *)
Definition confidence_text (r : rdres) (t : list Z) : Prop :=
  exists s u v, t = 58 :: minus_sign s ++ u /\ fraction 6 u v /\
    (Rabs (IZR (cond_Zopp s v) / IZR (10 ^ 6) - conf_real r) <= / 2 / IZR (10 ^ 6))%R.
(** each result, and a space behind it *)
Inductive listed (verbosity : Z) : list rdres -> list Z -> Prop :=
| listed_none : listed verbosity [] []
| listed_next r l t c u : numeral t (r_index r) -> (if verbosity =? 3 then confidence_text r c else c = []) ->
    listed verbosity l u -> listed verbosity (r :: l) (t ++ c ++ 32 :: u).

(** ** The table *)
(** the confidence in percent: the float nearest to the product *)
Definition percentage (r : rdres) : R := round radix2 (FLT_exp (-149) 24) ZnearestE (conf_real r * 100).
(** "width (percentage%)" *)
Definition cell_text (r : rdres) (t : list Z) : Prop :=
  exists a n b u v, t = a ++ [32; 40] ++ b ++ [37; 41] /\ numeral n (r_index r) /\ padded 5 n a /\
    fraction 2 u v /\ padded 5 u b /\ v = rounded 2 (percentage r).
(** the line of the results [w] and [h]; [left] is what precedes the height *)
Definition row_text (w h : option rdres) (left t : list Z) : Prop :=
  match w with
  | Some r => exists c, cell_text r c /\ left = c ++ [32; 32; 32]
  | None => left = repeat 32 17
  end /\
  match h with
  | Some r => exists c, cell_text r c /\ t = left ++ c ++ [10]
  | None => t = left ++ [10]
  end.
(** rows number i, i + 1, ... *)
Inductive rows_text (w h : list rdres) : nat -> nat -> list (list Z) -> list Z -> Prop :=
| rows_none i : rows_text w h i 0 [] []
| rows_next i n left t ls u : row_text (nth_error w i) (nth_error h i) left t -> rows_text w h (S i) n ls u ->
    rows_text w h i (S n) (left :: ls) (t ++ u).
(** the results fit the columns *)
Definition narrow (r : rdres) : Prop := r_index r < 100000 /\ (conf_real r < 9999 / 10000)%R.
Definition table_head : list Z := chars "all width        height" ++ [10].

(** what precedes the table *)
Definition summary_text (width height : Z) (rw rh : list rdres) (t : list Z) : Prop :=
  exists tw th bw bh, numeral tw width /\ numeral th height /\ numeral bw (best rw) /\ numeral bh (best rh) /\
    t = chars "given: " ++ tw ++ chars "x" ++ th ++ [10] ++ chars "best guess: " ++ bw ++ chars "x" ++ bh ++
        (if own_only rw rh then chars " (not upsampled)" else []) ++ [10] ++ (if own_only rw rh then [] else table_head).

(** ** Runs *)
(** some run of the program at this verbosity analyses an image of this size, gets these
    lists from the library and prints [t] to standard output *)
Definition prints (verbosity : Z) (t : list Z) (width height : Z) (rw rh : list rdres) : Prop :=
  exists R E Y T strerror self args w o m blk p input w1 x w' used, env_ok E /\ machine_ok Y /\
    invoked R E T self args w o m blk p input w1 /\ o_verbosity o = verbosity /\
    cli_main R E Y T self args w = Ok (x, w') /\ t = text strerror (x_out x) /\
    detects R E Y o m (auto_filter o input p) input w1 width height used rw rh.
(** the same size, with almost the same confidence *)
Definition close_to (distance : R) (r r' : rdres) : Prop := r_index r = r_index r' /\ (Rabs (conf_real r - conf_real r') <= distance)%R.

(** ** Reading numbers *)
(** strtod is correctly rounded: numerals of up to 15 digits, with or without a point *)
Definition reads_numerals (T : terminal) : Prop :=
  forall a ti tf i f, chars a = ti ++ (if (length tf =? 0)%nat then [] else 46 :: tf) ->
    spells ti i -> (tf = [] /\ f = 0 \/ spells tf f) -> (length ti + length tf <= 15)%nat ->
    exists d, t_strtod T a = Some d /\ is_finite 53 1024 d = true /\ Bsign 53 1024 d = false /\
      B2R 53 1024 d = round radix2 (FLT_exp (-1074) 53) ZnearestE (IZR (i * 10 ^ Z.of_nat (length tf) + f) / IZR (10 ^ Z.of_nat (length tf))).
(** a percentage with at most two digits behind the point, in units of 1/100 *)
Definition percent_numeral (a : string) (k : Z) : Prop :=
  exists ti tf i f, chars a = ti ++ (if (length tf =? 0)%nat then [] else 46 :: tf) /\ spells ti i /\
    (tf = [] /\ f = 0 \/ spells tf f) /\ (length tf <= 2)%nat /\ (length ti <= 13)%nat /\
    k = (i * 10 ^ Z.of_nat (length tf) + f) * 10 ^ Z.of_nat (2 - length tf).

(** ** Help *)
Definition occurs (u t : list Z) : Prop := exists a b, t = a ++ u ++ b.
(** at the beginning of a line *)
Definition begins_line (u t : list Z) : Prop := exists a b, t = a ++ u ++ b /\ (a = [] \/ exists a', a = a' ++ [10]).
Definition option_entry (c : ascii) : list Z := chars (String " " (String "-" (String c "   "))).
