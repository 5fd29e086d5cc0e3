(** What the program does with a file, from its bytes to the text printed. *)
From Coq Require Import Ascii String.
From Verif Require Import Base Flt Util Methods Analysis History Spec SpecReport Stdio Pgm Pfm Y4m Image ImageHistory SpecImage SpecFormats Cli SpecCli Printf SpecText.
Open Scope string_scope.
Open Scope list_scope.
Open Scope Z_scope.

(** the sizes an analysis accepts *)
Definition analysable (E : env) (width height : Z) : Prop :=
  let side := match c_backend (e_cfg E) with KISS => (2^31 - 1) / 3 | FFTW => 2^31 - 1 end in
  1 <= width <= side /\ 1 <= height <= side /\ width * height <= c_pixel_max (e_cfg E) /\ width * height * 4 < 2^64.
(** the frames of a film that -o and -n select *)
Definition selected (o : opts) (fs : list (list f32)) : list (list f32) := first_frames (o_nframes o) (skipn (Z.to_nat (o_offset o)) fs).

(** ** A run of the program on a good film *)
(** the file [s] is a well-formed film and there is a reader for it; it is within the limits, memory
    suffices, the frames selected exist and have no samples that are not finite *)
Record good_run (R : readers) (E : env) (Y : system) (o : opts) (input : string) (s : stream) (width height : Z) (used : list (list f32)) : Prop := {
  gr_memory : forall n, e_alloc E n = true;
  gr_delivers : delivers Y input s;
  gr_whole : s_broken s = false;
  gr_size : analysable E width height;
  gr_film : exists name limit fs, film E (y_host Y) width height (s_rest s) name limit fs /\ limit /\ used = selected o fs /\
              selects R Y o input name /\ seekable_film E o name width height s;
  gr_frames : used <> [];
  gr_valid : Forall (valid_image width height) used
}.

(** ** What is printed about a size found with confidence 1 *)
(** in the table: "  640 (100.00%)" *)
Definition full_cell (N : Z) (t : list Z) : Prop := exists n a, numeral n N /\ padded 5 n a /\ t = a ++ chars " (100.00%)".
(** in a list: "640 ", with -v 3 "640:1.000000 " *)
Definition full_item (v N : Z) (t : list Z) : Prop := exists n, numeral n N /\ t = n ++ (if v =? 3 then chars ":1.000000" else []) ++ [32].
(** the lines of a text *)
Definition first_line (t line : list Z) : Prop := ~ In 10 line /\ exists rest, t = line ++ 10 :: rest.
Definition second_line (t line : list Z) : Prop := exists l rest, ~ In 10 l /\ t = l ++ 10 :: rest /\ first_line rest line.
Definition a_line (t line : list Z) : Prop := ~ In 10 line /\ exists a rest, t = a ++ line ++ 10 :: rest /\ (a = [] \/ exists a', a = a' ++ [10]).
(** [u] is at the beginning of [t] or behind a space *)
Definition as_word (u t : list Z) : Prop := exists a b, t = a ++ u ++ b /\ (a = [] \/ exists a', a = a' ++ [32]).
(** at verbosity v, for an image of this width: with -v 1 another width, otherwise N *)
Definition says_width (v width N : Z) (t : list Z) : Prop :=
  (v = 1 -> exists n k rest, numeral n k /\ k <> width /\ t = n ++ 32 :: rest) /\
  (v = 2 \/ v = 3 -> exists line u, first_line t line /\ full_item v N u /\ as_word u line) /\
  (~ 0 <= v <= 3 -> exists c rest, full_cell N c /\ a_line t (c ++ chars "   " ++ rest)).
Definition says_height (v height N : Z) (t : list Z) : Prop :=
  (v = 1 -> exists b n k, numeral n k /\ k <> height /\ ~ In 32 b /\ t = b ++ 32 :: n ++ [10]) /\
  (v = 2 \/ v = 3 -> exists line u, second_line t line /\ full_item v N u /\ as_word u line) /\
  (~ 0 <= v <= 3 -> exists left c, full_cell N c /\ a_line t (left ++ c)).
