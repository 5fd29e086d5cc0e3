(** Specification of the claims about src/visualize.sh. *)
From Coq Require Import Ascii String.
From Verif Require Import Base Flt Util Methods Analysis Stdio Pgm Pfm Y4m Image Cli Printf Visualize Spec SpecImage SpecCli SpecText.
Open Scope string_scope.
Open Scope list_scope.
Open Scope Z_scope.

(** a command line of the script: options with their values as arguments of their own, the
    image and the output *)
Definition script_line (l : list event) (image output : string) (rest : list string) : list string :=
  flat_map (fun '(Opt c a) => [String "-" (String c ""); a]) l ++ image :: output :: rest.
Definition with_value (e : event) : Prop := let 'Opt c _ := e in In c ["l"; "c"; "t"; "r"; "s"]%char.
(** the value of the last such option *)
Definition given (l : list event) (c : ascii) (default : string) : string := match last_arg c l with Some a => a | None => default end.

(** words, with single spaces between them *)
Definition word (w : string) : Prop := w <> "" /\ Forall (fun c => ~ In c [9; 10; 32]) (chars w).
Definition worded (s : string) (ws : list string) : Prop := Forall word ws /\ s = String.concat " " ws.

(** the decimal text of an integer *)
Definition signed (t : list Z) (z : Z) : Prop := if z <? 0 then exists u, t = 45 :: u /\ numeral u (- z) else numeral t z.

(** what the script draws: two lines of the length asked for, at the right and at the lower edge
    of the image, at the height and at the width given *)
Definition draws (t : list Z) (width height length at_width at_height : Z) : Prop :=
  exists x0 y0 x1 y1 x y, signed x0 (width - length) /\ signed y0 (height - length) /\ numeral x1 width /\ numeral y1 height /\
    numeral x at_width /\ numeral y at_height /\
    t = chars "line " ++ x0 ++ chars "," ++ y ++ chars " " ++ x1 ++ chars "," ++ y ++ chars " " ++ [9] ++
        chars " line " ++ x ++ chars "," ++ y0 ++ chars " " ++ x ++ chars "," ++ y1.
