(** Model of src/visualize.sh.

    Simplified: the words of -r and -s are not expanded as file name patterns; read does not
    look for backslashes; of the expressions bash evaluates in $((...)), only decimal numbers
    without leading zeros up to 2^63-1 and empty text are modelled, the others are [Expression]. *)
From Coq Require Import Ascii String.
From Verif Require Import Base Flt Util Methods Analysis Stdio Pgm Pfm Y4m Image Cli Printf.
Open Scope string_scope.
Open Scope list_scope.
Open Scope Z_scope.

(** the programs the script runs: which there are, and what they print on standard output *)
Record commands := mkCommands {
  v_has : string -> bool;
  v_identify : string -> list Z;                 (* identify -ping -format '%w %h\n' image *)
  v_resdet : list string -> list Z               (* resdet with these arguments *)
}.
(** the program of Cli.v *)
Definition resdet_output (R : readers) (E : env) (Y : system) (T : terminal) (strerror : Z -> string) (w : world) (args : list string) : list Z :=
  match cli_main R E Y T "resdet" args w with Ok (x, _) => text strerror (x_out x) | Undef _ => [] end.

(** how the script ends *)
Inductive ending :=
| Stopped (status : Z)
| Run (spec : list string) (magick : list string) (draw : list Z) (output : string) (* arguments of spec, those of magick before -draw, the text behind -draw *)
| Expression.                                    (* arithmetic that is not modelled *)

(** ** bash *)
Definition is_ifs (c : Z) : bool := (c =? 32) || (c =? 9) || (c =? 10).
(** the words of an unquoted variable *)
Fixpoint words_of (s : list Z) (word : list Z) : list (list Z) :=
  match s with
  | [] => match word with [] => [] | _ => [word] end
  | c :: s =>
      if is_ifs c then match word with [] => words_of s [] | _ => word :: words_of s [] end
      else words_of s (word ++ [c])
  end.
Definition of_chars (s : list Z) : string := string_of_list_ascii (map (fun c => ascii_of_nat (Z.to_nat c)) s).
Definition words (s : string) : list string := map of_chars (words_of (chars s) []).
(** read a b: the first line, None if there is no newline *)
Fixpoint first_line (s : list Z) : option (list Z) :=
  match s with
  | [] => None
  | c :: s => if c =? 10 then Some [] else option_map (cons c) (first_line s)
  end.
Definition read_two (s : list Z) : option (list Z * list Z) :=
  match first_line s with
  | None => None
  | Some line =>
      let line := drop_while is_ifs line in
      let rest := drop_while (fun c => negb (is_ifs c)) line in
      Some (take_while (fun c => negb (is_ifs c)) line, rev (drop_while is_ifs (rev (drop_while is_ifs rest))))
  end.
(** a variable in an arithmetic expression *)
Definition variable (s : list Z) : option Z :=
  match s with
  | [] => Some 0
  | c :: l =>
      if forallb is_digit s && (negb (c =? 48) || match l with [] => true | _ => false end) && (digits_value s <? 2 ^ 63)
      then Some (digits_value s) else None
  end.
Definition integer (z : Z) : list Z := if z <? 0 then 45 :: number (- z) else number z.

(** ** The script *)
(** visualize.sh:36-38, and the variables resdet_opts and spec_opts *)
Record settings := mkSettings { g_length : string; g_color : string; g_thickness : string; g_resdet : string; g_spec : string }.
Definition default_settings (env_resdet env_spec : string) : settings := mkSettings "50" "green" "1" env_resdet env_spec.
(** visualize.sh:39 *)
Definition visualize_options := ":l:c:t:r:s:h".
(** visualize.sh:39-49: the settings, or the status with which an option ends the script *)
Fixpoint take_settings (l : list event) (g : settings) : Z + settings :=
  match l with
  | [] => inr g
  | Opt c a :: l =>
      let 'mkSettings n k t r s := g in
      match c with
      | "l"%char => take_settings l (mkSettings a k t r s)
      | "c"%char => take_settings l (mkSettings n a t r s)
      | "t"%char => take_settings l (mkSettings n k a r s)
      | "r"%char => take_settings l (mkSettings n k t a s)
      | "s"%char => take_settings l (mkSettings n k t r a)
      | "h"%char => inl 0
      | _ => inl 2
      end
  end.
(** visualize.sh:62-63; the tab is the one that begins the second line *)
Definition draw_text (x y full_width full_height width height : list Z) : list Z :=
  chars "line " ++ x ++ chars "," ++ height ++ chars " " ++ full_width ++ chars "," ++ height ++ chars " " ++ [9] ++
  chars " line " ++ width ++ chars "," ++ y ++ chars " " ++ width ++ chars "," ++ full_height.
(** visualize.sh:1-64.  [env_resdet], [env_spec]: the variables resdet_opts and spec_opts of the environment *)
Definition visualize (C : commands) (env_resdet env_spec : string) (args : list string) : ending :=
  if negb (v_has C "resdet" && v_has C "spec" && v_has C "magick") then Stopped 1
  else
    let '(evs, operands) := getopt visualize_options false args in
    match take_settings evs (default_settings env_resdet env_spec) with
    | inl status => Stopped status
    | inr g =>
        let image := hd "" operands in
        let output := nth 1 operands "" in
        if String.eqb output "" then Stopped 2
        else
          match read_two (v_identify C image) with
          | None => Stopped 1
          | Some (full_width, full_height) =>
              match read_two (v_resdet C (words (g_resdet g) ++ ["-v"; "1"; "--"; image])) with
              | None => Stopped 1
              | Some (width, height) =>
                  match variable full_width, variable full_height, variable (chars (g_length g)) with
                  | Some fw, Some fh, Some n =>
                      Run (words (g_spec g) ++ ["--"; image; "-"])
                          ["-"; "-stroke"; g_color g; "-strokewidth"; g_thickness g]
                          (draw_text (integer (fw - n)) (integer (fh - n)) full_width full_height width height) output
                  | _, _, _ => Expression
                  end
              end
          end
    end.
