(** Proofs about src/visualize.sh. *)
From Coq Require Import Ascii String Lia.
From Verif Require Import Base Flt Util Methods Analysis Stdio Pgm Pfm Y4m Image Cli Printf Visualize Spec SpecFormats SpecCli SpecText SpecVisualize.
From Verif Require Import ScanProofs PrintProofs.
Import ListNotations.
Open Scope string_scope.
Open Scope list_scope.
Open Scope Z_scope.

(** ** Words *)
Lemma chars_back s : of_chars (chars s) = s.
Proof.
  unfold of_chars, chars. rewrite map_map.
  rewrite (map_ext _ (fun a => a)); [rewrite map_id; apply string_of_list_ascii_of_string|].
  intros a. rewrite Nat2Z.id. apply ascii_nat_embedding.
Qed.
Lemma chars_app s t : chars (s ++ t) = chars s ++ chars t.
Proof. unfold chars. induction s as [|c s IH]; [reflexivity|]. cbn. f_equal. exact IH. Qed.
Lemma ifs_iff c : is_ifs c = false <-> ~ In c [9; 10; 32].
Proof.
  unfold is_ifs. rewrite !Bool.orb_false_iff, !Z.eqb_neq. cbn [In]. intuition lia.
Qed.
Lemma words_skip l : Forall (fun c => ~ In c [9; 10; 32]) l -> forall r acc, words_of (l ++ r) acc = words_of r (acc ++ l).
Proof.
  induction 1 as [|c l C F IH]; intros r acc; [rewrite app_nil_r; reflexivity|].
  cbn [app words_of]. apply ifs_iff in C. rewrite C, IH. rewrite <- app_assoc. reflexivity.
Qed.
Lemma words_worded s ws : worded s ws -> words s = ws.
Proof.
  intros [F ->]. unfold words. enough (E : words_of (chars (String.concat " " ws)) [] = map chars ws).
  { rewrite E, map_map. erewrite map_ext; [apply map_id|]. intros a. apply chars_back. }
  induction F as [|w ws W F IH]; [reflexivity|]. destruct W as [N A].
  assert (NE : chars w <> []) by (destruct w; [contradiction|discriminate]).
  destruct ws as [|w' ws].
  - cbn [String.concat]. rewrite <- (app_nil_r (chars w)), (words_skip _ A). cbn [words_of app map].
    destruct (chars w) eqn:E; [contradiction|reflexivity].
  - change (String.concat " " (w :: w' :: ws)) with (w ++ " " ++ String.concat " " (w' :: ws))%string.
    rewrite !chars_app, (words_skip _ A). cbn [app]. change (chars " ") with [32]. cbn [app words_of is_ifs].
    change (is_ifs 32) with true. cbn iota. rewrite IH. destruct (chars w) eqn:E; [contradiction|]. cbn [map]. rewrite E. reflexivity.
Qed.

(** ** Numbers *)
Lemma numeral_digits t v : numeral t v -> Forall digit t /\ t <> [].
Proof. intros [S _]. split; [apply (spells_digits t v S)|]. intros ->. apply spells_length in S. cbn in S. lia. Qed.
Lemma digit_ifs c : digit c -> is_ifs c = false.
Proof. unfold digit. intros D. apply ifs_iff. cbn. lia. Qed.
Lemma variable_numeral t v : numeral t v -> v < 2 ^ 63 -> variable t = Some v.
Proof.
  intros N L. destruct (numeral_digits t v N) as [F NE]. destruct N as [S Z]. pose proof (spells_value t v S) as V.
  unfold variable. destruct t as [|c l]; [contradiction|].
  assert (FB : forallb is_digit (c :: l) = true).
  { apply forallb_forall. intros x I. rewrite Forall_forall in F. apply digit_is, F, I. }
  rewrite FB, V. replace (v <? 2 ^ 63) with true by (symmetry; apply Z.ltb_lt; exact L).
  assert (B : negb (c =? 48) || match l with [] => true | _ :: _ => false end = true).
  { destruct Z as [Z|Z]; cbn in Z; [destruct l; [apply Bool.orb_true_r|discriminate]|].
    apply Bool.orb_true_iff. left. apply Bool.negb_true_iff, Z.eqb_neq. exact Z. }
  rewrite B. reflexivity.
Qed.
Lemma integer_signed z : signed (integer z) z.
Proof.
  unfold signed, integer. destruct (z <? 0) eqn:E; [|apply number_numeral; lia]. exists (number (- z)). split; [reflexivity|]. apply number_numeral. lia.
Qed.

(** ** read *)
Lemma first_line_app a r : Forall (fun c => c <> 10) a -> first_line (a ++ 10 :: r) = Some a.
Proof.
  induction 1 as [|c a C F IH]; [reflexivity|]. cbn [app first_line]. apply Z.eqb_neq in C. rewrite C, IH. reflexivity.
Qed.
Lemma span_digits a c r : Forall digit a -> is_ifs c = true ->
  take_while (fun c => negb (is_ifs c)) (a ++ c :: r) = a /\ drop_while (fun c => negb (is_ifs c)) (a ++ c :: r) = c :: r.
Proof.
  intros F C. induction F as [|d a D F [IH1 IH2]]; cbn [app take_while drop_while].
  - rewrite C. split; reflexivity.
  - rewrite (digit_ifs d D). cbn [negb]. rewrite IH1, IH2. split; reflexivity.
Qed.
Lemma drop_none a : Forall digit a -> drop_while is_ifs a = a.
Proof. intros [|d b D F]; [reflexivity|]. cbn. rewrite (digit_ifs d D). reflexivity. Qed.
Lemma read_numbers tw th w h r : numeral tw w -> numeral th h -> read_two (tw ++ [32] ++ th ++ [10] ++ r) = Some (tw, th).
Proof.
  intros W H. destruct (numeral_digits tw w W) as [FW NW]. destruct (numeral_digits th h H) as [FH NH].
  unfold read_two. cbn [app]. replace (tw ++ 32 :: th ++ 10 :: r) with ((tw ++ 32 :: th) ++ 10 :: r) by (rewrite <- app_assoc; reflexivity).
  rewrite first_line_app.
  - assert (E : drop_while is_ifs (tw ++ 32 :: th) = tw ++ 32 :: th).
    { destruct FW as [|d tw' D FW]; [contradiction|]. cbn. rewrite (digit_ifs d D). reflexivity. }
    rewrite E. destruct (span_digits tw 32 th FW eq_refl) as [E1 E2]. rewrite E1, E2. cbn [drop_while]. change (is_ifs 32) with true. cbn iota.
    rewrite (drop_none th FH), (drop_none (rev th)), rev_involutive; [reflexivity|].
    apply Forall_rev, FH.
  - apply Forall_app. split; [eapply Forall_impl; [|exact FW]; unfold digit; intros; lia|].
    constructor; [lia|]. eapply Forall_impl; [|exact FH]. unfold digit; intros; lia.
Qed.
Lemma read_nothing : read_two [] = None.
Proof. reflexivity. Qed.

(** ** Options *)
Lemma script_getopt l image output rest : Forall with_value l -> operand image ->
  getopt visualize_options false (script_line l image output rest) = (l, image :: output :: rest).
Proof.
  intros F O. unfold script_line. induction F as [|[c a] l V F IH]; cbn [flat_map app].
  - cbn [getopt]. destruct (String.eqb_spec image "--") as [E|_]; [destruct (O "-"%char "" E)|].
    destruct image as [|c s]; [reflexivity|]. destruct (ascii_dec c "-"%char) as [->|N].
    + destruct s as [|d s]; [reflexivity|]. destruct (O d s eq_refl).
    + destruct c as [[] [] [] [] [] [] [] []]; try reflexivity. destruct N. reflexivity.
  - cbn [getopt]. destruct V as [<-|[<-|[<-|[<-|[<-|[]]]]]]; cbn; rewrite IH; reflexivity.
Qed.
Lemma take_given l : Forall with_value l -> forall g, take_settings l g =
  inr (mkSettings (given l "l" (g_length g)) (given l "c" (g_color g)) (given l "t" (g_thickness g)) (given l "r" (g_resdet g)) (given l "s" (g_spec g))).
Proof.
  induction 1 as [|[c a] l V F IH]; intros [n k t r s]; [reflexivity|].
  destruct V as [<-|[<-|[<-|[<-|[<-|[]]]]]]; cbn [take_settings]; rewrite IH; unfold given; cbn [last_arg g_length g_color g_thickness g_resdet g_spec];
    f_equal; f_equal; match goal with |- context [last_arg ?c l] => destruct (last_arg c l); reflexivity end.
Qed.
Lemma script_first l c s rest d a : Forall with_value l -> Ascii.eqb c "-"%char = false ->
  match find_option visualize_options c with None => d = "?"%char /\ a = "" | Some false => d = c /\ a = "" | Some true => False end ->
  exists evs ops, getopt visualize_options false (flat_map (fun '(Opt c a) => [String "-" (String c ""); a]) l ++ String "-" (String c s) :: rest) =
    (l ++ Opt d a :: evs, ops).
Proof.
  intros F C K. induction F as [|[e b] l V F (evs & ops & IH)]; cbn [flat_map app].
  - cbn [getopt]. replace (String.eqb (String "-" (String c s)) "--") with false
      by (cbn; rewrite C; reflexivity).
    cbn [option_cluster]. destruct (find_option visualize_options c) as [[]|]; [contradiction|..]; destruct K as [-> ->];
      destruct (option_cluster visualize_options s (hd_error rest)) as [x u]; (destruct rest as [|y rest]; [do 2 eexists; reflexivity|]);
      cbn [tl]; destruct u; match goal with |- context [getopt ?o ?b ?r] => destruct (getopt o b r) as [x' o'] end; do 2 eexists; reflexivity.
  - cbn [getopt]. exists evs, ops. destruct V as [<-|[<-|[<-|[<-|[<-|[]]]]]]; cbn; cbn in IH; rewrite IH; reflexivity.
Qed.
Lemma take_stop l e evs : Forall with_value l -> forall g, exists g', take_settings (l ++ e :: evs) g = take_settings (e :: evs) g'.
Proof.
  induction 1 as [|[c a] l V F IH]; intros g; [exists g; reflexivity|]. destruct g as [n k t r s].
  destruct V as [<-|[<-|[<-|[<-|[<-|[]]]]]]; cbn [app]; apply IH.
Qed.
Lemma first_line_in s : forall a, first_line s = Some a -> In 10 s.
Proof.
  induction s as [|c s IH]; cbn [first_line]; [discriminate|]. intros a. destruct (Z.eqb_spec c 10) as [->|_]; [left; reflexivity|].
  destruct (first_line s) as [b|]; [|discriminate]. intros _. right. exact (IH b eq_refl).
Qed.
Lemma read_line s p : read_two s = Some p -> In 10 s.
Proof. unfold read_two. destruct (first_line s) as [a|] eqn:E; [|discriminate]. intros _. exact (first_line_in s a E). Qed.
Lemma visualize_at C er es l image output rest : Forall with_value l -> operand image -> output <> "" ->
  v_has C "resdet" = true -> v_has C "spec" = true -> v_has C "magick" = true ->
  visualize C er es (script_line l image output rest) =
  match read_two (v_identify C image), read_two (v_resdet C (words (given l "r" er) ++ ["-v"; "1"; "--"; image])) with
  | Some (fw, fh), Some (w, h) =>
      match variable fw, variable fh, variable (chars (given l "l" "50")) with
      | Some x, Some y, Some n =>
          Run (words (given l "s" es) ++ ["--"; image; "-"]) ["-"; "-stroke"; given l "c" "green"; "-strokewidth"; given l "t" "1"]
              (draw_text (integer (x - n)) (integer (y - n)) fw fh w h) output
      | _, _, _ => Expression
      end
  | _, _ => Stopped 1
  end.
Proof.
  intros F O N H1 H2 H3. unfold visualize. rewrite H1, H2, H3. cbn [andb negb].
  rewrite (script_getopt l image output rest F O), (take_given l F). cbn [hd nth default_settings g_length g_color g_thickness g_resdet g_spec].
  destruct (String.eqb_spec output "") as [E|_]; [contradiction|].
  destruct (read_two (v_identify C image)) as [[fw fh]|]; [|reflexivity].
  destruct (read_two (v_resdet C _)) as [[w h]|]; reflexivity.
Qed.
