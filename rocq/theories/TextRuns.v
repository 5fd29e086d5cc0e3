(** The text of whole runs. *)
From Coq Require Import Ascii String Reals Lra Permutation Sorted.
From Flocq Require Import Core IEEE754.BinarySingleNaN IEEE754.Binary IEEE754.Bits.
From Verif Require ErrorProofs.
From Verif Require Import Base BaseProofs Flt FltProofs RoundProofs Util Methods Analysis History Spec SpecAnalysis SpecUtil SpecReport UtilProofs MethodsProofs AnalysisProofs ResultsProofs ClientProofs AnalysisClaims
  Stdio Pgm Pfm Y4m SpecFormats ScanProofs Image ImageHistory SpecImage Cli SpecCli CliProofs CliRun CliClaims Tools Printf SpecText PrintProofs TextProofs.
Open Scope string_scope.
Open Scope list_scope.
Open Scope Z_scope.

Lemma reported_results E m w h p imgs Ds len l : client_ok E w h p -> countable imgs -> reported E m w h p imgs Ds len l ->
  Forall (fun r => 0 <= r_index r /\ ffinite (r_conf r) = true) l /\ Forall confident (removelast l) /\ l = removelast l ++ [own_size len] /\
  (forall r, In r (removelast l) -> (B2R 24 128 (used_threshold m p) <= conf_real r)%R).
Proof.
  intros HC CT R. destruct (list_order_claim _ _ _ _ _ _ _ _ _ HC CT R) as (_ & others & EQ & OT).
  assert (RL : removelast l = others) by (rewrite EQ; apply removelast_last). rewrite RL.
  assert (L0 : 0 <= len) by (destruct HC as (_ & W & H & _); inversion R; subst; lia).
  assert (RG : 0 <= used_range (e_cfg E) m p).
  { destruct (effective_used E w h m p HC) as (U1 & _). rewrite <- U1. pose proof (client_valid _ _ _ _ HC) as V. destruct (effective_ok (e_cfg E) (the_method m) p (eo_config _ (proj1 HC)) V) as (PO & _). pose proof (po_range _ PO). lia. }
  assert (NN : forall r, In r l -> 0 <= r_index r).
  { intros r I. destruct (window_only_claim _ _ _ _ _ _ _ _ _ HC CT R r I) as [->|B]; [exact L0|lia]. }
  assert (NO : forall r, In r others -> r <> own_size len) by (intros r I X; destruct (OT r I) as (N & _); apply N; rewrite X; reflexivity).
  split; [|split; [|split; [exact EQ|]]].
  - apply Forall_forall. intros r I. split; [apply NN; exact I|]. apply (confidence_range_claim _ _ _ _ _ _ _ _ _ HC CT R r I).
  - apply Forall_forall. intros r I. assert (IL : In r l) by (rewrite EQ; apply in_or_app; left; exact I).
    destruct (confidence_range_claim _ _ _ _ _ _ _ _ _ HC CT R r IL) as (F & [X|((_ & U) & _)]); [elim (NO r I X)|].
    constructor; [apply NN; exact IL|exact F| |exact U]. destruct (reported_sign _ _ _ _ _ _ _ _ _ _ HC CT R IL) as [X|S]; [elim (NO r I X)|exact S].
  - intros r I. assert (IL : In r l) by (rewrite EQ; apply in_or_app; left; exact I).
    destruct (confidence_range_claim _ _ _ _ _ _ _ _ _ HC CT R r IL) as (F & [X|((B & _) & _)]); [elim (NO r I X)|exact B].
Qed.

(** what is known of a run that prints *)
Record printed_run (verbosity : Z) (t : list Z) (width height : Z) (rw rh : list rdres) : Prop := {
  pr_text : exists se, t = text se (printed verbosity width height rw rh);
  pr_size : 0 <= width /\ 0 <= height;
  pr_rw : Forall (fun r => 0 <= r_index r /\ ffinite (r_conf r) = true) rw;
  pr_rh : Forall (fun r => 0 <= r_index r /\ ffinite (r_conf r) = true) rh;
  pr_w : Forall confident (removelast rw);
  pr_h : Forall confident (removelast rh);
  pr_own_w : rw = removelast rw ++ [own_size width];
  pr_own_h : rh = removelast rh ++ [own_size height]
}.
Lemma prints_run verbosity t width height rw rh : prints verbosity t width height rw rh -> printed_run verbosity t width height rw rh.
Proof.
  intros (R & E & Y & T & se & self & args & w & o & m & blk & p & input & w1 & x & w' & used & EO & MO & IN & V & Q & TX & D).
  destruct (run_results_claim R E Y T self args w o m blk p input w1 EO MO IN) as (x2 & w2 & Q2 & C). rewrite Q in Q2. inversion Q2; subst x2 w2. clear Q2.
  destruct C as [(width' & height' & used' & rw' & rh' & D' & _ & XO & _)|(N & _)]; [|elim (N _ _ _ _ _ D)].
  destruct (detects_det _ _ _ _ _ _ _ _ _ _ _ _ _ _ _ _ _ _ D D') as (<- & <- & <- & <- & <-).
  destruct (run_reported_claim _ _ _ _ _ _ _ _ _ _ _ _ _ _ _ _ _ _ EO MO IN D) as (HC & CT & _ & R1 & R2).
  destruct (reported_results _ _ _ _ _ _ _ _ _ HC CT R1) as (A1 & A2 & A3 & _). destruct (reported_results _ _ _ _ _ _ _ _ _ HC CT R2) as (B1 & B2 & B3 & _).
  constructor; auto. - exists se. rewrite TX, XO, V. reflexivity. - destruct HC as (_ & W & H & _). lia.
Qed.
Lemma best_nonneg l : Forall (fun r => 0 <= r_index r /\ ffinite (r_conf r) = true) l -> 0 <= best l.
Proof. intros F. destruct F as [|r l (N & _) _]; [cbn; lia|exact N]. Qed.

(** ** Each verbosity *)
Lemma brief_run t width height rw rh : printed_run 1 t width height rw rh ->
  exists tw th, t = tw ++ [32] ++ th ++ [10] /\ numeral tw (best rw) /\ numeral th (best rh).
Proof.
  intros [(se & ->) _ W H _ _ _ _]. exists (number (best rw)), (number (best rh)). split; [|split; apply number_numeral, best_nonneg; assumption].
  unfold printed. cbn. rewrite ?app_nil_r. reflexivity.
Qed.
Lemma list_run v t width height rw rh : v = 2 \/ v = 3 -> printed_run v t width height rw rh ->
  exists tw th, t = tw ++ [10] ++ th ++ [10] /\ listed v rw tw /\ listed v rh th.
Proof.
  intros V [(se & ->) _ W H _ _ _ _]. exists (text se (flat_map (entry v) rw)), (text se (flat_map (entry v) rh)).
  split; [|split; apply listed_text; assumption]. unfold printed.
  replace (v =? 0) with false by lia. replace (v =? 1) with false by lia. replace ((v =? 2) || (v =? 3))%bool with true by lia.
  rewrite !text_app. reflexivity.
Qed.
Lemma own_only_iff v t width height rw rh : printed_run v t width height rw rh ->
  own_only rw rh = (Nat.max (length (removelast rw)) (length (removelast rh)) =? 0)%nat.
Proof.
  intros P. unfold own_only. rewrite (pr_own_w _ _ _ _ _ _ P) at 1. rewrite (pr_own_h _ _ _ _ _ _ P) at 1. rewrite !app_length. cbn [length].
  destruct (length (removelast rw)), (length (removelast rh)); cbn; rewrite ?Nat.add_1_r; reflexivity.
Qed.
Lemma table_run v t width height rw rh : ~ 0 <= v <= 3 -> printed_run v t width height rw rh ->
  exists s ls u, t = s ++ u /\ summary_text width height rw rh s /\
    rows_text (removelast rw) (removelast rh) 0 (Nat.max (length (removelast rw)) (length (removelast rh))) ls u /\
    (Forall narrow (removelast rw) -> Forall (fun l => length l = 17%nat) ls).
Proof.
  intros V [(se & ->) (PW & PH) W H CW CH OW OH]. unfold printed.
  replace (v =? 0) with false by lia. replace (v =? 1) with false by lia. replace ((v =? 2) || (v =? 3))%bool with false by lia.
  set (n := Nat.max (length (removelast rw)) (length (removelast rh))). rewrite app_assoc, text_app.
  eexists _, (map (left_bytes (removelast rw)) (seq 0 n)), _. split; [reflexivity|].
  split; [|split; [apply table_rows; assumption|apply left_aligned; assumption]].
  exists (number width), (number height), (number (best rw)), (number (best rh)).
  repeat (split; [apply number_numeral; try assumption; apply best_nonneg; assumption|]).
  rewrite text_app. destruct (own_only rw rh); cbn -[number chars]; rewrite ?app_nil_r, <- ?app_assoc; reflexivity.
Qed.

(** ** The text determines the results *)
Lemma Forall2_nth {A} (P : A -> A -> Prop) : forall l l',
  (forall k, match nth_error l k, nth_error l' k with Some a, Some b => P a b | None, None => True | _, _ => False end) -> Forall2 P l l'.
Proof.
  induction l as [|a l IH]; intros [|b l'] H; [constructor|elim (H O)|elim (H O)|]. constructor; [exact (H O)|]. apply IH. intros k. exact (H (S k)).
Qed.
Lemma rows_det w h w' h' i n ls t : rows_text w h i n ls t -> forall n' ls', rows_text w' h' i n' ls' t ->
  n = n' /\ forall k, (i <= k < i + n)%nat ->
    (match nth_error w k, nth_error w' k with Some r, Some r' => same_cell r r' | None, None => True | _, _ => False end) /\
    (match nth_error h k, nth_error h' k with Some r, Some r' => same_cell r r' | None, None => True | _, _ => False end).
Proof.
  assert (NE : forall w h i left t u, row_text (nth_error w i) (nth_error h i) left t -> t ++ u <> []).
  { intros w1 h1 j left t1 u (_ & TH) E. destruct (nth_error h1 j) as [r|]; [destruct TH as (c & _ & ->)|subst t1]; destruct left; try discriminate; destruct c; discriminate. }
  induction 1 as [i|i n left t ls u RT _ IH]; intros n' ls' H'.
  - inversion H' as [|i0 n0 left' t' ls0 u' RT' RS' Q1 Q2 Q3 Q4]; subst; [split; [reflexivity|lia]|]. elim (NE _ _ _ _ _ u' RT'). auto.
  - inversion H' as [i0 Q1 Q2 Q3|i0 n0 left' t' ls0 u' RT' RS' Q1 Q2 Q3 Q4]; subst; [elim (NE _ _ _ _ _ u RT); auto|].
    symmetry in Q4. destruct (row_cut _ _ _ _ _ _ _ _ _ _ RT RT' Q4) as (RW & RH & ->). destruct (IH _ _ RS') as (-> & ALL). split; [reflexivity|].
    intros k K. destruct (Nat.eq_dec k i) as [->|NK]; [split; assumption|]. apply ALL. lia.
Qed.
Lemma rows_lists w h w' h' ls ls' t :
  rows_text w h 0 (Nat.max (length w) (length h)) ls t -> rows_text w' h' 0 (Nat.max (length w') (length h')) ls' t -> Forall2 same_cell w w' /\ Forall2 same_cell h h'.
Proof.
  intros H H'. destruct (rows_det _ _ _ _ _ _ _ _ H _ _ H') as (N & ALL). split; apply Forall2_nth; intros k.
  - destruct (Nat.lt_ge_cases k (Nat.max (length w) (length h))) as [L|G]; [apply (ALL k); lia|].
    rewrite (proj2 (nth_error_None w k)) by lia. rewrite (proj2 (nth_error_None w' k)) by lia. exact I.
  - destruct (Nat.lt_ge_cases k (Nat.max (length w) (length h))) as [L|G]; [apply (ALL k); lia|].
    rewrite (proj2 (nth_error_None h k)) by lia. rewrite (proj2 (nth_error_None h' k)) by lia. exact I.
Qed.
Lemma same_cell_close r r' : confident r -> confident r' -> same_cell r r' -> close_to (101 / 1000000) r r'.
Proof.
  intros C C' (I & V). split; [exact I|]. destruct (percentage_near r C) as (P & N), (percentage_near r' C') as (P' & N').
  unfold rounded in V. rewrite !Rabs_pos_eq in V by assumption. change (10 ^ Z.of_nat 2) with 100 in V.
  pose proof (Znearest_half (fun x => negb (Z.even x)) (percentage r * IZR 100)) as B. pose proof (Znearest_half (fun x => negb (Z.even x)) (percentage r' * IZR 100)) as B'.
  rewrite V in B. apply Rabs_le_inv in B, B', N, N'. apply Rabs_le. split; lra.
Qed.
Lemma close_lists w w' : Forall confident w -> Forall confident w' -> Forall2 same_cell w w' -> Forall2 (close_to (101 / 1000000)) w w'.
Proof.
  intros C C' F. revert C C'. induction F as [|r r' w w' S _ IH]; intros C C'; [constructor|]. inversion C; inversion C'; subst. constructor; [apply same_cell_close; assumption|auto].
Qed.
Lemma cut_numeral t t' v v' c c' u u' : numeral t v -> numeral t' v' -> ~ digit c -> ~ digit c' -> t ++ c :: u = t' ++ c' :: u' -> v = v' /\ c = c' /\ u = u'.
Proof.
  intros (S & _) (S' & _) N N' E. destruct (cut_digits _ _ _ _ _ _ (spells_digits _ _ S) (spells_digits _ _ S') N N' E) as (<- & -> & ->). rewrite (spells_det _ _ _ S S'). auto.
Qed.
Lemma own_size_close d len : (0 <= d)%R -> close_to d (own_size len) (own_size len).
Proof. intros D. split; [reflexivity|]. replace (conf_real (own_size len) - conf_real (own_size len))%R with 0%R by ring. rewrite Rabs_R0. exact D. Qed.
Lemma cut_line a a' b b' : ~ In 10 a -> ~ In 10 a' -> a ++ 10 :: b = a' ++ 10 :: b' -> a = a' /\ b = b'.
Proof.
  revert a'. induction a as [|c a IH]; intros [|c' a'] N N' E; cbn in E; inversion E; subst; auto.
  - elim N'. left. reflexivity.
  - elim N. left. reflexivity.
  - destruct (IH a') as (-> & ->); [intros X; apply N; right; exact X|intros X; apply N'; right; exact X|assumption|auto].
Qed.
Lemma digits_no_newline t : Forall digit t -> ~ In 10 t.
Proof. intros F I. rewrite Forall_forall in F. specialize (F _ I). unfold digit in F. lia. Qed.
Lemma listed_no_newline v l t : listed v l t -> ~ In 10 t.
Proof.
  induction 1 as [|r l t c u (N & _) C _ IH]; [intros []|]. intros I. apply in_app_or in I. destruct I as [I|I]; [exact (digits_no_newline _ (spells_digits _ _ N) I)|].
  apply in_app_or in I. destruct I as [I|[I|I]]; [|discriminate|contradiction]. destruct (v =? 3); [|subst c; contradiction].
  destruct C as (s & x & k & -> & (ti & tf & i & f & (TI & _) & TF & _ & -> & _) & _). destruct I as [I|I]; [discriminate|]. apply in_app_or in I.
  destruct I as [I|I]; [destruct s; [destruct I as [I|[]]; discriminate|contradiction]|]. apply in_app_or in I.
  destruct I as [I|[I|I]]; [exact (digits_no_newline _ (spells_digits _ _ TI) I)|discriminate|exact (digits_no_newline _ (spells_digits _ _ TF) I)].
Qed.
Lemma best_hd l : best l = hd 0 (map r_index l).
Proof. destruct l; reflexivity. Qed.
Lemma Forall2_index (P : rdres -> rdres -> Prop) l l' : (forall r r' : rdres, P r r' -> r_index r = r_index r') -> Forall2 P l l' -> map r_index l = map r_index l'.
Proof. intros H. induction 1; [reflexivity|]. cbn. f_equal; auto. Qed.
Lemma list_runs_agree v t width height rw rh width' height' rw' rh' : v = 2 \/ v = 3 -> printed_run v t width height rw rh -> printed_run v t width' height' rw' rh' ->
  map r_index rw = map r_index rw' /\ map r_index rh = map r_index rh' /\
  (v = 3 -> Forall2 (close_to (/ IZR (10 ^ 6))) rw rw' /\ Forall2 (close_to (/ IZR (10 ^ 6))) rh rh').
Proof.
  intros V P P'. destruct (list_run v t _ _ _ _ V P) as (tw & th & E & LW & LH). destruct (list_run v t _ _ _ _ V P') as (tw' & th' & E' & LW' & LH'). rewrite E in E'. cbn in E'.
  destruct (cut_line _ _ _ _ (listed_no_newline _ _ _ LW) (listed_no_newline _ _ _ LW') E') as (<- & E2).
  destruct (cut_line _ _ _ _ (listed_no_newline _ _ _ LH) (listed_no_newline _ _ _ LH') E2) as (<- & _).
  destruct (listed_det _ _ _ _ LW LW') as (A & A3). destruct (listed_det _ _ _ _ LH LH') as (B & B3). split; [exact A|]. split; [exact B|]. intros W. split; [exact (A3 W)|exact (B3 W)].
Qed.
Lemma table_runs_agree v t width height rw rh width' height' rw' rh' : ~ 0 <= v <= 3 -> printed_run v t width height rw rh -> printed_run v t width' height' rw' rh' ->
  width = width' /\ height = height' /\ Forall2 (close_to (101 / 1000000)) rw rw' /\ Forall2 (close_to (101 / 1000000)) rh rh'.
Proof.
  intros V P P'. destruct (table_run v t _ _ _ _ V P) as (s & ls & u & E & SM & RT & _). destruct (table_run v t _ _ _ _ V P') as (s' & ls' & u' & E' & SM' & RT' & _).
  destruct SM as (tw & th & bw & bh & NW & NH & NB & NC & ->), SM' as (tw' & th' & bw' & bh' & NW' & NH' & NB' & NC' & ->). rewrite E in E'. rewrite <- !app_assoc in E'. clear E.
  assert (DX : ~ digit 120) by (unfold digit; lia). assert (D10 : ~ digit 10) by (unfold digit; lia). assert (D32 : ~ digit 32) by (unfold digit; lia).
  apply app_inv_head in E'. change (chars "x") with [120] in E'. cbn [app] in E'.
  destruct (cut_numeral _ _ _ _ _ _ _ _ NW NW' DX DX E') as (<- & _ & E1). destruct (cut_numeral _ _ _ _ _ _ _ _ NH NH' D10 D10 E1) as (<- & _ & E2).
  apply app_inv_head in E2. destruct (cut_numeral _ _ _ _ _ _ _ _ NB NB' DX DX E2) as (_ & _ & E3).
  assert (U : u = u').
  { destruct (own_only rw rh), (own_only rw' rh').
    - change (chars " (not upsampled)") with (32 :: chars "(not upsampled)") in E3. cbn [app] in E3.
      destruct (cut_numeral _ _ _ _ _ _ _ _ NC NC' D32 D32 E3) as (_ & _ & E4). apply app_inv_head in E4. inversion E4. reflexivity.
    - change (chars " (not upsampled)") with (32 :: chars "(not upsampled)") in E3. cbn [app] in E3. destruct (cut_numeral _ _ _ _ _ _ _ _ NC NC' D32 D10 E3) as (_ & X & _). discriminate.
    - change (chars " (not upsampled)") with (32 :: chars "(not upsampled)") in E3. cbn [app] in E3. destruct (cut_numeral _ _ _ _ _ _ _ _ NC NC' D10 D32 E3) as (_ & X & _). discriminate.
    - cbn [app] in E3. destruct (cut_numeral _ _ _ _ _ _ _ _ NC NC' D10 D10 E3) as (_ & _ & E4). apply app_inv_head in E4. exact E4. }
  subst u'. split; [reflexivity|]. split; [reflexivity|]. destruct (rows_lists _ _ _ _ _ _ _ RT RT') as (FW & FH).
  rewrite (pr_own_w _ _ _ _ _ _ P), (pr_own_w _ _ _ _ _ _ P'), (pr_own_h _ _ _ _ _ _ P), (pr_own_h _ _ _ _ _ _ P').
  split; (apply Forall2_app; [apply close_lists; [apply P|apply P'|assumption]|constructor; [apply own_size_close; lra|constructor]]).
Qed.
Lemma runs_agree v t width height rw rh width' height' rw' rh' : v <> 0 -> printed_run v t width height rw rh -> printed_run v t width' height' rw' rh' ->
  best rw = best rw' /\ best rh = best rh'.
Proof.
  intros V P P'. rewrite !best_hd. destruct (Z.eq_dec v 1) as [->|V1].
  - destruct (brief_run _ _ _ _ _ P) as (tw & th & E & NW & NH). destruct (brief_run _ _ _ _ _ P') as (tw' & th' & E' & NW' & NH'). rewrite E in E'. cbn in E'.
    assert (D10 : ~ digit 10) by (unfold digit; lia). assert (D32 : ~ digit 32) by (unfold digit; lia). rewrite <- !best_hd.
    destruct (cut_numeral _ _ _ _ _ _ _ _ NW NW' D32 D32 E') as (-> & _ & E2). destruct (cut_numeral _ _ _ _ _ _ _ _ NH NH' D10 D10 E2) as (-> & _ & _). auto.
  - destruct (Z.eq_dec v 2) as [V2|V2]; [|destruct (Z.eq_dec v 3) as [V3|V3]].
    + destruct (list_runs_agree v t _ _ _ _ _ _ _ _ ltac:(lia) P P') as (-> & -> & _). auto.
    + destruct (list_runs_agree v t _ _ _ _ _ _ _ _ ltac:(lia) P P') as (-> & -> & _). auto.
    + destruct (table_runs_agree v t _ _ _ _ _ _ _ _ ltac:(lia) P P') as (_ & _ & A & B).
      rewrite (Forall2_index _ _ _ (fun r r' H => proj1 H) A), (Forall2_index _ _ _ (fun r r' H => proj1 H) B). auto.
Qed.

(** ** Thresholds in percent *)
Definition option_threshold (d : f64) : f32 := f32_of_f64 (ddiv d (f64_of_Z 100)).
Definition no_threshold (s : setting) : Prop := match s with Threshold _ => False | _ => True end.
Lemma set_all_keeps : forall l q es p, Forall no_threshold l -> set_all (Some q) l = (es, Some p) -> p_threshold p = p_threshold q.
Proof.
  induction l as [|s l IH]; intros q es p F H; [inversion H; reflexivity|]. inversion F as [|? ? NS FL]; subst. cbn [set_all] in H.
  assert (SP : exists e q', set_param (Some q) s = (e, Some q') /\ p_threshold q' = p_threshold q).
  { destruct s as [v|t|v]; [|contradiction|]; cbn [set_param]; [unfold resdet_parameters_set_range|unfold resdet_parameters_set_compression_filter];
      match goal with |- context [if ?b then _ else _] => destruct b end; eexists _, _; split; reflexivity. }
  destruct SP as (e & q' & SP & PT). rewrite SP in H. destruct (set_all (Some q') l) as (es' & p') eqn:R. inversion H; subst. rewrite <- PT. exact (IH q' es' p FL R).
Qed.
Lemma auto_filter_threshold o input p : p_threshold (auto_filter o input p) = p_threshold p.
Proof.
  unfold auto_filter. destruct (o_filter o) as [f|]; [|reflexivity]. repeat (destruct f as [|[[] [] [] [] [] [] [] []] f]; try reflexivity). destruct (after_last dot input) as [e|]; [|reflexivity].
  unfold resdet_parameters_set_compression_filter. match goal with |- context [if ?b then _ else _] => destruct b end; reflexivity.
Qed.
Lemma invoked_threshold R E T self args w o m blk p input w1 a : invoked R E T self args w o m blk p input w1 -> o_threshold o = Some a ->
  exists d, t_strtod T a = Some d /\ unit_number (option_threshold d) /\ used_threshold (Some m) (Some (auto_filter o input p)) = option_threshold d.
Proof.
  intros (evs & rest & p0 & l & _ & _ & _ & _ & (lx & lr & lf & -> & AX & AR & AF) & SA & _) OT. unfold asked in AX. rewrite OT in AX. destruct AX as (d & TD & ->).
  exists d. split; [exact TD|]. cbn [app length repeat] in SA. cbn [set_all] in SA. fold (option_threshold d) in SA.
  assert (NT : Forall no_threshold (lr ++ lf)).
  { apply Forall_app. split; [unfold asked in AR; destruct (o_range o); [destruct AR as (v & _ & ->)|subst lr]; repeat constructor|].
    unfold asked in AF. match type of AF with match ?x with _ => _ end => destruct x; [destruct AF as (v & _ & ->)|subst lf]; repeat constructor end. }
  destruct (set_param_ok p0 (Threshold (option_threshold d)) I) as (OK & BAD).
  assert (U : unit_number (option_threshold d) /\ p_threshold p = option_threshold d).
  { destruct (set_param (Some p0) (Threshold (option_threshold d))) as (e & q) eqn:Q. destruct (set_all q (lr ++ lf)) as (es & q2) eqn:Q2. inversion SA; subst e q2.
    pose proof (documented_dec (Threshold (option_threshold d))) as DC.
    destruct DC as [D|D]; [|specialize (BAD D); discriminate BAD]. specialize (OK D). injection OK as Q0. rewrite Q0 in Q2. split; [exact D|]. rewrite (set_all_keeps _ _ _ _ NT Q2). reflexivity. }
  destruct U as (U & PT). split; [exact U|]. unfold used_threshold. rewrite auto_filter_threshold, PT.
  destruct (fsign (option_threshold d)) eqn:SG; [|reflexivity]. cbn [andb]. assert (Z0 : feq (option_threshold d) (f32_of_Z 0) = true); [|rewrite Z0; reflexivity].
  destruct U as (UF & U0 & _). revert UF U0 SG. generalize (option_threshold d). intros x. destruct x as [s|s|s pl H|s mm e H]; try discriminate; intros _ U0 SG; [destruct s; reflexivity|].
  exfalso. cbn in SG. subst s. cbn [B2R cond_Zopp] in U0. assert (X : (F2R (Float radix2 (Z.neg mm) e) < 0)%R) by (apply F2R_lt_0; reflexivity). change (0 <= F2R (Float radix2 (Z.neg mm) e))%R in U0. lra.
Qed.
Lemma rnd64_error r Y : (0 <= r <= Y)%R -> (1 <= Y)%R -> (Rabs (rnd64 r - r) <= Y * / 1073741824)%R.
Proof.
  intros (P & B) Y1. pose proof (ErrorProofs.rnd64_err r P) as E. eapply Rle_trans; [exact E|].
  assert (B1 : (bpow radix2 (-53) <= / 2147483648)%R) by (apply Rle_trans with (bpow radix2 (-31)); [apply bpow_le; lia|right; reflexivity]).
  assert (B2 : (bpow radix2 (-1075) <= / 2147483648)%R) by (apply Rle_trans with (bpow radix2 (-31)); [apply bpow_le; lia|right; reflexivity]).
  assert (bpow radix2 (-53) * r <= / 2147483648 * Y)%R by (apply Rmult_le_compat; [apply bpow_ge_0|exact P|exact B1|exact B]). lra.
Qed.
Lemma threshold_low T a k d : reads_numerals T -> percent_numeral a k -> t_strtod T a = Some d -> unit_number (option_threshold d) ->
  (IZR k / 10000 - / 4000000 <= B2R 24 128 (option_threshold d))%R.
Proof.
  intros RN (ti & tf & i & f & CA & SI & SF & L2 & L13 & K) TD (UF & U0 & U1).
  destruct (RN a ti tf i f CA SI SF ltac:(lia)) as (d' & TD' & DF & DS & DV). rewrite TD in TD'. inversion TD'; subst d'. clear TD'.
  assert (KQ : (IZR (i * 10 ^ Z.of_nat (length tf) + f) / IZR (10 ^ Z.of_nat (length tf)) = IZR k / 100)%R).
  { rewrite K, mult_IZR. assert (PP : forall n, (0 < IZR (10 ^ Z.of_nat n))%R) by (intros n; apply IZR_lt, Z.pow_pos_nonneg; lia).
    assert (SP : IZR 100 = (IZR (10 ^ Z.of_nat (length tf)) * IZR (10 ^ Z.of_nat (2 - length tf)))%R).
    { rewrite <- mult_IZR, <- Z.pow_add_r by lia. f_equal. replace (Z.of_nat (length tf) + Z.of_nat (2 - length tf)) with 2 by lia. reflexivity. }
    pose proof (PP (length tf)). pose proof (PP (2 - length tf)%nat). rewrite SP. field. split; lra. }
  rewrite KQ in DV. change (round radix2 (FLT_exp (-1074) 53) ZnearestE (IZR k / 100)) with (rnd64 (IZR k / 100)) in DV.
  assert (K0 : 0 <= k).
  { rewrite K. pose proof (spells_nonneg _ _ SI). assert (0 <= f) by (destruct SF as [(_ & ->)|SF]; [lia|exact (spells_nonneg _ _ SF)]).
    apply Z.mul_nonneg_nonneg; [|apply Z.pow_nonneg; lia]. apply Z.add_nonneg_nonneg; [apply Z.mul_nonneg_nonneg; [assumption|apply Z.pow_nonneg; lia]|assumption]. }
  apply IZR_le in K0. set (q := (IZR k / 100)%R) in *. assert (Q0 : (0 <= q)%R) by (unfold q; lra).
  assert (DD : dval d (rnd64 q)) by (split; [exact DF|split; [exact DS|exact DV]]).
  pose proof (f64_of_Z_exact 100 ltac:(lia)) as D100.
  (* d / 100 stays far from overflow *)
  assert (KB : (q <= bpow radix2 60)%R).
  { unfold q. assert (KU : k < 10 ^ 18).
    { rewrite K. assert (GU : forall t v, spells t v -> v < 10 ^ Z.of_nat (length t)).
      { induction 1 as [c D|l v c S IH D]; [unfold digit in D; cbn; lia|]. rewrite app_length. cbn [length]. rewrite Nat.add_1_r, Nat2Z.inj_succ, Z.pow_succ_r by lia. unfold digit in D. lia. }
      pose proof (GU _ _ SI) as GI. pose proof (spells_nonneg _ _ SI).
      assert (GI2 : i < 10 ^ 13) by (eapply Z.lt_le_trans; [exact GI|apply Z.pow_le_mono_r; lia]).
      assert (GF : 0 <= f < 100). { destruct SF as [(_ & ->)|SF]; [lia|]. split; [exact (spells_nonneg _ _ SF)|]. pose proof (GU _ _ SF). assert (10 ^ Z.of_nat (length tf) <= 10 ^ 2) by (apply Z.pow_le_mono_r; lia). lia. }
      destruct (length tf) as [|[|[|n]]] eqn:LT; cbn [Z.of_nat Nat.sub Pos.of_succ_nat Pos.succ]; try lia. }
    apply Rle_trans with (IZR (10 ^ 18) / 100)%R; [apply IZR_lt in KU; lra|]. change (bpow radix2 60) with (IZR (2 ^ 60)). apply Rmult_le_reg_r with 100%R; [lra|].
    replace (IZR (10 ^ 18) / 100 * 100)%R with (IZR (10 ^ 18)) by field. rewrite <- mult_IZR. apply IZR_le. vm_compute. discriminate. }
  assert (R64 : (0 <= rnd64 q <= bpow radix2 60)%R).
  { split; [apply rnd64_nonneg; exact Q0|]. rewrite <- (rnd64_id (bpow radix2 60)) by (apply fmt64_bpow; lia). apply rnd64_le. exact KB. }
  assert (DV100 : dval (ddiv d (f64_of_Z 100)) (rnd64 (rnd64 q / 100))).
  { apply ddiv_val; [exact DD|exact D100|lra|]. apply Rle_trans with (bpow radix2 60); [|apply bpow_le; lia]. lra. }
  assert (R64b : (0 <= rnd64 (rnd64 q / 100) <= bpow radix2 60)%R).
  { split; [apply rnd64_nonneg; lra|]. rewrite <- (rnd64_id (bpow radix2 60)) by (apply fmt64_bpow; lia). apply rnd64_le. lra. }
  destruct (f32_of_f64_val _ _ DV100) as (_ & _ & FV); [apply Rle_trans with (bpow radix2 60); [apply R64b|apply bpow_le; lia]|].
  fold (option_threshold d) in FV. change (B2R 24 128 (option_threshold d) = rnd32 (rnd64 (rnd64 q / 100))) in FV. rewrite FV in *.
  destruct (Rle_dec q 200) as [QS|QL].
  - pose proof (rnd64_error q 200 (conj Q0 QS) ltac:(lra)) as E1. apply Rabs_le_inv in E1.
    assert (Q1 : (0 <= rnd64 q / 100 <= 3)%R) by lra. pose proof (rnd64_error (rnd64 q / 100) 3 Q1 ltac:(lra)) as E2. apply Rabs_le_inv in E2.
    assert (Q2 : (Rabs (rnd64 (rnd64 q / 100)) <= 4)%R) by (rewrite Rabs_pos_eq by lra; lra).
    pose proof (rnd32_err _ 4 Q2 ltac:(lra)) as E3. apply Rabs_le_inv in E3. unfold ulp1 in E3. unfold q in *. lra.
  - exfalso. assert (B1 : (200 <= rnd64 q)%R) by (rewrite <- (rnd64_Z 200) by lia; apply rnd64_le; lra).
    assert (B2 : (2 <= rnd64 (rnd64 q / 100))%R) by (rewrite <- (rnd64_Z 2) by lia; apply rnd64_le; lra).
    assert (B3 : (2 <= rnd32 (rnd64 (rnd64 q / 100)))%R) by (rewrite <- (rnd32_Z 2) by lia; apply rnd32_le; lra). lra.
Qed.
