(** What is printed about a size found with confidence 1. *)
From Coq Require Import Ascii String Reals Lra.
From Flocq Require Import Core IEEE754.Binary.
From Verif Require Import Base BaseProofs Flt FltProofs RoundProofs Util Methods Analysis History Spec SpecAnalysis SpecUtil SpecReport
  Stdio Pgm Pfm Y4m SpecFormats ScanProofs Image ImageHistory SpecImage Cli SpecCli Printf SpecText PrintProofs TextProofs TextRuns SpecEnd.
Open Scope string_scope.
Open Scope list_scope.
Open Scope Z_scope.

Lemma spells_bound t v : spells t v -> 0 <= v < 10 ^ Z.of_nat (length t).
Proof.
  induction 1 as [c D|l v c S IH D]; unfold digit in D; [cbn; lia|]. rewrite app_length, Nat.add_1_r, Nat2Z.inj_succ, Z.pow_succ_r by lia. lia.
Qed.
Lemma spells_unique t v : spells t v -> forall t' v', spells t' v' -> v' = v -> length t = length t' -> t = t'.
Proof.
  induction 1 as [c D|l v c S IH D]; intros t' v' S' E L; destruct S' as [c' D'|l' v' c' S1 D'].
  - f_equal. lia.
  - exfalso. apply spells_length in S1. rewrite app_length in L. cbn in L. lia.
  - exfalso. apply spells_length in S. rewrite app_length in L. cbn in L. lia.
  - unfold digit in *. assert (V : v' = v) by lia. assert (C : c' = c) by lia. subst c'. f_equal. apply (IH _ _ S1 V). rewrite !app_length in L. cbn in L. lia.
Qed.
Lemma spells_lead t v : spells t v -> hd 0 t <> 48 -> 10 ^ (Z.of_nat (length t) - 1) <= v.
Proof.
  induction 1 as [c D|l v c S IH D]; intros N; unfold digit in D; [cbn in *; lia|].
  pose proof (spells_length _ _ S) as L. destruct l as [|a l]; [elim L; reflexivity|]. cbn [hd app] in *. specialize (IH N).
  rewrite app_comm_cons, app_length. cbn [length] in *. replace (Z.of_nat (Datatypes.S (length l) + 1) - 1) with (Z.succ (Z.of_nat (Datatypes.S (length l)) - 1)) by lia.
  rewrite Z.pow_succ_r by lia. lia.
Qed.
Lemma numeral_shape t n : numeral t n -> length t = 1%nat \/ (1 <= length t)%nat /\ 10 ^ (Z.of_nat (length t) - 1) <= n.
Proof.
  intros (S & [L|N]); [left; exact L|right]. pose proof (spells_length _ _ S). split; [lia|]. apply spells_lead; assumption.
Qed.
Lemma numeral_length t t' n : numeral t n -> numeral t' n -> (length t <= length t')%nat.
Proof.
  intros H H'. destruct (Nat.le_gt_cases (length t) (length t')) as [L|G]; [exact L|exfalso].
  pose proof (spells_length _ _ (proj1 H')). pose proof (spells_bound _ _ (proj1 H')) as B.
  destruct (numeral_shape _ _ H) as [Q|(_ & Q)]; [lia|]. assert (10 ^ Z.of_nat (length t') <= 10 ^ (Z.of_nat (length t) - 1)) by (apply Z.pow_le_mono_r; lia). lia.
Qed.
Lemma numeral_unique t t' n : numeral t n -> numeral t' n -> t = t'.
Proof.
  intros H H'. apply (spells_unique t n (proj1 H) t' n (proj1 H') eq_refl). pose proof (numeral_length _ _ _ H H'). pose proof (numeral_length _ _ _ H' H). lia.
Qed.
Lemma fraction_unique d t t' v : fraction d t v -> fraction d t' v -> t = t'.
Proof.
  intros (ti & tf & i & f & NI & SF & L & -> & V) (ti' & tf' & i' & f' & NI' & SF' & L' & -> & V').
  pose proof (spells_bound _ _ SF) as B. pose proof (spells_bound _ _ SF') as B'. rewrite L in B. rewrite L' in B'.
  assert (P : 0 < 10 ^ Z.of_nat d) by (apply Z.pow_pos_nonneg; lia).
  assert (i = i') by (rewrite V in V'; nia). assert (f = f') by (subst i'; lia). subst i' f'.
  rewrite (numeral_unique _ _ _ NI NI'), (spells_unique _ _ SF _ _ SF' eq_refl) by lia. reflexivity.
Qed.

Lemma one_real : B2R 24 128 (f32_of_Z 1) = 1%R.
Proof. unfold f32_of_Z. cbn -[IZR bpow]. unfold F2R. cbn. lra. Qed.
Lemma full_percentage N : rounded 2 (percentage (mkRes N (f32_of_Z 1))) = 10000.
Proof.
  unfold percentage, conf_real. cbn [r_conf]. rewrite one_real. rewrite Rmult_1_l.
  rewrite round_generic; [|apply valid_rnd_N|].
  - unfold rounded. rewrite Rabs_pos_eq by lra. change (10 ^ Z.of_nat 2) with 100. rewrite <- mult_IZR. apply ZnearestE_int.
  - replace 100%R with (F2R (Float radix2 100 0)) by (unfold F2R; cbn; lra).
    apply generic_format_FLT. exists (Float radix2 100 0); cbn; [reflexivity|lia|lia].
Qed.
Lemma full_cell_text N t : cell_text (mkRes N (f32_of_Z 1)) t -> full_cell N t.
Proof.
  intros (a & n & b & u & v & -> & NN & PA & FR & PB & V). rewrite full_percentage in V. subst v.
  assert (FR' : fraction 2 (chars "100.00") 10000) by (apply (point_fraction 2 10000); [discriminate|lia]).
  rewrite (fraction_unique _ _ _ _ FR FR') in PB. destruct PB as (sp & SP & -> & L). rewrite app_length in L. cbn in L.
  assert (sp = []) as -> by (destruct sp; [reflexivity|cbn in L; lia]).
  exists n, a. split; [exact NN|]. split; [exact PA|]. reflexivity.
Qed.
Lemma full_confidence N t : confidence_text (mkRes N (f32_of_Z 1)) t -> t = chars ":1.000000".
Proof.
  intros (s & u & v & -> & FR & B). unfold conf_real in B. cbn [r_conf] in B. rewrite one_real in B.
  assert (V0 : 0 <= v). { destruct FR as (ti & tf & i & f & (NI & _) & SF & _ & _ & ->). apply spells_bound in NI, SF. apply Z.add_nonneg_nonneg; [|lia]. apply Z.mul_nonneg_nonneg; [lia|apply Z.pow_nonneg; lia]. }
  change (10 ^ 6) with 1000000 in B. apply Rabs_le_inv in B.
  assert (C : (999999 < IZR (cond_Zopp s v) < 1000001)%R) by lra. destruct C as (C1 & C2). apply (lt_IZR 999999) in C1. apply (lt_IZR _ 1000001) in C2.
  destruct s; cbn [cond_Zopp] in C1, C2; [lia|]. assert (v = 1000000) as -> by lia.
  assert (FR' : fraction 6 (chars "1.000000") 1000000) by (apply (point_fraction 6 1000000); [discriminate|lia]).
  rewrite (fraction_unique _ _ _ _ FR FR'). reflexivity.
Qed.

Lemma listed_item v l t N : listed v l t -> In (mkRes N (f32_of_Z 1)) l -> exists u, full_item v N u /\ as_word u t.
Proof.
  induction 1 as [|r l t c u NT C H IH]; intros I; [destruct I|]. destruct I as [->|I].
  - exists (t ++ c ++ [32]). split.
    + exists t. split; [exact NT|]. destruct (v =? 3); [rewrite (full_confidence _ _ C); reflexivity|subst c; reflexivity].
    + exists [], u. split; [cbn; rewrite <- !app_assoc; reflexivity|left; reflexivity].
  - destruct (IH I) as (x & FI & a & b & -> & A). exists x. split; [exact FI|]. exists (t ++ c ++ 32 :: a), b.
    split; [rewrite <- !app_assoc; reflexivity|]. right.
    destruct A as [->|(a' & ->)]; [exists (t ++ c); rewrite <- app_assoc; reflexivity|]. exists (t ++ c ++ 32 :: a'). rewrite <- !app_assoc. reflexivity.
Qed.

(** *** The table *)
Definition ends_line (t : list Z) : Prop := t = [] \/ exists t', t = t' ++ [10].
Lemma no_newline_app a b : ~ In 10 a -> ~ In 10 b -> ~ In 10 (a ++ b).
Proof. intros A B I. apply in_app_or in I. tauto. Qed.
Lemma numeral_no_newline n v : numeral n v -> ~ In 10 n.
Proof. intros (S & _). exact (digits_no_newline _ (spells_digits _ _ S)). Qed.
Lemma padded_no_newline k t u : ~ In 10 t -> padded k t u -> ~ In 10 u.
Proof.
  intros N (b & SP & -> & _). apply no_newline_app; [|exact N]. intros I. unfold spaces in SP. rewrite Forall_forall in SP. specialize (SP _ I). lia.
Qed.
Lemma cell_no_newline r t : cell_text r t -> ~ In 10 t.
Proof.
  intros (a & n & b & u & v & -> & NN & PA & (ti & tf & i & f & NI & SF & _ & -> & _) & PB & _).
  apply no_newline_app; [exact (padded_no_newline _ _ _ (numeral_no_newline _ _ NN) PA)|]. apply no_newline_app; [cbn; lia|].
  apply no_newline_app; [|cbn; lia]. refine (padded_no_newline _ _ _ _ PB). apply no_newline_app; [exact (numeral_no_newline _ _ NI)|].
  intros [Q|Q]; [discriminate|]. exact (digits_no_newline _ (spells_digits _ _ SF) Q).
Qed.
Lemma left_no_newline w h left t : row_text w h left t -> ~ In 10 left.
Proof.
  intros (L & _). destruct w as [r|]; [destruct L as (c & C & ->)|subst left; cbn; lia].
  apply no_newline_app; [exact (cell_no_newline _ _ C)|cbn; lia].
Qed.
(** the line of row k *)
Lemma row_line w h left t : row_text w h left t -> exists line, t = line ++ [10] /\ ~ In 10 line /\
  (forall r, w = Some r -> exists c rest, cell_text r c /\ line = c ++ chars "   " ++ rest) /\
  (forall r, h = Some r -> exists c, cell_text r c /\ line = left ++ c).
Proof.
  intros RT. pose proof (left_no_newline _ _ _ _ RT) as NL. destruct RT as (L & H). destruct h as [q|].
  - destruct H as (c & C & ->). exists (left ++ c). split; [rewrite <- app_assoc; reflexivity|]. split; [exact (no_newline_app _ _ NL (cell_no_newline _ _ C))|]. split.
    + intros r ->. destruct L as (d & D & ->). exists d, c. split; [exact D|]. rewrite <- app_assoc. reflexivity.
    + intros r E. inversion E; subst. eauto.
  - subst t. exists left. split; [reflexivity|]. split; [exact NL|]. split; [|discriminate].
    intros r ->. destruct L as (d & D & ->). exists d, []. split; [exact D|]. rewrite app_nil_r. reflexivity.
Qed.
Lemma rows_line w h i n ls u : rows_text w h i n ls u -> forall s, ends_line s -> forall k, (i <= k < i + n)%nat -> exists left t, row_text (nth_error w k) (nth_error h k) left t /\
  forall line, t = line ++ [10] -> ~ In 10 line -> a_line (s ++ u) line.
Proof.
  induction 1 as [i|i n left t ls u RT RS IH]; intros s SE k K; [lia|]. destruct (Nat.eq_dec k i) as [->|NE].
  - exists left, t. split; [exact RT|]. intros line -> N. split; [exact N|]. exists s, u. split; [rewrite <- app_assoc; reflexivity|exact SE].
  - assert (SE' : ends_line (s ++ t)).
    { destruct (row_line _ _ _ _ RT) as (line & -> & _). right. exists (s ++ line). rewrite app_assoc. reflexivity. }
    destruct (IH (s ++ t) SE' k ltac:(lia)) as (left' & t' & RT' & A). exists left', t'. split; [exact RT'|].
    intros line E N. rewrite app_assoc. auto.
Qed.
Lemma summary_ends width height rw rh s : summary_text width height rw rh s -> ends_line s.
Proof.
  intros (tw & th & bw & bh & _ & _ & _ & _ & ->). right. unfold table_head. destruct (own_only rw rh).
  - eexists. rewrite app_nil_r. rewrite !app_assoc. reflexivity.
  - eexists. rewrite !app_assoc. reflexivity.
Qed.

Lemma found_listed l len N : l = removelast l ++ [own_size len] -> In (mkRes N (f32_of_Z 1)) l -> N <> len -> In (mkRes N (f32_of_Z 1)) (removelast l).
Proof.
  intros E I NE. rewrite E in I. apply in_app_or in I. destruct I as [I|[I|[]]]; [exact I|]. elim NE. apply (f_equal r_index) in I. symmetry. exact I.
Qed.
Lemma width_said v t width height rw rh N : printed_run v t width height rw rh -> N <> width -> In (mkRes N (f32_of_Z 1)) rw -> (forall r, In r (removelast rw) -> r_index r <> width) -> says_width v width N t.
Proof.
  intros P NE I OT. pose proof (found_listed _ _ _ (pr_own_w _ _ _ _ _ _ P) I NE) as IR. split; [|split]; intros V.
  - subst v. destruct (brief_run _ _ _ _ _ P) as (tw & th & -> & NW & _). exists tw, (best rw). eexists. split; [exact NW|]. split; [|reflexivity].
    rewrite (pr_own_w _ _ _ _ _ _ P). destruct (removelast rw) as [|r l]; [destruct IR|]. apply (OT r). left. reflexivity.
  - destruct (list_run _ _ _ _ _ _ V P) as (tw & th & -> & LW & _). destruct (listed_item _ _ _ _ LW I) as (u & F & A).
    exists tw, u. split; [split; [exact (listed_no_newline _ _ _ LW)|eexists; reflexivity]|auto].
  - destruct (table_run _ _ _ _ _ _ V P) as (s & ls & u & -> & SM & RS & _).
    apply In_nth_error in IR. destruct IR as (k & NK).
    assert (K : (k < length (removelast rw))%nat) by (apply nth_error_Some; congruence).
    destruct (rows_line _ _ _ _ _ _ RS s (summary_ends _ _ _ _ _ SM) k ltac:(lia)) as (left & t & RT & A).
    destruct (row_line _ _ _ _ RT) as (line & -> & N10 & W & _). destruct (W _ NK) as (c & rest & C & ->).
    exists c, rest. split; [exact (full_cell_text _ _ C)|]. apply A; [reflexivity|exact N10].
Qed.
Lemma height_said v t width height rw rh N : printed_run v t width height rw rh -> N <> height -> In (mkRes N (f32_of_Z 1)) rh -> (forall r, In r (removelast rh) -> r_index r <> height) -> says_height v height N t.
Proof.
  intros P NE I OT. pose proof (found_listed _ _ _ (pr_own_h _ _ _ _ _ _ P) I NE) as IR. split; [|split]; intros V.
  - subst v. destruct (brief_run _ _ _ _ _ P) as (tw & th & -> & NW & NH). exists tw, th, (best rh). split; [exact NH|]. split; [|split; [|reflexivity]].
    + rewrite (pr_own_h _ _ _ _ _ _ P). destruct (removelast rh) as [|r l]; [destruct IR|]. apply (OT r). left. reflexivity.
    + destruct NW as (S & _). intros Q. pose proof (spells_digits _ _ S) as D. rewrite Forall_forall in D. specialize (D _ Q). unfold digit in D. lia.
  - destruct (list_run _ _ _ _ _ _ V P) as (tw & th & -> & LW & LH). destruct (listed_item _ _ _ _ LH I) as (u & F & A).
    exists th, u. split; [|auto]. exists tw. eexists. split; [exact (listed_no_newline _ _ _ LW)|]. split; [reflexivity|]. split; [exact (listed_no_newline _ _ _ LH)|]. exists []. reflexivity.
  - destruct (table_run _ _ _ _ _ _ V P) as (s & ls & u & -> & SM & RS & _).
    apply In_nth_error in IR. destruct IR as (k & NK).
    assert (K : (k < length (removelast rh))%nat) by (apply nth_error_Some; congruence).
    destruct (rows_line _ _ _ _ _ _ RS s (summary_ends _ _ _ _ _ SM) k ltac:(lia)) as (left & t & RT & A).
    destruct (row_line _ _ _ _ RT) as (line & -> & N10 & _ & W). destruct (W _ NK) as (c & C & ->).
    exists left, c. split; [exact (full_cell_text _ _ C)|]. apply A; [reflexivity|exact N10].
Qed.
