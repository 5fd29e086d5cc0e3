(** The text of result lists. *)
From Coq Require Import Ascii String Reals Lra Permutation Sorted.
From Flocq Require Import Core IEEE754.BinarySingleNaN IEEE754.Binary IEEE754.Bits.
From Verif Require Import Base BaseProofs Flt FltProofs RoundProofs Util Methods Analysis History Spec SpecAnalysis SpecUtil SpecReport MethodsProofs AnalysisProofs ResultsProofs ClientProofs
  Stdio Y4m SpecFormats ScanProofs Image Cli SpecCli Tools Printf SpecText PrintProofs.
Open Scope list_scope.
Open Scope Z_scope.

(** ** Confidences have no minus sign *)
Lemma report_sign E m p Ds n len r : env_ok E -> (forall D, In D Ds -> 0 < d_lines D <= 2^31) -> 1 <= p_range p -> len <= INT_MAX -> 1 <= n <= SIZE_MAX ->
  In r (report E m p Ds n len) -> r = own_size len \/ Bsign 24 128 (r_conf r) = false.
Proof.
  intros HE HD Hr Hl Hn I. destruct (report_ok E m p Ds n len HE HD Hr Hl Hn) as (_ & _ & l' & EQ & P). rewrite EQ in I.
  apply in_app_or in I. destruct I as [I|[<-|[]]]; [right|left; reflexivity].
  apply Permutation_sym in P. pose proof (Permutation_in _ P I) as Hi. unfold entries in Hi. apply in_map_iff in Hi. destruct Hi as (x & <- & Hx).
  apply filter_In in Hx. destruct Hx as (Hx & _). unfold window in Hx. apply in_zrange in Hx. unfold INT_MAX in Hl. cbn [r_conf].
  destruct (avg_val (criterion_of (e_cfg E) m) Ds n (p_range p) x HD ltac:(lia) Hn) as (v & V & B & _).
  destruct (f32_of_f64_val _ _ V) as (_ & S & _); [apply (bpow_big _ _ 53); [apply B|lia]|]. exact S.
Qed.
Lemma reported_sign E m w h p imgs Ds len l r : client_ok E w h p -> countable imgs -> reported E m w h p imgs Ds len l ->
  In r l -> r = own_size len \/ Bsign 24 128 (r_conf r) = false.
Proof.
  intros HC HN H I. destruct (reaches_nonempty_reported _ _ _ _ _ _ _ _ _ HC HN H) as (NE & _ & EL & _). apply (proj1 (countable_zlen _)) in HN.
  assert (N1 : 1 <= zlen imgs <= SIZE_MAX).
  { destruct imgs; [congruence|]. rewrite zlen_cons in *. pose proof (zlen_nonneg imgs). lia. }
  rewrite EL in I. inversion H as [a q o wd o' wd' b l0 R W EQ O|a q o wd o' wd' b l0 R W EQ O]; subst;
    pose proof (history_known _ _ _ _ _ _ _ HC R HN) as K; destruct (k_state _ _ _ _ _ _ _ _ K) as [Sw Sh Sa Sb Sm Swd Shd Sp Sr Sz Sf Sx Sy Sn];
    apply report_sign in I; auto; try exact (proj1 HC); try lia; try (apply (k_params _ _ _ _ _ _ _ _ K));
    intros D HD; [rewrite seen_map_x in HD|rewrite seen_map_y in HD]; apply in_map_iff in HD; destruct HD as (? & <- & _); simpl; unfold INT_MAX in *; lia.
Qed.

(** ** The entries of -v 2 and -v 3 *)
Lemma text_app se a b : text se (a ++ b) = text se a ++ text se b.
Proof. apply flat_map_app. Qed.
Lemma signed_abs (x : f64) : is_finite 53 1024 x = true -> B2R 53 1024 x = (if Bsign 53 1024 x then - Rabs (B2R 53 1024 x) else Rabs (B2R 53 1024 x))%R.
Proof.
  destruct x as [s|s|s pl H|s m e H]; try discriminate; intros _; cbn [B2R Bsign]; [rewrite Rabs_R0; destruct s; lra|].
  destruct s; cbn [cond_Zopp].
  - change (Z.neg m) with (- Z.pos m). rewrite F2R_Zopp, Rabs_Ropp, Rabs_pos_eq; [reflexivity|]. apply F2R_ge_0. cbn. lia.
  - rewrite Rabs_pos_eq; [reflexivity|]. apply F2R_ge_0. cbn. lia.
Qed.
Lemma fixed6_text r : ffinite (r_conf r) = true -> confidence_text r (58 :: fixed 6 (f64_of_f32 (r_conf r))).
Proof.
  intros F. destruct (f64_of_f32_finite _ F) as (XF & XV & _). destruct (fixed_fraction 6 (f64_of_f32 (r_conf r)) ltac:(discriminate) XF) as (u & Q & FR).
  exists (Bsign 53 1024 (f64_of_f32 (r_conf r))), u, (rounded 6 (B2R 53 1024 (f64_of_f32 (r_conf r)))). rewrite Q. split; [reflexivity|]. split; [exact FR|].
  unfold conf_real. change (B2R 53 1024 (f64_of_f32 (r_conf r)) = B2R 24 128 (r_conf r)) in XV. rewrite <- XV. pose proof (signed_abs _ XF) as SA. revert SA. generalize (Bsign 53 1024 (f64_of_f32 (r_conf r))). generalize (B2R 53 1024 (f64_of_f32 (r_conf r))).
  intros x s SA. unfold rounded. change (10 ^ Z.of_nat 6) with 1000000. change (10 ^ 6) with 1000000.
  pose proof (Znearest_half (fun x => negb (Z.even x)) (Rabs x * IZR 1000000)) as H. revert H. generalize (ZnearestE (Rabs x * IZR 1000000)). intros v H.
  apply Rabs_le_inv in H. destruct H as (H1 & H2). apply Rabs_le. destruct s; cbn [cond_Zopp]; [rewrite opp_IZR|]; rewrite SA; split; lra.
Qed.
Lemma listed_text se verbosity l : Forall (fun r => 0 <= r_index r /\ ffinite (r_conf r) = true) l ->
  listed verbosity l (text se (flat_map (entry verbosity) l)).
Proof.
  induction 1 as [|r l (N & F) _ IH]; [constructor|]. cbn [flat_map]. rewrite text_app.
  assert (E : text se (entry verbosity r) = number (r_index r) ++ (if verbosity =? 3 then 58 :: fixed 6 (f64_of_f32 (r_conf r)) else []) ++ [32]).
  { unfold entry. destruct (verbosity =? 3); cbn; rewrite ?app_nil_r; reflexivity. }
  rewrite E, <- !app_assoc. apply (listed_next verbosity r l (number (r_index r)) _ _); [apply number_numeral; exact N| |exact IH].
  destruct (verbosity =? 3); [apply fixed6_text; exact F|reflexivity].
Qed.

(** ** Reading the entries back *)
Lemma cut_digits t t' c c' u u' : Forall digit t -> Forall digit t' -> ~ digit c -> ~ digit c' -> t ++ c :: u = t' ++ c' :: u' -> t = t' /\ c = c' /\ u = u'.
Proof.
  intros F. revert t'. induction F as [|d t D _ IH]; intros t' F' NC NC' E.
  - destruct F' as [|d' t' D' _]; [inversion E; auto|]. inversion E; subst. contradiction.
  - destruct F' as [|d' t' D' F']; [inversion E; subst; contradiction|]. inversion E; subst. destruct (IH t' F' NC NC' H1) as (-> & -> & ->). auto.
Qed.
Lemma spells_det t v v' : spells t v -> spells t v' -> v = v'.
Proof. intros S S'. rewrite <- (spells_value _ _ S). apply spells_value. exact S'. Qed.
Lemma fraction_cut d t t' v v' c c' u u' : fraction d t v -> fraction d t' v' -> ~ digit c -> ~ digit c' -> t ++ c :: u = t' ++ c' :: u' -> v = v' /\ c = c' /\ u = u'.
Proof.
  intros (ti & tf & i & f & (I & _) & F & _ & -> & ->) (ti' & tf' & i' & f' & (I' & _) & F' & _ & -> & ->) NC NC' E. rewrite <- !app_assoc in E. cbn in E.
  assert (ND : ~ digit 46) by (unfold digit; lia).
  destruct (cut_digits ti ti' 46 46 (tf ++ c :: u) (tf' ++ c' :: u') (spells_digits _ _ I) (spells_digits _ _ I') ND ND E) as (<- & _ & E2).
  destruct (cut_digits tf tf' c c' u u' (spells_digits _ _ F) (spells_digits _ _ F') NC NC' E2) as (<- & -> & ->).
  rewrite (spells_det _ _ _ I I'), (spells_det _ _ _ F F'). auto.
Qed.
Lemma minus_cut s s' t t' v v' d u u' : fraction d t v -> fraction d t' v' -> minus_sign s ++ t ++ u = minus_sign s' ++ t' ++ u' -> s = s' /\ t ++ u = t' ++ u'.
Proof.
  intros (ti & tf & i & f & (I & _) & F & _ & -> & ->) (ti' & tf' & i' & f' & (I' & _) & F' & _ & -> & ->) E.
  pose proof (spells_digits _ _ I) as D. pose proof (spells_digits _ _ I') as D'. pose proof (spells_length _ _ I). pose proof (spells_length _ _ I').
  destruct s, s'; cbn in E; inversion E; auto; exfalso; [destruct ti' as [|a ti']; [contradiction|]; inversion D'; subst|destruct ti as [|a ti]; [contradiction|]; inversion D; subst]; inversion E; subst;
    unfold digit in *; lia.
Qed.
Definition close (r r' : rdres) : Prop := r_index r = r_index r' /\ (Rabs (conf_real r - conf_real r') <= / IZR (10 ^ 6))%R.
Lemma listed_det verbosity l l' t : listed verbosity l t -> listed verbosity l' t ->
  map r_index l = map r_index l' /\ (verbosity = 3 -> Forall2 close l l').
Proof.
  intros H. revert l'. induction H as [|r l t c u N C L IH]; intros l' H'.
  - inversion H' as [Q1 Q|r' l'' t' c' u' N' C' L' Q1 Q]; subst l'; [split; constructor|]. destruct N' as (S & _). apply spells_length in S. destruct t'; [contradiction|discriminate].
  - inversion H' as [Q1 Q|r' l'' t' c' u' N' C' L' Q1 Q]; subst l'.
    + destruct N as (S & _). apply spells_length in S. destruct t; [contradiction|discriminate].
    + destruct N as (S & _), N' as (S' & _). pose proof (spells_digits _ _ S) as D. pose proof (spells_digits _ _ S') as D'.
      assert (N32 : ~ digit 32) by (unfold digit; lia). assert (N58 : ~ digit 58) by (unfold digit; lia).
      destruct (Z.eqb_spec verbosity 3) as [V|V].
      * destruct C as (s & x & v & -> & FR & A), C' as (s' & x' & v' & -> & FR' & A'). cbn in Q. rewrite <- !app_assoc in Q.
        destruct (cut_digits _ _ _ _ _ _ D' D N58 N58 Q) as (-> & _ & Q2). destruct (minus_cut _ _ _ _ _ _ _ _ _ FR' FR Q2) as (-> & Q3).
        destruct (fraction_cut _ _ _ _ _ _ _ _ _ FR' FR N32 N32 Q3) as (-> & _ & ->). destruct (IH l'' L') as (IH1 & IH2).
        pose proof (spells_det _ _ _ S S') as EI. split; [cbn; f_equal; assumption|]. intros _. constructor; [split; [exact EI|]|exact (IH2 V)].
        replace (conf_real r - conf_real r')%R with ((IZR (cond_Zopp s v) / IZR (10 ^ 6) - conf_real r') - (IZR (cond_Zopp s v) / IZR (10 ^ 6) - conf_real r))%R by ring.
        eapply Rle_trans; [apply Rabs_triang|]. rewrite Rabs_Ropp. lra.
      * subst c c'. cbn in Q. destruct (cut_digits _ _ _ _ _ _ D' D N32 N32 Q) as (-> & _ & ->). destruct (IH l'' L') as (IH1 & IH2).
        split; [cbn; rewrite (spells_det _ _ _ S S'); f_equal; assumption|]. intros X. contradiction.
Qed.

(** ** The table *)
Lemma finite_not_nan (x : f32) : ffinite x = true -> is_nan 24 128 x = false.
Proof. destruct x; try discriminate; reflexivity. Qed.
Lemma percent_val r : ffinite (r_conf r) = true -> Bsign 24 128 (r_conf r) = false -> (conf_real r <= 1)%R ->
  is_finite 53 1024 (percent (r_conf r)) = true /\ Bsign 53 1024 (percent (r_conf r)) = false /\ B2R 53 1024 (percent (r_conf r)) = percentage r.
Proof.
  intros F S U. pose proof (sign_nonneg_f _ F S) as P. unfold conf_real in *. fold (rf (r_conf r)) in U.
  destruct (f32_of_Z_exact 100 ltac:(lia)) as (F1 & S1 & V1).
  destruct (fmul_rnd _ _ F F1) as (F2 & V2). { rewrite V1. unfold big. rewrite Rabs_pos_eq by nra. nra. }
  assert (FV : fval (fmul (r_conf r) (f32_of_Z 100)) (rnd32 (rf (r_conf r) * 100))).
  { split; [exact F2|]. split; [|rewrite V2, V1; reflexivity].
    unfold fmul, b32_mult. match goal with |- context [Bmult _ _ ?p1 ?p2 ?n _ _ _] => pose proof (Bmult_correct 24 128 p1 p2 n mode_NE (r_conf r) (f32_of_Z 100)) as C end.
    change (round_mode mode_NE) with ZnearestE in C. rewrite small_lt_emax32 in C.
    - destruct C as (_ & _ & C3). rewrite S, S1 in C3. apply C3. exact (finite_not_nan _ F2).
    - unfold rf in *. rewrite V1. rewrite Rabs_pos_eq by nra. apply Rle_trans with (bpow radix2 7); [|apply bpow_le; lia]. change (bpow radix2 7) with 128%R. nra. }
  destruct (f64_of_f32_val _ _ FV) as (A & B & C). split; [exact A|]. split; [exact B|]. exact C.
Qed.
(** a result as the library reports it, other than the size of the image *)
Record confident (r : rdres) : Prop := {
  cf_index : 0 <= r_index r;
  cf_finite : ffinite (r_conf r) = true;
  cf_sign : Bsign 24 128 (r_conf r) = false;
  cf_one : (conf_real r <= 1)%R
}.
Definition cell_bytes (r : rdres) : list Z := right_justified 5 (number (r_index r)) ++ [32; 40] ++ right_justified 5 (fixed 2 (percent (r_conf r))) ++ [37; 41].
Lemma cell_bytes_text r : confident r -> cell_text r (cell_bytes r).
Proof.
  intros [N F S U]. destruct (percent_val r F S U) as (PF & PS & PV). destruct (fixed_fraction 2 (percent (r_conf r)) ltac:(discriminate) PF) as (u & Q & FR).
  rewrite PS in Q. cbn [minus_sign app] in Q. rewrite PV in FR.
  exists (right_justified 5 (number (r_index r))), (number (r_index r)), (right_justified 5 (fixed 2 (percent (r_conf r)))), u, (rounded 2 (percentage r)).
  split; [reflexivity|]. split; [apply number_numeral; exact N|]. split; [apply right_justified_padded|]. split; [exact FR|].
  split; [rewrite Q; apply right_justified_padded|reflexivity].
Qed.
Lemma rounded_upper d x k : (0 <= x)%R -> (x * IZR (10 ^ Z.of_nat d) < IZR k + / 2)%R -> rounded d x <= k.
Proof.
  intros P H. unfold rounded. rewrite (Rabs_pos_eq x P). pose proof (Znearest_half (fun x => negb (Z.even x)) (x * IZR (10 ^ Z.of_nat d))) as B. apply Rabs_le_inv in B.
  apply Z.lt_succ_r, lt_IZR. rewrite succ_IZR. lra.
Qed.
Lemma rounded_lower d x k : (0 <= x)%R -> (IZR k - / 2 < x * IZR (10 ^ Z.of_nat d))%R -> k <= rounded d x.
Proof.
  intros P H. unfold rounded. rewrite (Rabs_pos_eq x P). pose proof (Znearest_half (fun x => negb (Z.even x)) (x * IZR (10 ^ Z.of_nat d))) as B. apply Rabs_le_inv in B.
  apply Z.lt_succ_r, lt_IZR. rewrite succ_IZR. lra.
Qed.
Lemma percentage_near r : confident r -> (0 <= percentage r /\ Rabs (percentage r - conf_real r * 100) <= / 131072)%R.
Proof.
  intros [N F S U]. pose proof (sign_nonneg_f _ F S) as P. fold (conf_real r) in P. unfold percentage. change (round radix2 (FLT_exp (-149) 24) ZnearestE (conf_real r * 100)) with (rnd32 (conf_real r * 100)).
  split; [apply rnd32_nonneg; unfold conf_real in *; unfold rf in *; nra|]. change (rf (r_conf r)) with (conf_real r) in P.
  eapply Rle_trans; [apply (rnd32_err _ 128); [rewrite Rabs_pos_eq by nra; nra|lra]|]. unfold ulp1. lra.
Qed.
Lemma narrow_cell r : confident r -> narrow r -> length (cell_bytes r) = 14%nat.
Proof.
  intros C (I & P). pose proof (percentage_near r C) as (PP & PN). apply Rabs_le_inv in PN. destruct C as [N F S U]. destruct (percent_val r F S U) as (PF & PS & PV).
  assert (L1 : (length (number (r_index r)) <= 5)%nat) by (apply number_len; [discriminate|]; change (10 ^ Z.of_nat 5) with 100000; lia).
  destruct (fixed_spec 2 (percent (r_conf r)) PF) as (VN & E). rewrite PS in E. cbn [minus_sign app] in E.
  assert (V : scaled_value 2 (percent (r_conf r)) <= 9999).
  { unfold scaled_value. rewrite PV. apply rounded_upper; [exact PP|]. change (10 ^ Z.of_nat 2) with 100. lra. }
  assert (L2 : (length (fixed 2 (percent (r_conf r))) <= 5)%nat).
  { rewrite E. unfold point. set (v := scaled_value 2 (percent (r_conf r))) in *. change (10 ^ Z.of_nat 2) with 100.
    assert (A : (length (number (v / 100)) <= 2)%nat).
    { apply number_len; [discriminate|]. change (10 ^ Z.of_nat 2) with 100. split; [apply Z.div_pos; lia|apply Z.div_lt_upper_bound; lia]. }
    assert (B : (length (number (v mod 100)) <= 2)%nat).
    { apply number_len; [discriminate|]. change (10 ^ Z.of_nat 2) with 100. apply Z.mod_pos_bound. lia. }
    rewrite app_length. cbn [length]. rewrite app_length, repeat_length. lia. }
  unfold cell_bytes, right_justified. rewrite !app_length, !repeat_length. cbn [length]. lia.
Qed.
Definition left_bytes (w : list rdres) (i : nat) : list Z := match nth_error w i with Some r => cell_bytes r ++ [32; 32; 32] | None => repeat 32 17 end.
Lemma table_rows se w h : Forall confident w -> Forall confident h -> forall n i,
  rows_text w h i n (map (left_bytes w) (seq i n)) (text se (flat_map (table_line w h) (seq i n))).
Proof.
  intros CW CH. induction n as [|n IH]; intros i; [constructor|]. cbn [seq map flat_map]. rewrite text_app. constructor; [|apply IH]. rewrite Forall_forall in CW, CH.
  assert (CT : forall r s, text se (cell r ++ [Str s]) = right_justified 5 (number (r_index r)) ++ [32; 40] ++ right_justified 5 (fixed 2 (percent (r_conf r))) ++ chars s).
  { intros r s. rewrite text_app. unfold cell. cbn [text flat_map piece_text]. rewrite !app_nil_r, <- !app_assoc. reflexivity. }
  split.
  - unfold left_bytes. destruct (nth_error w i) as [r|] eqn:Q; [|reflexivity]. apply nth_error_In in Q. exists (cell_bytes r). split; [apply cell_bytes_text; auto|reflexivity].
  - unfold table_line. rewrite !text_app.
    assert (LT : text se (match nth_error w i with Some r => cell r ++ [Str "%)   "] | None => [Blank17] end) = left_bytes w i).
    { unfold left_bytes. destruct (nth_error w i); [rewrite CT; unfold cell_bytes; rewrite <- !app_assoc; reflexivity|reflexivity]. }
    rewrite LT. destruct (nth_error h i) as [r|] eqn:Q; [|reflexivity]. apply nth_error_In in Q. exists (cell_bytes r). split; [apply cell_bytes_text; auto|].
    rewrite CT. unfold cell_bytes. rewrite <- !app_assoc. reflexivity.
Qed.
Lemma left_aligned w i n : Forall confident w -> Forall narrow w -> Forall (fun l => length l = 17%nat) (map (left_bytes w) (seq i n)).
Proof.
  intros C N. apply Forall_forall. intros l I. apply in_map_iff in I. destruct I as (k & <- & _). unfold left_bytes. rewrite Forall_forall in C, N.
  destruct (nth_error w k) as [r|] eqn:Q; [|apply repeat_length]. apply nth_error_In in Q. rewrite app_length, narrow_cell by auto. reflexivity.
Qed.

(** ** Reading the table back *)
Lemma padded_cut k n n' a a' v v' c c' u u' : padded k n a -> padded k n' a' -> numeral n v -> numeral n' v' -> ~ digit c -> ~ digit c' ->
  a ++ c :: u = a' ++ c' :: u' -> v = v' /\ c = c' /\ u = u'.
Proof.
  intros (b & B & -> & _) (b' & B' & -> & _) (S & _) (S' & _) NC NC' E. rewrite <- !app_assoc in E.
  assert (NE : exists d r, n = d :: r /\ digit d) by (pose proof (spells_digits _ _ S) as D; pose proof (spells_length _ _ S); destruct n as [|d r]; [contradiction|]; exists d, r; inversion D; auto).
  assert (NE' : exists d r, n' = d :: r /\ digit d) by (pose proof (spells_digits _ _ S') as D; pose proof (spells_length _ _ S'); destruct n' as [|d r]; [contradiction|]; exists d, r; inversion D; auto).
  assert (E2 : n ++ c :: u = n' ++ c' :: u').
  { revert b' B' E. induction B as [|x b X _ IH]; intros b' B' E; destruct B' as [|x' b' X' B']; cbn in E.
    - exact E.
    - exfalso. destruct NE as (d & r & -> & D). inversion E; subst. unfold digit in D. lia.
    - exfalso. destruct NE' as (d & r & -> & D). inversion E; subst. unfold digit in D. lia.
    - inversion E. apply (IH b' B'). assumption. }
  destruct (cut_digits _ _ _ _ _ _ (spells_digits _ _ S) (spells_digits _ _ S') NC NC' E2) as (<- & -> & ->). rewrite (spells_det _ _ _ S S'). auto.
Qed.
Lemma padded_fraction_cut k d n n' a a' v v' c c' u u' : padded k n a -> padded k n' a' -> fraction d n v -> fraction d n' v' -> ~ digit c -> ~ digit c' ->
  a ++ c :: u = a' ++ c' :: u' -> v = v' /\ c = c' /\ u = u'.
Proof.
  intros (b & B & -> & _) (b' & B' & -> & _) FR FR' NC NC' E. rewrite <- !app_assoc in E.
  assert (G : forall n v, fraction d n v -> exists d r, n = d :: r /\ digit d).
  { intros m x (ti & tf & i & f & (I & _) & F & _ & -> & ->). pose proof (spells_digits _ _ I) as D; pose proof (spells_length _ _ I); destruct ti as [|e r]; [contradiction|]. exists e, (r ++ 46 :: tf). inversion D; auto. }
  pose proof (G _ _ FR) as NE. pose proof (G _ _ FR') as NE'.
  assert (E2 : n ++ c :: u = n' ++ c' :: u').
  { revert b' B' E. induction B as [|x b X _ IH]; intros b' B' E; destruct B' as [|x' b' X' B']; cbn in E.
    - exact E.
    - exfalso. destruct NE as (e & r & -> & D). inversion E; subst. unfold digit in D. lia.
    - exfalso. destruct NE' as (e & r & -> & D). inversion E; subst. unfold digit in D. lia.
    - inversion E. apply (IH b' B'). assumption. }
  exact (fraction_cut _ _ _ _ _ _ _ _ _ FR FR' NC NC' E2).
Qed.
Definition same_cell (r r' : rdres) : Prop := r_index r = r_index r' /\ rounded 2 (percentage r) = rounded 2 (percentage r').
Lemma cell_cut r r' t t' u u' : cell_text r t -> cell_text r' t' -> t ++ u = t' ++ u' -> same_cell r r' /\ u = u'.
Proof.
  intros (a & n & b & x & v & -> & N & PN & F & PF & ->) (a' & n' & b' & x' & v' & -> & N' & PN' & F' & PF' & ->) E. rewrite <- !app_assoc in E. cbn in E.
  assert (N32 : ~ digit 32) by (unfold digit; lia). assert (N37 : ~ digit 37) by (unfold digit; lia).
  destruct (padded_cut _ _ _ _ _ _ _ _ _ _ _ PN PN' N N' N32 N32 E) as (I & _ & E2). inversion E2 as [E3].
  destruct (padded_fraction_cut _ _ _ _ _ _ _ _ _ _ _ _ PF PF' F F' N37 N37 E3) as (V & _ & E4). inversion E4. split; [split; assumption|reflexivity].
Qed.
(** a cell has at most four spaces before the first digit *)
Lemma cell_head r t u : cell_text r t -> exists b d v, t ++ u = b ++ d :: v /\ spaces b /\ (length b <= 4)%nat /\ digit d.
Proof.
  intros (a & n & b & x & v & -> & (S & _) & (b0 & B & -> & L) & _). pose proof (spells_length _ _ S) as NL. pose proof (spells_digits _ _ S) as D. destruct n as [|d n]; [contradiction|].
  rewrite app_length in L. cbn [length] in L. exists b0, d. eexists. rewrite <- !app_assoc. split; [reflexivity|]. split; [exact B|]. split; [lia|]. inversion D. assumption.
Qed.
Lemma not_blank r t u v : cell_text r t -> t ++ u = repeat 32 17 ++ v -> False.
Proof.
  intros C E. destruct (cell_head r t u C) as (b & d & w & Q & B & L & D). rewrite Q in E. clear Q C.
  assert (G : forall k (b : list Z), spaces b -> (length b < k)%nat -> b ++ d :: w = repeat 32 k ++ v -> False).
  { induction k as [|k IH]; intros b1 B1 L1 E1; [lia|]. destruct B1 as [|x b1 X B1]; cbn in E1; inversion E1; subst; [unfold digit in D; lia|]. apply (IH b1 B1); [cbn in L1; lia|assumption]. }
  apply (G 17%nat b B); [lia|exact E].
Qed.
Lemma row_cut w h w' h' left left' t t' u u' : row_text w h left t -> row_text w' h' left' t' -> t ++ u = t' ++ u' ->
  (match w, w' with Some r, Some r' => same_cell r r' | None, None => True | _, _ => False end) /\
  (match h, h' with Some r, Some r' => same_cell r r' | None, None => True | _, _ => False end) /\ u = u'.
Proof.
  intros (LW & TH) (LW' & TH') E.
  assert (TE : exists x, t = left ++ x) by (destruct h as [r|]; [destruct TH as (c & _ & ->)|rewrite TH]; eexists; reflexivity). destruct TE as (x & TE).
  assert (TE' : exists x, t' = left' ++ x) by (destruct h' as [r|]; [destruct TH' as (c & _ & ->)|rewrite TH']; eexists; reflexivity). destruct TE' as (x' & TE').
  rewrite TE, TE' in E. rewrite <- !app_assoc in E.
  assert (X : (match w, w' with Some r, Some r' => same_cell r r' | None, None => True | _, _ => False end) /\ x ++ u = x' ++ u').
  { destruct w as [r|], w' as [r'|].
    - destruct LW as (c & C & ->), LW' as (c' & C' & ->). rewrite <- !app_assoc in E. destruct (cell_cut _ _ _ _ _ _ C C' E) as (SC & E2). inversion E2. auto.
    - exfalso. destruct LW as (c & C & ->). rewrite LW', <- app_assoc in E. exact (not_blank _ _ _ _ C E).
    - exfalso. destruct LW' as (c & C & ->). rewrite LW, <- app_assoc in E. symmetry in E. exact (not_blank _ _ _ _ C E).
    - rewrite LW, LW' in E. apply app_inv_head in E. auto. }
  destruct X as (XW & XE). split; [exact XW|]. clear E.
  destruct h as [r|], h' as [r'|].
  - destruct TH as (c & C & T1), TH' as (c' & C' & T2). rewrite TE in T1. rewrite TE' in T2. apply app_inv_head in T1. apply app_inv_head in T2. subst x x'.
    rewrite <- !app_assoc in XE. destruct (cell_cut _ _ _ _ _ _ C C' XE) as (SC & E2). inversion E2. auto.
  - exfalso. destruct TH as (c & C & T1). rewrite TE in T1. rewrite TE' in TH'. apply app_inv_head in T1. apply app_inv_head in TH'. subst x x'.
    rewrite <- app_assoc in XE. destruct (cell_head r c ([10] ++ u) C) as (b & d & v & Q & B & _ & D). rewrite Q in XE. destruct B; cbn in XE; inversion XE; subst; [unfold digit in D; lia|discriminate].
  - exfalso. destruct TH' as (c & C & T1). rewrite TE' in T1. rewrite TE in TH. apply app_inv_head in T1. apply app_inv_head in TH. subst x x'.
    rewrite <- app_assoc in XE. destruct (cell_head r' c ([10] ++ u') C) as (b & d & v & Q & B & _ & D). rewrite Q in XE. destruct B; cbn in XE; inversion XE; subst; [unfold digit in D; lia|discriminate].
  - rewrite TE in TH. rewrite TE' in TH'. apply app_inv_head in TH. apply app_inv_head in TH'. subst x x'. inversion XE. auto.
Qed.
