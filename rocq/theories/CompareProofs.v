(** Comparing what different analyses report. *)
From Coq Require Import Reals Permutation Sorted Lra.
From Flocq Require Import Core IEEE754.Binary.
From Verif Require Import Base Flt Util Methods Analysis Resdetect History Spec SpecAnalysis SpecUtil SpecReport.
From Verif Require Import BaseProofs FltProofs MethodsProofs WorldProofs AnalysisProofs UtilProofs ResultsProofs ClientProofs.
Open Scope list_scope.
Open Scope Z_scope.

(** ** Congruence of the specification in the coefficients *)
Definition same_coefs (D D' : dim) : Prop :=
  d_len D = d_len D' /\ d_lines D = d_lines D' /\
  forall y x, 0 <= y < d_lines D -> 0 <= x < d_len D -> d_coef D y x = d_coef D' y x.

Lemma filter_ext_in' {A} (f g : A -> bool) l : (forall a, In a l -> f a = g a) -> filter f l = filter g l.
Proof.
  induction l as [|a l IH]; intros H; [reflexivity|]. cbn. rewrite (H a) by (left; reflexivity).
  rewrite IH by (intros b Hb; apply H; right; exact Hb). reflexivity.
Qed.

Lemma Forall2_length {A B} (R : A -> B -> Prop) l l' : Forall2 R l l' -> List.length l = List.length l'.
Proof. induction 1; cbn; congruence. Qed.

Lemma how_many_pairs_ext P Q n range : (forall y i, 0 <= y < n -> 1 <= i <= range -> P y i = Q y i) ->
  how_many_pairs P n range = how_many_pairs Q n range.
Proof.
  intros H. unfold how_many_pairs. f_equal. f_equal. apply filter_ext_in'. intros (y & i) I.
  apply in_prod_iff in I. rewrite !in_zrange in I. cbn [fst snd]. apply H; lia.
Qed.

Lemma fold_left_ext {A B} (f g : A -> B -> A) l : (forall a b, In b l -> f a b = g a b) ->
  forall a, fold_left f l a = fold_left g l a.
Proof.
  induction l as [|b l IH]; intros H a; [reflexivity|]. cbn. rewrite H by (left; reflexivity).
  apply IH. intros a' b' I. apply H. right. exact I.
Qed.

Lemma mean_abs_ext D D' x : same_coefs D D' -> 0 <= x < d_len D -> mean_abs D x = mean_abs D' x.
Proof.
  intros (L & N & C) Hx. unfold mean_abs. rewrite <- N. f_equal. apply fold_left_ext. intros s y I.
  apply in_zrange in I. rewrite C by lia. reflexivity.
Qed.

Lemma dip_ext D D' range x : same_coefs D D' -> 0 <= range -> range <= x < d_len D - range -> dip D range x = dip D' range x.
Proof.
  intros S Hr Hx. unfold dip. rewrite (mean_abs_ext D D' x S) by lia.
  assert (X : forall dir, (dir = 1 \/ dir = -1) -> side_sum D range x dir = side_sum D' range x dir).
  { intros dir Hd. unfold side_sum. apply fold_left_ext. intros s i I. apply in_zrange in I.
    rewrite (mean_abs_ext D D') by (try exact S; destruct Hd; subst dir; lia). reflexivity. }
  rewrite !X by auto. reflexivity.
Qed.

Lemma hits_ext c D D' range x : same_coefs D D' -> 1 <= range -> range <= x < d_len D - range ->
  hits c D range x = hits c D' range x.
Proof.
  intros S Hr Hx. assert (S' := S). destruct S as (L & N & C).
  assert (IP : inverted_pairs D range x = inverted_pairs D' range x).
  { unfold inverted_pairs. rewrite <- N. apply how_many_pairs_ext. intros y i Hy Hi. rewrite !C by lia. reflexivity. }
  destruct c; cbn [hits].
  - exact IP.
  - unfold matching_pairs. rewrite <- N. apply how_many_pairs_ext. intros y i Hy Hi. rewrite !C by lia. reflexivity.
  - rewrite (dip_ext D D') by (try exact S'; lia). rewrite IP. reflexivity.
  - unfold crossing_lines, how_many. rewrite <- N. f_equal. f_equal. apply filter_ext_in'. intros y I.
    apply in_zrange in I. rewrite !C by lia. reflexivity.
Qed.

Lemma ratio_ext c D D' range x : same_coefs D D' -> 1 <= range -> range <= x < d_len D - range ->
  ratio c D range x = ratio c D' range x.
Proof.
  intros S Hr Hx. unfold ratio. rewrite (hits_ext c D D') by assumption.
  destruct S as (_ & N & _). rewrite N. reflexivity.
Qed.

Lemma total_ext c Ds Ds' len range x : Forall2 same_coefs Ds Ds' -> (forall D, In D Ds -> d_len D = len) ->
  1 <= range -> range <= x < len - range -> total c Ds range x = total c Ds' range x.
Proof.
  intros F HL Hr Hx. unfold total. generalize d0. induction F as [|D D' Ds Ds' S F IH]; intros s; [reflexivity|].
  cbn [fold_left]. rewrite (ratio_ext c D D') by (try assumption; rewrite (HL D) by (left; reflexivity); lia).
  apply IH. intros D0 I. apply HL. right. exact I.
Qed.

Lemma entries_ext c Ds Ds' n len range thr keep : Forall2 same_coefs Ds Ds' -> (forall D, In D Ds -> d_len D = len) ->
  1 <= range -> entries c Ds n len range thr keep = entries c Ds' n len range thr keep.
Proof.
  intros F HL Hr. unfold entries, avg.
  assert (X : forall x, In x (window len range) -> total c Ds range x = total c Ds' range x).
  { intros x I. unfold window in I. apply in_zrange in I. apply (total_ext c Ds Ds' len); assumption || lia. }
  rewrite (filter_ext_in' _ (fun x => dge (ddiv (total c Ds' range x) (f64_of_Z n)) (f64_of_f32 thr) && keep x)).
  2:{ intros x I. rewrite X by exact I. reflexivity. }
  apply map_ext_in. intros x I. apply filter_In in I. rewrite X by tauto. reflexivity.
Qed.

(** ** Reported lists as functions of the images *)
Lemma reported_same E E' m w h p imgs Ds len l l' : client_ok E w h p -> client_ok E' w h p -> same_but_memory E E' ->
  countable imgs -> reported E m w h p imgs Ds len l -> reported E' m w h p imgs Ds len l' -> l = l'.
Proof.
  intros HC HC' (SC & _ & SQ) HN R R'.
  destruct (reaches_nonempty_reported _ _ _ _ _ _ _ _ _ HC HN R) as (_ & _ & -> & _).
  destruct (reaches_nonempty_reported _ _ _ _ _ _ _ _ _ HC' HN R') as (_ & _ & -> & _).
  unfold report. rewrite SC, SQ. reflexivity.
Qed.

Lemma params_eq (a b : params) : p_range a = p_range b -> p_threshold a = p_threshold b -> p_filter a = p_filter b -> a = b.
Proof. destruct a, b. cbn. congruence. Qed.

Lemma reported_params E m w h p p' imgs Ds len l l' : client_ok E w h p -> client_ok E w h p' ->
  used_range (e_cfg E) m p = used_range (e_cfg E) m p' -> used_threshold m p = used_threshold m p' ->
  used_filter p = used_filter p' -> countable imgs ->
  reported E m w h p imgs Ds len l -> reported E m w h p' imgs Ds len l' -> l = l'.
Proof.
  intros HC HC' ER ET EF HN R R'.
  destruct (reaches_nonempty_reported _ _ _ _ _ _ _ _ _ HC HN R) as (_ & _ & -> & _).
  destruct (reaches_nonempty_reported _ _ _ _ _ _ _ _ _ HC' HN R') as (_ & _ & -> & _).
  destruct (effective_used E w h m p HC) as (A & B & C). destruct (effective_used E w h m p' HC') as (A' & B' & C').
  replace (effective_params (e_cfg E) (the_method m) p) with (effective_params (e_cfg E) (the_method m) p'); [reflexivity|].
  apply params_eq; congruence.
Qed.

Lemma seen_x_len E w h imgs D : In D (seen_x E w h imgs) -> d_len D = w /\ d_lines D = h.
Proof. unfold seen_x. rewrite in_map_iff. intros (i & <- & _). split; reflexivity. Qed.
Lemma seen_y_len E w h imgs D : In D (seen_y E w h imgs) -> d_len D = h /\ d_lines D = w.
Proof. unfold seen_y. rewrite in_map_iff. intros (i & <- & _). split; reflexivity. Qed.

Lemma transposed_dims E w h imgs imgs' : Forall2 (transposed E w h) imgs imgs' ->
  Forall2 same_coefs (seen_x E w h imgs) (seen_y E h w imgs').
Proof.
  induction 1 as [|i i' imgs imgs' T F IH]; cbn; constructor; [|exact IH].
  split; [reflexivity|]. split; [reflexivity|]. cbn. intros y x Hy Hx. apply T; assumption.
Qed.

Lemma transposed_dims_y E w h imgs imgs' : Forall2 (transposed E w h) imgs imgs' ->
  Forall2 same_coefs (seen_y E w h imgs) (seen_x E h w imgs').
Proof.
  induction 1 as [|i i' imgs imgs' T F IH]; cbn; constructor; [|exact IH].
  split; [reflexivity|]. split; [reflexivity|]. cbn. intros y x Hy Hx. apply T; assumption.
Qed.

Lemma client_swap E w h p : client_ok E w h p -> client_ok E h w p.
Proof. intros (A & B & C & D). exact (conj A (conj C (conj B D))). Qed.

Lemma report_ext E m p Ds Ds' n len : Forall2 same_coefs Ds Ds' -> (forall D, In D Ds -> d_len D = len) ->
  1 <= p_range p -> report E m p Ds n len = report E m p Ds' n len.
Proof. intros F HL HR. unfold report. rewrite (entries_ext _ Ds Ds') by assumption. reflexivity. Qed.

Lemma effective_range_pos E w h m p : client_ok E w h p -> 1 <= p_range (effective_params (e_cfg E) (the_method m) p).
Proof.
  intros HC. destruct (effective_ok (e_cfg E) (the_method m) p (eo_config _ (proj1 HC)) (client_valid _ _ _ _ HC)) as (PO & _).
  apply (po_range _ PO).
Qed.

Lemma transpose_x E m w h p imgs imgs' l l' : client_ok E w h p -> countable imgs ->
  Forall2 (transposed E w h) imgs imgs' ->
  reported E m w h p imgs (seen_x E w h imgs) w l -> reported E m h w p imgs' (seen_y E h w imgs') w l' -> l = l'.
Proof.
  intros HC HN F R R'. assert (HN' : countable imgs').
  { unfold countable in *. rewrite <- (Forall2_length _ _ _ F). exact HN. }
  destruct (reaches_nonempty_reported _ _ _ _ _ _ _ _ _ HC HN R) as (_ & _ & -> & _).
  destruct (reaches_nonempty_reported _ _ _ _ _ _ _ _ _ (client_swap _ _ _ _ HC) HN' R') as (_ & _ & -> & _).
  unfold zlen. rewrite (Forall2_length _ _ _ F). apply report_ext.
  - apply transposed_dims, F.
  - intros D I. apply seen_x_len in I. tauto.
  - eapply effective_range_pos, HC.
Qed.

Lemma transpose_y E m w h p imgs imgs' l l' : client_ok E w h p -> countable imgs ->
  Forall2 (transposed E w h) imgs imgs' ->
  reported E m w h p imgs (seen_y E w h imgs) h l -> reported E m h w p imgs' (seen_x E h w imgs') h l' -> l = l'.
Proof.
  intros HC HN F R R'. assert (HN' : countable imgs').
  { unfold countable in *. rewrite <- (Forall2_length _ _ _ F). exact HN. }
  destruct (reaches_nonempty_reported _ _ _ _ _ _ _ _ _ HC HN R) as (_ & _ & -> & _).
  destruct (reaches_nonempty_reported _ _ _ _ _ _ _ _ _ (client_swap _ _ _ _ HC) HN' R') as (_ & _ & -> & _).
  unfold zlen. rewrite (Forall2_length _ _ _ F). apply report_ext.
  - apply transposed_dims_y, F.
  - intros D I. apply seen_y_len in I. tauto.
  - eapply effective_range_pos, HC.
Qed.

(** ** The mean is a finite number *)
Lemma seen_lines E m w h p imgs Ds len l : client_ok E w h p -> countable imgs -> reported E m w h p imgs Ds len l ->
  (forall D, In D Ds -> 0 < d_lines D <= 2^31 /\ d_len D = len) /\ zlen Ds = zlen imgs /\ 1 <= zlen Ds <= SIZE_MAX /\ 1 <= len <= INT_MAX.
Proof.
  intros HC HN R. assert (R' := R). apply (proj1 (countable_zlen _)) in HN.
  assert (K : exists a, reaches E m w h p imgs a) by (destruct R; eauto). destruct K as (a & RA).
  destruct (history_known E m w h p imgs a HC RA HN) as [_ _ S _ _ _ _ _].
  destruct (reaches_nonempty_reported _ _ _ _ _ _ _ _ _ HC (proj2 (countable_zlen _) HN) R) as (NE & _ & _ & D).
  pose proof (as_w _ _ _ _ _ _ _ _ _ S). pose proof (as_h _ _ _ _ _ _ _ _ _ S). unfold INT_MAX in *.
  assert (1 <= zlen imgs). { destruct imgs; [contradiction|]. rewrite zlen_cons. pose proof (zlen_nonneg imgs). lia. }
  destruct D as [(-> & ->)|(-> & ->)]; (split; [|split; [unfold zlen, seen_x, seen_y; rewrite map_length; reflexivity|split; [|lia]]]).
  - intros D I. apply seen_x_len in I. lia.
  - unfold zlen, seen_x in *. rewrite map_length. lia.
  - intros D I. apply seen_y_len in I. lia.
  - unfold zlen, seen_y in *. rewrite map_length. lia.
Qed.

Lemma mean_finite c Ds range x : (forall D, In D Ds -> 0 < d_lines D <= 2^31) -> 0 < range <= 2^31 -> 1 <= zlen Ds <= SIZE_MAX ->
  dfin (mean c Ds range x) = true /\ (0 <= rd (mean c Ds range x))%R.
Proof.
  intros HL HR HN. destruct (avg_val c Ds (zlen Ds) range x HL HR HN) as (r & V & B & _).
  change (avg c Ds (zlen Ds) range x) with (mean c Ds range x) in V.
  destruct V as (V1 & V2 & V3). split; [exact V1|]. rewrite V3. lra.
Qed.

Lemma found_in c Ds len range thr keep x v : In (x, v) (found c Ds len range thr keep) <->
  range <= x < len - range /\ v = f32_of_f64 (mean c Ds range x) /\
  dge (mean c Ds range x) (f64_of_f32 thr) = true /\ keep x = true.
Proof.
  unfold found. rewrite in_map_iff. split.
  - intros (x' & EQ & I). inversion EQ; subst. apply filter_In in I. destruct I as (I & B).
    unfold window in I. apply in_zrange in I. apply andb_true_iff in B. tauto.
  - intros (HX & -> & B & K). exists x. split; [reflexivity|]. apply filter_In. split; [apply in_zrange; exact HX|].
    rewrite B, K. reflexivity.
Qed.

Lemma in_pairs l r : In r l <-> In (r_index r, r_conf r) (pairs l).
Proof.
  unfold pairs. rewrite in_map_iff. split.
  - intros I. exists r. auto.
  - intros (r' & EQ & I). destruct r as [i c], r' as [i' c']. cbn in EQ. inversion EQ; subst. exact I.
Qed.

(** what is in a reported list *)
Lemma reported_in E m w h p imgs Ds len l : client_ok E w h p -> countable imgs -> reported E m w h p imgs Ds len l ->
  forall r, In r l <-> r = own_size len \/
    In (r_index r, r_conf r) (found (used_criterion (e_cfg E) m) Ds len (used_range (e_cfg E) m p) (used_threshold m p)
                    (keeps (effective_params (e_cfg E) (the_method m) p) len)).
Proof.
  intros HC HN R r.
  destruct (reaches_nonempty_reported _ _ _ _ _ _ _ _ _ HC HN R) as (_ & [_ (l' & -> & P & _)] & _).
  rewrite in_app_iff, (in_pairs l'). cbn [In]. split.
  - intros [I|[<-|[]]]; [right|left; reflexivity]. eapply Permutation_in; [apply Permutation_sym, P|exact I].
  - intros [->|I]; [right; left; reflexivity|left]. eapply Permutation_in; [apply P|exact I].
Qed.

Lemma threshold_unit E w h m p : client_ok E w h p ->
  ffinite (used_threshold m p) = true /\ (0 <= rf (used_threshold m p) <= 1)%R.
Proof.
  intros HC. destruct (effective_ok (e_cfg E) (the_method m) p (eo_config _ (proj1 HC)) (client_valid _ _ _ _ HC)) as (PO & B).
  destruct (effective_used E w h m p HC) as (_ & T & _). rewrite <- T. split; [apply (po_threshold _ PO)|exact B].
Qed.

Lemma used_range_pos E w h m p : client_ok E w h p -> 1 <= used_range (e_cfg E) m p.
Proof.
  intros HC. destruct (effective_used E w h m p HC) as (T & _). rewrite <- T. eapply effective_range_pos, HC.
Qed.

Lemma threshold_monotone E m w h p p' imgs Ds len l l' : client_ok E w h p -> client_ok E w h p' -> countable imgs ->
  used_range (e_cfg E) m p = used_range (e_cfg E) m p' -> used_filter p = used_filter p' ->
  (rf (used_threshold m p) <= rf (used_threshold m p'))%R ->
  reported E m w h p imgs Ds len l -> reported E m w h p' imgs Ds len l' -> forall r, In r l' -> In r l.
Proof.
  intros HC HC' HN ER EF ET R R' r I.
  apply (reported_in _ _ _ _ _ _ _ _ _ HC HN R). apply (reported_in _ _ _ _ _ _ _ _ _ HC' HN R') in I.
  destruct I as [I|I]; [left; exact I|right].
  apply found_in in I. destruct I as (B & V & G & K). apply found_in.
  destruct (effective_used E w h m p HC) as (A1 & A2 & A3). destruct (effective_used E w h m p' HC') as (B1 & B2 & B3).
  rewrite ER. split; [exact B|]. split; [exact V|]. split.
  - destruct (seen_lines _ _ _ _ _ _ _ _ _ HC HN R) as (HL & _ & HD & HLen).
    pose proof (used_range_pos E w h m p' HC').
    destruct (mean_finite (used_criterion (e_cfg E) m) Ds (used_range (e_cfg E) m p') (r_index r)) as (MF & _).
    { intros D ID. apply HL, ID. } { unfold INT_MAX in *. lia. } { lia. }
    destruct (threshold_unit E w h m p HC) as (F1 & _). destruct (threshold_unit E w h m p' HC') as (F2 & _).
    destruct (f64_of_f32_finite _ F1) as (G1 & G1' & _). destruct (f64_of_f32_finite _ F2) as (G2 & G2' & _).
    apply dge_spec in G; [|exact MF|exact G2]. apply dge_spec; [exact MF|exact G1|]. rewrite G1', G2' in *. lra.
  - unfold keeps in *. rewrite A1, A3, ER, EF, <- B1, <- B3. exact K.
Qed.

Lemma threshold_zero E m w h p imgs Ds len l : client_ok E w h p -> countable imgs ->
  rf (used_threshold m p) = 0%R -> used_filter p = 0 -> reported E m w h p imgs Ds len l ->
  Permutation (map r_index l) (len :: window len (used_range (e_cfg E) m p)).
Proof.
  intros HC HN T0 F0 R.
  destruct (reaches_nonempty_reported _ _ _ _ _ _ _ _ _ HC HN R) as (_ & [_ (l' & -> & P & _)] & _).
  destruct (effective_used E w h m p HC) as (A1 & A2 & A3).
  destruct (seen_lines _ _ _ _ _ _ _ _ _ HC HN R) as (HL & _ & HD & HLen).
  pose proof (used_range_pos E w h m p HC). destruct (threshold_unit E w h m p HC) as (F1 & _).
  destruct (f64_of_f32_finite _ F1) as (G1 & G1' & _).
  rewrite map_app. cbn [map own_size r_index]. apply Permutation_sym. apply Permutation_cons_app. rewrite app_nil_r.
  apply (Permutation_map fst) in P.
  replace (map fst (pairs l')) with (map r_index l') in P by (unfold pairs; rewrite map_map; reflexivity).
  eapply Permutation_trans; [|exact P]. unfold found. rewrite map_map. cbn [fst]. rewrite map_id.
  replace (filter _ (window len (used_range (e_cfg E) m p))) with (window len (used_range (e_cfg E) m p)); [apply Permutation_refl|].
  symmetry. transitivity (filter (fun _ => true) (window len (used_range (e_cfg E) m p))).
  - apply filter_ext_in'. intros x I. unfold window in I. apply in_zrange in I.
    rewrite keeps_none by congruence. rewrite andb_true_r.
    destruct (mean_finite (used_criterion (e_cfg E) m) Ds (used_range (e_cfg E) m p) x) as (MF & M0).
    { intros D ID. apply HL, ID. } { unfold INT_MAX in *. lia. } { lia. }
    apply dge_spec; [exact MF|exact G1|]. rewrite G1', T0. exact M0.
  - generalize (window len (used_range (e_cfg E) m p)). induction l as [|a l IH]; cbn; congruence.
Qed.
