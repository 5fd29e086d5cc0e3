(** Lemmas about what clients see, used by the claims files. *)
From Coq Require Import Reals Permutation Sorted Lra.
From Flocq Require Import Core IEEE754.Binary.
From Verif Require Import Base Flt Util Methods Analysis Resdetect History Spec SpecAnalysis SpecUtil SpecReport.
From Verif Require Import BaseProofs FltProofs MethodsProofs WorldProofs AnalysisProofs UtilProofs ResultsProofs.
Open Scope list_scope.
Open Scope Z_scope.

Lemma countable_zlen {A} (l : list A) : countable l <-> zlen l < SIZE_MAX.
Proof. unfold countable, zlen, SIZE_MAX. lia. Qed.

Lemma client_sizes E w h p : client_ok E w h p -> is_size w /\ is_size h.
Proof. intros (_ & ? & ? & _). unfold is_size, SIZE_MAX. lia. Qed.

Lemma reaches_nonempty_reported E m w h p imgs Ds len l :
  client_ok E w h p -> countable imgs -> reported E m w h p imgs Ds len l ->
  imgs <> [] /\ good_list E m p Ds len l /\
  l = report E (the_method m) (effective_params (e_cfg E) (the_method m) p) Ds (zlen imgs) len /\
  ((Ds = seen_x E w h imgs /\ len = w) \/ (Ds = seen_y E w h imgs /\ len = h)).
Proof.
  intros HC HN H. apply (proj1 (countable_zlen _)) in HN.
  inversion H as [a q o wd o' wd' b l0 R W EQ O|a q o wd o' wd' b l0 R W EQ O]; subst.
  - destruct (history_results E m len h p imgs a q o wd HC R HN) as (e & o2 & wd2 & EQ2 & H2).
    rewrite EQ in EQ2. inversion EQ2; subst e o2 wd2.
    destruct H2 as [(X & _)|[(X & _)|[(X & _)|(_ & _ & NE & bs & F & _)]]]; try discriminate X.
    destruct F as (bx & by_ & F & _). rewrite W in F. rewrite F in O. inversion O; subst.
    split; [exact NE|]. split; [eapply list_x_good; eassumption|]. split; [|left; auto].
    unfold list_x, report_x. rewrite seen_map_x. reflexivity.
  - destruct (history_results E m w len p imgs a q o wd HC R HN) as (e & o2 & wd2 & EQ2 & H2).
    rewrite EQ in EQ2. inversion EQ2; subst e o2 wd2.
    destruct H2 as [(X & _)|[(X & _)|[(X & _)|(_ & _ & NE & bs & F & _)]]]; try discriminate X.
    destruct F as (bx & by_ & _ & _ & F & _). rewrite W in F. rewrite F in O. inversion O; subst.
    split; [exact NE|]. split; [eapply list_y_good; eassumption|]. split; [|right; auto].
    unfold list_y, report_y. rewrite seen_map_y. reflexivity.
Qed.

(** two states with the same contents are indistinguishable by fetching *)
Lemma results_same E a a' m w h p xs ys n q o wd :
  env_ok E -> an_state E a m w h p xs ys n -> an_state E a' m w h p xs ys n ->
  0 <= p_filter p <= 31 -> 0 <= n <= SIZE_MAX ->
  resdet_analysis_results E (Some a) q o wd = resdet_analysis_results E (Some a') q o wd.
Proof.
  intros HE S S' HF Hn. unfold resdet_analysis_results.
  destruct (bad_wants q); [reflexivity|].
  rewrite (as_n _ _ _ _ _ _ _ _ _ S), (as_n _ _ _ _ _ _ _ _ _ S').
  destruct (Z.eqb_spec n 0); [reflexivity|]. assert (1 <= n) by lia.
  destruct (want_rw q).
  - rewrite (gen_x E a m w h p xs ys n HE S HF Hn wd) by assumption.
    rewrite (gen_x E a' m w h p xs ys n HE S' HF Hn wd) by assumption.
    destruct (alloc (e_alloc E) wd) as [[b|] wd1]; [|reflexivity].
    cbn [bind]. destruct (negb _); [reflexivity|]. destruct (want_rh q); [|reflexivity].
    rewrite (gen_y E a m w h p xs ys n HE S HF Hn wd1) by assumption.
    rewrite (gen_y E a' m w h p xs ys n HE S' HF Hn wd1) by assumption. reflexivity.
  - cbn [bind]. destruct (negb _); [reflexivity|]. destruct (want_rh q); [|reflexivity].
    rewrite (gen_y E a m w h p xs ys n HE S HF Hn wd) by assumption.
    rewrite (gen_y E a' m w h p xs ys n HE S' HF Hn wd) by assumption. reflexivity.
Qed.

Lemma history_same E m w h p imgs a a' q o wd : client_ok E w h p -> countable imgs ->
  reaches E m w h p imgs a -> reaches E m w h p imgs a' ->
  resdet_analysis_results E (Some a) q o wd = resdet_analysis_results E (Some a') q o wd.
Proof.
  intros HC HN R R'. apply (proj1 (countable_zlen _)) in HN.
  destruct (history_known E m w h p imgs a HC R HN) as [_ _ S PO _ _ _ _].
  destruct (history_known E m w h p imgs a' HC R' HN) as [_ _ S' _ _ _ _ _].
  eapply results_same; [apply (proj1 HC)|exact S|exact S'|apply (po_filter _ PO)|].
  pose proof (zlen_nonneg imgs). lia.
Qed.

Lemma valid_forallb w h image : valid_image w h image <-> forallb ffinite (firstn (Z.to_nat (w * h)) image) = true.
Proof. unfold valid_image. rewrite forallb_forall, Forall_forall. reflexivity. Qed.

(** one more image *)
Lemma analyze_step E m w h p imgs a image wd :
  client_ok E w h p -> reaches E m w h p imgs a -> countable imgs -> w * h <= zlen image ->
  exists e a' wd', resdet_analyze_image E (Some a) (Some image) wd = Ok (e, Some a', wd') /\
    owns wd' wd [] /\ an_blocks a' = an_blocks a /\
    ((valid_image w h image /\ e = RDEOK /\ reaches E m w h p (imgs ++ [image]) a') \/
     (valid_image w h image /\ e = RDENOMEM /\ used_method m = Morig /\ exists k, e_alloc E k = false) \/
     (~ valid_image w h image /\ e = RDEINVAL /\ reaches E m w h p imgs a')).
Proof.
  intros HC R HN L. apply (proj1 (countable_zlen _)) in HN.
  destruct (history_known E m w h p imgs a HC R HN) as [_ _ S _ _ _ _ _].
  destruct (analyze_ok E a _ w h _ _ _ _ image wd (proj1 HC) S L) as (e & a' & wd' & EQ & AB & L1 & L2 & L3 & H).
  { pose proof (zlen_nonneg imgs). lia. }
  exists e, a', wd'. split; [exact EQ|]. split.
  { split; [rewrite L1; apply Permutation_refl|auto]. } split; [exact AB|].
  pose proof (valid_forallb w h image) as V.
  destruct (forallb ffinite (firstn (Z.to_nat (w * h)) image)).
  - assert (VI : valid_image w h image) by tauto.
    destruct H as [(-> & _)|(-> & M & K & _)].
    + left. split; [exact VI|]. split; [reflexivity|]. econstructor; eassumption.
    + right; left. auto.
  - right; right. split; [intros X; apply V in X; discriminate|]. destruct H as (-> & _). split; [reflexivity|].
    eapply reaches_refuse; eassumption.
Qed.

(** with enough memory every sequence of valid images can be analysed *)
Lemma reaches_all E m w h p imgs : client_ok E w h p -> (forall k, e_alloc E k = true) ->
  plan_fits E w h -> Forall (fun i => valid_image w h i /\ w * h <= zlen i) imgs -> countable imgs ->
  exists a, reaches E m w h p imgs a.
Proof.
  intros HC AL PF. induction imgs as [|i imgs IH] using rev_ind; intros FI HN.
  - destruct (client_sizes _ _ _ _ HC) as (Hw & Hh).
    destruct (create_ok E m w h p world0 (eo_config _ (proj1 HC)) Hw Hh (client_valid _ _ _ _ HC)) as (ao & e & w' & EQ & H).
    destruct ao as [a|].
    + destruct H as (-> & _). exists a. econstructor. exact EQ.
    + exfalso. destruct H as (H & _). destruct H as [(_ & k & H)|[(_ & _ & k & H)|[(_ & H)|(_ & _ & _ & H)]]].
      * rewrite AL in H; discriminate.
      * rewrite AL in H; discriminate.
      * destruct PF as (? & ? & _). lia.
      * contradiction.
  - apply Forall_app in FI. destruct FI as (FI & Fi). inversion Fi as [|? ? (V & L) _]; subst.
    assert (HN' : countable imgs). { unfold countable in *. rewrite app_length in HN. cbn in HN. lia. }
    destruct (IH FI HN') as (a & R).
    destruct (analyze_step E m w h p imgs a i world0 HC R HN' L) as (e & a' & wd' & EQ & _ & _ & H).
    destruct H as [(_ & _ & H)|[(_ & _ & _ & k & H)|(NV & _)]].
    + exists a'. exact H.
    + rewrite AL in H. discriminate.
    + contradiction.
Qed.

Lemma reported_all E m w h p imgs : client_ok E w h p -> (forall k, e_alloc E k = true) ->
  plan_fits E w h -> Forall (fun i => valid_image w h i /\ w * h <= zlen i) imgs -> countable imgs -> imgs <> [] ->
  exists lx ly, reported E m w h p imgs (seen_x E w h imgs) w lx /\ reported E m w h p imgs (seen_y E w h imgs) h ly.
Proof.
  intros HC AL PF FI HN NE. destruct (reaches_all E m w h p imgs HC AL PF FI HN) as (a & R).
  destruct (history_results E m w h p imgs a (mkWants true true true true) (mkOuts None 0 None 0) world0 HC R (proj1 (countable_zlen _) HN))
    as (e & o' & wd' & EQ & H).
  destruct H as [(_ & H & _)|[(_ & _ & H & _)|[(_ & _ & _ & _ & _ & k & H)|(-> & _ & _ & bs & F & _)]]].
  - discriminate H.
  - contradiction.
  - rewrite AL in H. discriminate.
  - destruct F as (bx & by_ & F1 & F2 & F3 & F4 & _). cbn in F1, F3.
    do 2 eexists. split.
    + eapply reported_width; [exact R| |exact EQ|exact F1]; reflexivity.
    + eapply reported_height; [exact R| |exact EQ|exact F3]; reflexivity.
Qed.
