(** @header
    Properties C05-C24: analyses, results, resdetect. *)
From Coq Require Import Reals Permutation Sorted Lra.
From Flocq Require Import Core IEEE754.Binary.
From Verif Require Import Base Flt Util Methods Analysis Resdetect History Spec SpecAnalysis SpecUtil SpecReport.
From Verif Require Import BaseProofs FltProofs MethodsProofs WorldProofs AnalysisProofs UtilProofs ResultsProofs.
From Verif Require Import ClientProofs ProgramProofs ErrorProofs CompareProofs FilterProofs Demo.
Open Scope list_scope.
Open Scope Z_scope.

(** A concrete analysis: a 7x5 image, one frame, range 2, threshold 1/2.  The
    hypotheses of the theorems below hold for it. *)
Example demo_reported_example :
  client_ok demo_env 7 5 demo_params /\ countable [demo_image] /\
  exists lx ly, reported demo_env (Some Msign) 7 5 demo_params [demo_image] (seen_x demo_env 7 5 [demo_image]) 7 lx /\
                reported demo_env (Some Msign) 7 5 demo_params [demo_image] (seen_y demo_env 7 5 [demo_image]) 5 ly.
Proof.
  split; [exact demo_client|]. split; [unfold countable; simpl; lia|].
  apply reported_all; [exact demo_client|reflexivity| | |unfold countable; simpl; lia|discriminate].
  - unfold plan_fits. vm_compute. intuition discriminate.
  - constructor; [|constructor]. split; [|vm_compute; discriminate].
    apply valid_forallb. vm_compute. reflexivity.
Qed.

(** ... and what is reported for it: two widths besides the size, and no height *)
Example demo_result_example :
  match resdetect demo_env (Some demo_image) 1 7 5 (mkWants true true true true) (Some Msign) demo_params
          (mkOuts None 0 None 0) world0 with
  | Ok (e, o, wd) => e = RDEOK /\
      option_map (fun l => map r_index (snd l)) (o_rw o) = Some [3; 4; 7] /\ o_cw o = 3 /\
      option_map (fun l => map r_index (snd l)) (o_rh o) = Some [5] /\ o_ch o = 1
  | Undef _ => False
  end.
Proof. vm_compute. repeat split. Qed.

(** C05.  A client that creates an analysis, makes any calls, and destroys it: no
    undefined behaviour (out of bounds access, uninitialised read, bad shift, division
    by zero, double free), documented error codes only, and afterwards exactly the
    handed-out lists are still allocated - for every pattern of allocation failures. *)
Lemma analysis_safe_claim : forall E m w h p calls wd,
  client_ok E w h p -> Forall (call_ok w h) calls -> countable calls ->
  exists e replies wd', program E m w h p calls wd = Ok (e, replies, wd') /\
    In e [RDEOK; RDEINVAL; RDETOOBIG; RDENOMEM; RDEINTERNAL] /\
    (e = RDEOK -> Forall2 reply_ok calls replies /\ owns wd' wd (reply_blocks calls replies)) /\
    (e <> RDEOK -> replies = [] /\ holds_only E w h wd wd' []).
Proof. exact program_ok. Qed.

Example analysis_safe_example :
  client_ok demo_env 7 5 demo_params /\
  Forall (call_ok 7 5) [CAnalyze demo_image; CResults (mkWants true true false false) (mkOuts None 0 None 0); CAnalyze demo_image] /\
  match program demo_env (Some Mmag) 7 5 demo_params
     [CAnalyze demo_image; CResults (mkWants true true false false) (mkOuts None 0 None 0); CAnalyze demo_image] world0 with
  | Ok (e, [RAnalyze e1; RResults e2 o; RAnalyze e3], wd) =>
      e = RDEOK /\ e1 = RDEOK /\ e2 = RDEOK /\ e3 = RDEOK /\ List.length (w_live wd) = 1%nat
  | _ => False
  end.
Proof.
  split; [exact demo_client|]. split; [repeat constructor; vm_compute; discriminate|].
  vm_compute. repeat split.
Qed.

(** C03.  Every error code a client sees has a library message. *)
Lemma analysis_codes_claim : forall E m w h p calls wd e replies wd',
  client_ok E w h p -> Forall (call_ok w h) calls -> countable calls ->
  program E m w h p calls wd = Ok (e, replies, wd') ->
  forall code, code = e \/ In (RAnalyze code) replies \/ (exists o, In (RResults code o) replies) ->
  0 <= code <= resdet_get_max_error.
Proof.
  intros E m w h p calls wd e replies wd' HC HK HN EQ code HI.
  destruct (program_ok E m w h p calls wd HC HK HN) as (e1 & r1 & w1 & EQ1 & IE & OKc & NOc).
  rewrite EQ in EQ1. inversion EQ1; subst e1 r1 w1. change resdet_get_max_error with 7.
  assert (B : forall l : list Z, (forallb (fun c => (0 <=? c) && (c <=? 7)) l = true) -> forall c, In c l -> 0 <= c <= 7).
  { intros l HL c I. rewrite forallb_forall in HL. specialize (HL c I). apply andb_prop in HL. lia. }
  destruct HI as [->|HI]; [eapply B; [|exact IE]; reflexivity|].
  destruct (Z.eq_dec e RDEOK) as [X|X].
  - destruct (OKc X) as (F & _). clear -F HI B. induction F as [|c r cs rs RO F IH]; [destruct HI as [[]|(o & [])]|].
    destruct HI as [[->|I]|(o & [->|I])]; try (apply IH; solve [eauto]);
      (destruct c; unfold reply_ok in RO; try contradiction; (eapply B; [|exact RO]; reflexivity)).
  - destruct (NOc X) as (-> & _). destruct HI as [[]|(o & [])].
Qed.

(** C05, finding: one block can be lost.  A 7x5 image with the KISS backend: the
    ninth allocation fails, creation reports "out of memory" and leaves a block. *)
Lemma create_leak_refuted_claim : exists E w h p wd, client_ok E w h p /\
  match resdet_create_analysis E None w h p wd with
  | Ok (None, e, wd') => e = RDENOMEM /\ w_live wd = [] /\ w_live wd' <> []
  | _ => False
  end.
Proof.
  exists (mkEnv default_config (fun k => negb (Nat.eqb k 8)) (e_transform demo_env) (e_qsort demo_env)), 7, 5, demo_params, world0.
  split; [|vm_compute; repeat split; discriminate].
  destruct demo_client as ([A B C] & D). split; [constructor; assumption|exact D].
Qed.

(** C06.  Every reported confidence is a finite number; all but the one of the image's
    own size lie between the threshold in effect and 1. *)
Lemma confidence_range_claim : forall E m w h p images Ds len l,
  client_ok E w h p -> countable images -> reported E m w h p images Ds len l ->
  forall r, In r l -> is_finite 24 128 (r_conf r) = true /\
    (r = own_size len \/
     (B2R 24 128 (used_threshold m p) <= conf_real r <= 1 /\ 0 <= conf_real r)%R).
Proof.
  intros E m w h p imgs Ds len l HC HN R r I.
  destruct (reaches_nonempty_reported _ _ _ _ _ _ _ _ _ HC HN R) as (_ & [_ (l' & -> & _ & B)] & _).
  apply in_app_or in I. destruct I as [I|[<-|[]]].
  - destruct (B r I) as (F & T & P & _). split; [exact F|]. right. unfold conf_real. tauto.
  - split; [apply m1_val|left; reflexivity].
Qed.

(** [above_one] holds if a successful fetch returns a width confidence above 1 *)
Definition above_one (x : res (Z * list reply * world)) : bool :=
  match x with
  | Ok (_, replies, _) => existsb (fun r => match r with
      | RResults e o => (e =? RDEOK) && match o_rw o with
          | Some (_, l) => existsb (fun r => flt (f32_of_Z 1) (r_conf r)) l
          | None => false end
      | _ => false end) replies
  | Undef _ => false
  end.
Lemma above_one_spec x : above_one x = true ->
  match x with
  | Ok (_, replies, _) => exists o b l r, In (RResults RDEOK o) replies /\ o_rw o = Some (b, l) /\ In r l /\
      flt (f32_of_Z 1) (r_conf r) = true
  | Undef _ => False
  end.
Proof.
  destruct x as [[[e rs] wd]|]; [|discriminate]. cbn [above_one]. intros H. apply existsb_exists in H.
  destruct H as (r & I & H). destruct r as [|e' o]; [discriminate|]. apply andb_prop in H. destruct H as (H1 & H2).
  apply Z.eqb_eq in H1. subst e'. destruct (o_rw o) as [[b l]|] eqn:O; [|discriminate].
  apply existsb_exists in H2. destruct H2 as (r & Ir & Hr). exists o, b, l, r. auto.
Qed.

(** C06, finding: the bound fails if a previous frame ran out of memory half way.
    Method "orig", two frames of which the first fails in the height pass: the width
    confidence exceeds 1. *)
Lemma confidence_after_nomem_refuted_claim : exists E m w h p calls wd,
  client_ok E w h p /\ Forall (call_ok w h) calls /\
  match program E m w h p calls wd with
  | Ok (_, replies, _) => exists o b l r, In (RResults RDEOK o) replies /\ o_rw o = Some (b, l) /\ In r l /\
      flt (f32_of_Z 1) (r_conf r) = true
  | Undef _ => False
  end.
Proof.
  exists (mkEnv default_config (fun k => negb (Nat.eqb k 10)) (e_transform demo_env) (e_qsort demo_env)),
    (Some Morig), 7, 7, (snd (set_all (Some (default_params default_config)) [Range 1; Threshold (f32_of_Z 0)])),
    [CAnalyze (map f32_of_Z (concat (repeat [9; 9; 9; 0; -9; -9; -9] 7)));
     CAnalyze (map f32_of_Z (concat (repeat [9; 9; 9; 0; -9; -9; -9] 7)));
     CResults (mkWants true true false false) (mkOuts None 0 None 0)], world0.
  split.
  { destruct demo_env_ok as [A B C]. split; [constructor; assumption|]. split; [lia|]. split; [lia|].
    right. exists [Range 1; Threshold (f32_of_Z 0)], [RDEOK; RDEOK]. split; [repeat constructor; simpl; lia|reflexivity]. }
  split; [repeat constructor; vm_compute; discriminate|].
  apply above_one_spec. vm_compute. reflexivity.
Qed.

(** C07.  Every list is ordered by non-increasing confidence and ends with the image's
    own size, confidence -1; no other entry has that index or a negative confidence. *)
Lemma list_order_claim : forall E m w h p images Ds len l,
  client_ok E w h p -> countable images -> reported E m w h p images Ds len l ->
  StronglySorted (fun a b => (conf_real b <= conf_real a)%R) l /\
  exists others, l = others ++ [own_size len] /\
    forall r, In r others -> r_index r <> len /\ (0 <= conf_real r)%R.
Proof.
  intros E m w h p imgs Ds len l HC HN R.
  destruct (reaches_nonempty_reported _ _ _ _ _ _ _ _ _ HC HN R) as (_ & [S (l' & EQ & _ & B)] & _).
  split; [exact S|]. exists l'. split; [exact EQ|]. intros r I. destruct (B r I) as (_ & _ & P & X).
  pose proof (used_range_pos E w h m p HC). split; [lia|exact P].
Qed.

(** C08.  Without a compression filter the list consists of the image's own size and,
    exactly once each, the indices of the search window whose mean detection ratio
    reaches the threshold, with that mean as confidence. *)
Lemma exact_results_claim : forall E m w h p images Ds len l,
  client_ok E w h p -> countable images -> used_filter p = 0 -> reported E m w h p images Ds len l ->
  Permutation (pairs l) ((len, f32_of_Z (-1)) :: expected E m p Ds len).
Proof.
  intros E m w h p imgs Ds len l HC HN F0 R.
  destruct (reaches_nonempty_reported _ _ _ _ _ _ _ _ _ HC HN R) as (_ & [_ (l' & -> & P & _)] & _).
  unfold pairs. rewrite map_app. cbn [map own_size r_index r_conf].
  apply Permutation_sym. apply Permutation_cons_app. rewrite app_nil_r. unfold expected.
  eapply Permutation_trans; [|exact P]. erewrite found_ext; [apply Permutation_refl|].
  intros x _. cbn beta. symmetry. apply keeps_none. destruct (effective_used E w h m p HC) as (_ & _ & A). congruence.
Qed.

(** C08.  No index is reported twice, with or without filter. *)
Lemma no_duplicates_claim : forall E m w h p images Ds len l,
  client_ok E w h p -> countable images -> reported E m w h p images Ds len l -> NoDup (map r_index l).
Proof.
  intros E m w h p imgs Ds len l HC HN R.
  destruct (reaches_nonempty_reported _ _ _ _ _ _ _ _ _ HC HN R) as (_ & [_ (l' & -> & P & _)] & _).
  pose proof (used_range_pos E w h m p HC).
  apply (Permutation_map fst) in P.
  replace (map fst (pairs l')) with (map r_index l') in P by (unfold pairs; rewrite map_map; reflexivity).
  unfold found in P. rewrite map_map in P. cbn [fst] in P. rewrite map_id in P.
  rewrite map_app. cbn [map own_size r_index]. eapply Permutation_NoDup; [apply Permutation_cons_append|].
  constructor.
  - intros I. eapply Permutation_in in I; [|apply Permutation_sym, P]. apply filter_In in I. destruct I as (I & _).
    unfold window in I. apply in_zrange in I. lia.
  - eapply Permutation_NoDup; [exact P|]. apply NoDup_filter. apply nodup_zrange.
Qed.

(** C09.  Only indices at least [range] away from both ends are reported. *)
Lemma window_only_claim : forall E m w h p images Ds len l,
  client_ok E w h p -> countable images -> reported E m w h p images Ds len l ->
  forall r, In r l -> r = own_size len \/
    used_range (e_cfg E) m p <= r_index r < len - used_range (e_cfg E) m p.
Proof.
  intros E m w h p imgs Ds len l HC HN R r I.
  destruct (reaches_nonempty_reported _ _ _ _ _ _ _ _ _ HC HN R) as (_ & [_ (l' & -> & _ & B)] & _).
  apply in_app_or in I. destruct I as [I|[<-|[]]]; [right; apply B, I|left; reflexivity].
Qed.

(** C09.  A dimension of at most twice the range reports its own size only. *)
Lemma narrow_dimension_claim : forall E m w h p images Ds len l,
  client_ok E w h p -> countable images -> len <= 2 * used_range (e_cfg E) m p ->
  reported E m w h p images Ds len l -> l = [own_size len].
Proof.
  intros E m w h p imgs Ds len l HC HN HL R.
  destruct (reaches_nonempty_reported _ _ _ _ _ _ _ _ _ HC HN R) as (_ & [_ (l' & -> & _ & B)] & _).
  destruct l' as [|r l']; [reflexivity|]. destruct (B r (or_introl eq_refl)) as (_ & _ & _ & X). lia.
Qed.

(** C10.  An image is refused as invalid exactly if one of its first w*h samples is
    not finite.  Refusing it does not change what later fetches return. *)
Lemma invalid_image_claim : forall E m w h p images a image wd,
  client_ok E w h p -> countable images -> reaches E m w h p images a -> w * h <= Z.of_nat (length image) ->
  exists e a' wd', resdet_analyze_image E (Some a) (Some image) wd = Ok (e, Some a', wd') /\
    (e = RDEINVAL <-> ~ valid_image w h image) /\
    (e = RDEINVAL -> reaches E m w h p images a' /\ owns wd' wd [] /\
       forall q o wd1, resdet_analysis_results E (Some a') q o wd1 = resdet_analysis_results E (Some a) q o wd1).
Proof.
  intros E m w h p imgs a image wd HC HN R HL.
  destruct (analyze_step E m w h p imgs a image wd HC R HN HL) as (e & a' & wd' & EQ & O & _ & H).
  exists e, a', wd'. split; [exact EQ|].
  destruct H as [(V & -> & _)|[(V & -> & _)|(V & -> & R')]].
  - split; [|discriminate]. split; [discriminate|tauto].
  - split; [|discriminate]. split; [discriminate|tauto].
  - split; [tauto|]. intros _. split; [exact R'|]. split; [exact O|].
    intros q o wd1. apply (history_same E m w h p imgs); assumption.
Qed.

(** C10.  A valid image is accepted unless the "orig" method runs out of memory. *)
Lemma valid_image_accepted_claim : forall E m w h p images a image wd,
  client_ok E w h p -> countable images -> reaches E m w h p images a -> w * h <= Z.of_nat (length image) ->
  valid_image w h image ->
  exists e a' wd', resdet_analyze_image E (Some a) (Some image) wd = Ok (e, Some a', wd') /\
    ((e = RDEOK /\ reaches E m w h p (images ++ [image]) a') \/
     (e = RDENOMEM /\ used_method m = Morig /\ exists k, e_alloc E k = false)).
Proof.
  intros E m w h p imgs a image wd HC HN R HL V.
  destruct (analyze_step E m w h p imgs a image wd HC R HN HL) as (e & a' & wd' & EQ & O & _ & H).
  exists e, a', wd'. split; [exact EQ|].
  destruct H as [(_ & -> & R')|[(_ & -> & M)|(NV & _)]]; [left; auto|right; tauto|contradiction].
Qed.

(** a frame with an infinite last sample is not valid; the demo frame is *)
Example invalid_image_example :
  ~ valid_image 7 5 (map f32_of_Z (repeat 1 34) ++ [fdiv (f32_of_Z 1) (f32_of_Z 0)]) /\ valid_image 7 5 demo_image /\
  exists a, reaches demo_env None 7 5 demo_params [demo_image; demo_image] a.
Proof.
  split; [|split].
  - intros H. apply valid_forallb in H. vm_compute in H. discriminate.
  - apply valid_forallb. vm_compute. reflexivity.
  - apply reaches_all; [exact demo_client|reflexivity| | |unfold countable; simpl; lia].
    + unfold plan_fits. vm_compute. intuition discriminate.
    + assert (X : valid_image 7 5 demo_image /\ 7 * 5 <= zlen demo_image).
      { split; [apply valid_forallb; vm_compute; reflexivity|vm_compute; discriminate]. }
      repeat constructor; apply X.
Qed.

(** C11.  With no accepted image a fetch reports so (or a missing count pointer, which
    is checked first) and hands out nothing; with one it never does. *)
Lemma no_images_claim : forall E m w h p images a q o wd,
  client_ok E w h p -> countable images -> reaches E m w h p images a ->
  exists e o' wd', resdet_analysis_results E (Some a) q o wd = Ok (e, o', wd') /\
    (images = [] -> (e = RDENOIMG \/ (e = RDEPARAM /\ bad_wants q = true)) /\ o' = clear_outs q o /\ wd' = wd) /\
    (images <> [] -> e <> RDENOIMG).
Proof.
  intros E m w h p imgs a q o wd HC HN R.
  destruct (history_results E m w h p imgs a q o wd HC R (proj1 (countable_zlen _) HN)) as (e & o' & wd' & EQ & H).
  exists e, o', wd'. split; [exact EQ|].
  destruct H as [(-> & B & -> & ->)|[(-> & B & I & -> & ->)|[(-> & B & I & _)|(-> & B & I & _)]]].
  - split; [auto|discriminate].
  - split; [auto|]. intros X. contradiction.
  - split; [intros X; contradiction|discriminate].
  - split; [intros X; contradiction|discriminate].
Qed.

(** C12, C24.  Whatever the histories of two analyses were - refused images, other
    fetches, memory contents, even other allocation failures - if they accepted the
    same images they report the same lists. *)
Lemma same_images_same_results_claim : forall E E' m w h p images Ds len l l',
  client_ok E w h p -> client_ok E' w h p -> same_but_memory E E' -> countable images ->
  reported E m w h p images Ds len l -> reported E' m w h p images Ds len l' -> l = l'.
Proof. exact reported_same. Qed.

(** C12, C24.  ... and their fetch calls behave identically in every respect. *)
Lemma same_images_same_fetch_claim : forall E m w h p images a a' q o wd,
  client_ok E w h p -> countable images -> reaches E m w h p images a -> reaches E m w h p images a' ->
  resdet_analysis_results E (Some a) q o wd = resdet_analysis_results E (Some a') q o wd.
Proof. exact history_same. Qed.

(** C13.  The output parameters of a fetch: a failure clears every requested output; a
    success fills the requested dimensions, count equal to the list length, and leaves
    the others alone (a lone count pointer is set to 0). *)
Lemma result_outputs_claim : forall E m w h p images a q o wd,
  client_ok E w h p -> countable images -> reaches E m w h p images a ->
  exists e o' wd', resdet_analysis_results E (Some a) q o wd = Ok (e, o', wd') /\
    (e = RDEPARAM <-> (want_rw q = true /\ want_cw q = false) \/ (want_rh q = true /\ want_ch q = false)) /\
    (e <> RDEOK -> owns wd' wd [] /\
       o_rw o' = (if want_rw q then None else o_rw o) /\ o_cw o' = (if want_cw q then 0 else o_cw o) /\
       o_rh o' = (if want_rh q then None else o_rh o) /\ o_ch o' = (if want_ch q then 0 else o_ch o)) /\
    (e = RDEOK -> owns wd' wd (out_blocks q o') /\
       (want_rw q = true -> exists b l, o_rw o' = Some (b, l) /\ o_cw o' = Z.of_nat (length l)) /\
       (want_rw q = false -> o_rw o' = o_rw o /\ o_cw o' = if want_cw q then 0 else o_cw o) /\
       (want_rh q = true -> exists b l, o_rh o' = Some (b, l) /\ o_ch o' = Z.of_nat (length l)) /\
       (want_rh q = false -> o_rh o' = o_rh o /\ o_ch o' = if want_ch q then 0 else o_ch o)).
Proof.
  intros E m w h p imgs a q o wd HC HN R.
  destruct (history_results E m w h p imgs a q o wd HC R (proj1 (countable_zlen _) HN)) as (e & o' & wd' & EQ & H).
  exists e, o', wd'. split; [exact EQ|].
  assert (BW : bad_wants q = true <-> (want_rw q = true /\ want_cw q = false) \/ (want_rh q = true /\ want_ch q = false)).
  { unfold bad_wants. destruct (want_rw q), (want_cw q), (want_rh q), (want_ch q); cbn; intuition discriminate. }
  destruct H as [(-> & B & -> & ->)|[(-> & B & I & -> & ->)|[(-> & B & I & -> & O & _)|(-> & B & I & bs & F & O)]]];
    rewrite B in BW.
  - split; [tauto|]. split; [|discriminate]. intros _. split; [apply owns_refl|]. auto.
  - split; [intuition discriminate|]. split; [|discriminate]. intros _. split; [apply owns_refl|]. auto.
  - split; [intuition discriminate|]. split; [|discriminate]. intros _. split; [exact O|]. auto.
  - split; [intuition discriminate|]. split; [intros X; contradiction X; reflexivity|]. intros _.
    rewrite (filled_blocks _ _ _ _ _ _ F). split; [exact O|].
    destruct F as (bx & by_ & F1 & F2 & F3 & F4 & _).
    split; [intros W; rewrite W in F1, F2; eauto|]. split; [intros W; rewrite W in F1, F2; auto|].
    split; [intros W; rewrite W in F3, F4; eauto|intros W; rewrite W in F3, F4; auto].
Qed.

(** C13.  A NULL analysis is a parameter error. *)
Lemma result_null_claim : forall E q o wd,
  resdet_analysis_results E None q o wd = Ok (RDEPARAM, clear_outs q o, wd).
Proof. intros E q o wd. unfold resdet_analysis_results. destruct (bad_wants q); reflexivity. Qed.

(** C14.  resdetect on n frames is create, analyse the n consecutive frames, fetch,
    destroy - as a function: same error, same outputs, same heap, for every pattern of
    allocation failures. *)
Lemma resdetect_sequential_claim : forall E image n w h q m p o wd,
  client_ok E w h p -> 0 <= n -> Z.of_nat (length image) < 2^62 -> n * (w * h) <= Z.of_nat (length image) ->
  resdetect E (Some image) n w h q m p o wd =
  if bad_wants q then Ok (RDEPARAM, clear_outs q o, wd)
  else if n =? 0 then Ok (RDENOIMG, clear_outs q o, wd)
  else by_hand E (frames_of (Z.to_nat n) (w * h) image) w h q m p o wd.
Proof. exact resdetect_by_hand. Qed.

(** C14.  Its outcome: results of exactly these frames, or an error with cleared
    outputs; memory is held by the lists only. *)
Lemma resdetect_outcome_claim : forall E image n w h q m p o wd,
  client_ok E w h p -> 1 <= n -> Z.of_nat (length image) < 2^62 -> n * (w * h) <= Z.of_nat (length image) ->
  bad_wants q = false ->
  let frames := frames_of (Z.to_nat n) (w * h) image in
  exists e o' wd', resdetect E (Some image) n w h q m p o wd = Ok (e, o', wd') /\
   (e = RDEOK -> Forall (valid_image w h) frames /\ owns wd' wd (out_blocks q o') /\
     (want_rw q = true -> exists b l, o_rw o' = Some (b, l) /\ o_cw o' = Z.of_nat (length l) /\
        reported E m w h p frames (seen_x E w h frames) w l) /\
     (want_rh q = true -> exists b l, o_rh o' = Some (b, l) /\ o_ch o' = Z.of_nat (length l) /\
        reported E m w h p frames (seen_y E w h frames) h l)) /\
   (e <> RDEOK -> o' = clear_outs q o /\ holds_only E w h wd wd' [] /\
     In e [RDEINVAL; RDETOOBIG; RDENOMEM; RDEINTERNAL] /\
     (e = RDEINVAL -> w = 0 \/ h = 0 \/ ~ Forall (valid_image w h) frames)).
Proof.
  intros E image n w h q m p o wd HC Hn HL HI BW frames.
  rewrite (resdetect_by_hand E image n w h q m p o wd HC ltac:(lia) HL HI), BW.
  destruct (Z.eqb_spec n 0); [lia|]. fold frames.
  assert (FL : length frames = Z.to_nat n) by apply frames_len.
  assert (HS : 0 <= w * h) by (destruct HC as (_ & ? & ? & _); nia).
  destruct (Z.eq_dec (w * h) 0) as [Z0|NZ].
  { (* a zero dimension: creation fails *)
    destruct (client_sizes _ _ _ _ HC) as (Hw & Hh). unfold by_hand.
    destruct (create_ok E m w h p wd (eo_config _ (proj1 HC)) Hw Hh (client_valid _ _ _ _ HC)) as (ao & e & wd1 & EQ & H).
    rewrite EQ. cbn [bind]. destruct ao as [a|].
    - destruct H as (_ & (? & ? & _) & _). nia.
    - destruct H as (CE & leak & O & HB). do 3 eexists. split; [reflexivity|]. split.
      + intros ->. destruct CE as [(X & _)|[(X & _)|[(X & _)|(X & _)]]]; discriminate X.
      + intros _. split; [reflexivity|]. split.
        { destruct HB as [->|((b & ->) & L)]; [left; exact O|right]. split; [apply leaks_leaky, L|]. exists b. exact O. }
        split; [destruct CE as [(-> & _)|[(-> & _)|[(-> & _)|(-> & _)]]]; simpl; auto|].
        intros _. nia. }
  assert (CN : countable frames). { unfold countable. rewrite FL. unfold zlen in *. nia. }
  assert (FB : Forall (fun f => w * h <= zlen f) frames).
  { apply frames_big; [exact HS|]. rewrite Z2Nat.id by lia. exact HI. }
  destruct (by_hand_ok E m w h p frames q o wd HC FB CN) as (e & o' & wd' & EQ & H).
  { intros X. rewrite X in FL. cbn in FL. lia. } { exact BW. }
  exists e, o', wd'. split; [exact EQ|].
  destruct H as [(-> & V & O & a & wda & wdb & R & RR)|(NE & -> & HO & HI2 & HE)].
  - split; [|intros X; contradiction X; reflexivity]. intros _. split; [exact V|]. split; [exact O|].
    destruct (history_results E m w h p frames a q o wda HC R (proj1 (countable_zlen _) CN)) as (e & o2 & wd2 & EQ2 & H).
    rewrite RR in EQ2. inversion EQ2; subst e o2 wd2.
    destruct H as [(X & _)|[(X & _)|[(X & _)|(_ & _ & _ & bs & F & _)]]]; try discriminate X.
    destruct F as (bx & by_ & F1 & F2 & F3 & F4 & _).
    split; intros W.
    + rewrite W in F1, F2. do 2 eexists. split; [exact F1|]. split; [exact F2|].
      eapply reported_width; [exact R|exact W|exact RR|exact F1].
    + rewrite W in F3, F4. do 2 eexists. split; [exact F3|]. split; [exact F4|].
      eapply reported_height; [exact R|exact W|exact RR|exact F3].
  - split; [intros X; contradiction|]. intros _. split; [reflexivity|]. split; [exact HO|]. split; assumption.
Qed.

(** C16.  After k frames every reported confidence is the exact mean, over the frames,
    of the fraction of pairs meeting the criterion, up to 2^-25 + (k+10) 2^-53. *)
Lemma mean_error_claim : forall E m w h p images Ds len l,
  client_ok E w h p -> Z.of_nat (length images) <= 2^53 -> reported E m w h p images Ds len l ->
  forall r, In r l -> r = own_size len \/
   (Rabs (conf_real r - exact_mean (used_criterion (e_cfg E) m) Ds (used_range (e_cfg E) m p) (r_index r))
     <= / 2^25 + (INR (length images) + 10) * / 2^53)%R.
Proof.
  intros E m w h p imgs Ds len l HC HN R r I.
  assert (CN : countable imgs) by (unfold countable; lia).
  destruct (seen_lines _ _ _ _ _ _ _ _ _ HC CN R) as (HL & HZ & HD & HLen).
  apply (reported_in _ _ _ _ _ _ _ _ _ HC CN R) in I. destruct I as [I|I]; [left; exact I|right].
  apply found_in in I. destruct I as (B & V & _). pose proof (used_range_pos E w h m p HC).
  unfold conf_real. rewrite V.
  pose proof (mean_err (used_criterion (e_cfg E) m) Ds (used_range (e_cfg E) m p) (r_index r)) as ME.
  unfold INT_MAX in *. specialize (ME ltac:(lia) ltac:(intros D ID; apply HL, ID) ltac:(unfold zlen in *; lia)).
  replace (length imgs) with (length Ds) by (unfold zlen in HZ; lia).
  change (bpow radix2 (-25)) with (/ IZR (2^25))%R in ME. change (bpow radix2 (-53)) with (/ IZR (2^53))%R in ME.
  replace (2 ^ 25)%R with (IZR (2^25)) by (simpl; lra). replace (2 ^ 53)%R with (IZR (2^53)) by (simpl; lra).
  exact ME.
Qed.

(** C17.  What each method adds to the result buffer for one coefficient array, in any
    memory layout: hits divided by the number tested ([ratio]), at every position of
    the window; [Morig] fails only if its scratch buffer cannot be allocated. *)
Lemma method_counts_claim : forall c al m f n stride dist D range result wd,
  geometry f n stride dist D -> d_len D < 2^64 -> 1 <= range -> 2 * range < d_len D ->
  n * range < storage_mod c -> n <= 2^53 -> range <= 2^53 -> (m = Mzerox -> range = 1) ->
  Z.of_nat (length result) = d_len D - 2 * range ->
  (forall i, 0 <= i < Z.of_nat (length result) ->
    is_finite 53 1024 (at_ d0 result i) = true /\ Bsign 53 1024 (at_ d0 result i) = false) ->
  exists e result' wd',
    run_method c al wd m f (d_len D) n stride dist range result (range, d_len D - range) =
      Ok (e, result', (range, d_len D - range), wd') /\
    ((e = RDEOK /\ Z.of_nat (length result') = Z.of_nat (length result) /\
      forall i, 0 <= i < Z.of_nat (length result) ->
       at_ d0 result' i = dadd (at_ d0 result i)
         (ratio (match m with Msign => Sign | Mmag => Magnitude (c_frexp_special c <=? 0)
                            | Morig => Original | Mzerox => ZeroCrossing end) D range (range + i))) \/
     (e = RDENOMEM /\ result' = result /\ m = Morig /\ al (w_count wd) = false)).
Proof.
  intros c al m f n stride dist D range result wd G H1 H2 H3 H4 H5 H6 H7 H8 H9.
  destruct (run_method_ok c al m f n stride dist range D result G H1 H2 H3 H4 H5 H6 H7 H8 wd) as (e & r' & w' & EQ & _ & H).
  { intros _ i Hi. destruct (H9 i Hi) as (A & B). exists (rd (at_ d0 result i)). split; [exact A|]. split; [exact B|reflexivity]. }
  exists e, r', w'. split; [exact EQ|]. destruct H as [(-> & A)|H]; [left|right; exact H].
  split; [reflexivity|]. exact A.
Qed.

(** C17.  For a single frame the confidence is the fraction itself, rounded to double
    and then to single precision. *)
Lemma single_frame_claim : forall E m w h p image D len l,
  client_ok E w h p -> w * h <= 2^53 -> reported E m w h p [image] [D] len l ->
  forall r, In r l -> r = own_size len \/
    conf_real r = round radix2 (FLT_exp (-149) 24) ZnearestE
      (round radix2 (FLT_exp (-1074) 53) ZnearestE
        (exact_ratio (used_criterion (e_cfg E) m) (used_range (e_cfg E) m p) (r_index r) D)).
Proof.
  intros E m w h p image D len l HC HA R r I.
  assert (CN : countable [image]) by (unfold countable; simpl; lia).
  destruct (seen_lines _ _ _ _ _ _ _ _ _ HC CN R) as (HL & HZ & HD & HLen).
  destruct (reaches_nonempty_reported _ _ _ _ _ _ _ _ _ HC CN R) as (_ & _ & _ & DD).
  apply (reported_in _ _ _ _ _ _ _ _ _ HC CN R) in I. destruct I as [I|I]; [left; exact I|right].
  apply found_in in I. destruct I as (B & V & _). pose proof (used_range_pos E w h m p HC).
  unfold conf_real. rewrite V. set (c := used_criterion (e_cfg E) m) in *. set (range := used_range (e_cfg E) m p) in *.
  set (x := r_index r) in *. unfold INT_MAX in *.
  destruct (HL D (or_introl eq_refl)) as (HLn & HLe).
  assert (HT : 1 <= tested c D range <= 2^53).
  { assert (d_lines D * len = w * h).
    { destruct DD as [(DD & ->)|(DD & ->)]; inversion DD; subst D; cbn; lia. }
    unfold tested. destruct c; nia. }
  assert (HB := hits_bounds c D range x ltac:(lia) ltac:(lia)).
  change (match c with ZeroCrossing => d_lines D | _ => d_lines D * range end) with (tested c D range) in HB.
  set (k := hits c D range x) in *. set (d := tested c D range) in *.
  assert (Q : dval (ratio c D range x) (rnd64 (rnd64 (IZR k) / rnd64 (IZR d))) /\ (rnd64 (rnd64 (IZR k) / rnd64 (IZR d)) <= 1)%R).
  { unfold ratio. fold k. unfold d, tested in *.
    destruct c; (apply quotient_val; [lia|lia| |lia|lia]); try (apply denominator_val; lia). apply f64_of_Z_val; lia. }
  destruct Q as (Q & Q1). rewrite !rnd64_Z in Q, Q1 by lia.
  assert (Rdiv_1 : forall z, (z / 1)%R = z) by (intros; field).
  assert (M : mean c [D] range x = ratio c D range x).
  { assert (DA : dadd d0 (ratio c D range x) = ratio c D range x).
    { pose proof (dadd_val _ _ _ _ d0_val Q) as A. rewrite Rplus_0_l in A. rewrite (dval_fmt _ _ Q) in A.
      eapply dval_inj; [apply A|exact Q]. apply Rle_trans with 1%R; [exact Q1|]. change 1%R with (bpow radix2 0). apply bpow_le. lia. }
    unfold mean, total. cbn [fold_left length]. rewrite DA. change (Z.of_nat 1) with 1.
    eapply dval_inj; [|exact Q].
    replace (rnd64 (IZR k / IZR d)) with (rnd64 (rnd64 (IZR k / IZR d) / 1)).
    - apply ddiv_val; [exact Q|apply f64_of_Z_exact; lia|lra|]. rewrite Rdiv_1. apply Rle_trans with 1%R; [exact Q1|].
      change 1%R with (bpow radix2 0). apply bpow_le. lia.
    - rewrite Rdiv_1. apply (dval_fmt _ _ Q). }
  replace (mean c [D] range x) with (ratio c D range x) in * by (symmetry; exact M). destruct (f32_of_f64_val _ _ Q) as (_ & _ & F).
  { apply Rle_trans with 1%R; [exact Q1|]. change 1%R with (bpow radix2 0). apply bpow_le. lia. }
  rewrite F. reflexivity.
Qed.

(** C18.  The parameters an analysis works with: the range and filter given (1 for
    zero crossing), and the threshold given or, if none was accepted by the setter, the
    method's. *)
Lemma analysis_parameters_claim : forall E m w h p images a,
  client_ok E w h p -> countable images -> reaches E m w h p images a ->
  p_range (an_params a) = used_range (e_cfg E) m p /\
  p_threshold (an_params a) = used_threshold m p /\
  p_filter (an_params a) = used_filter p.
Proof.
  intros E m w h p imgs a HC HN R.
  destruct (history_known E m w h p imgs a HC R (proj1 (countable_zlen _) HN)) as [_ _ S _ A B _ C].
  rewrite (as_params _ _ _ _ _ _ _ _ _ S). auto.
Qed.

Lemma last_value_cases {A} (pick : setting -> option A) d l v : last_value pick d l v ->
  (v = d /\ forall s, In s l -> pick s = None \/ ~ documented s) \/
  (exists s, In s l /\ pick s = Some v /\ documented s).
Proof.
  induction 1 as [|l s v P D|l s v P L IH].
  - left. split; [reflexivity|]. intros s [].
  - right. exists s. split; [apply in_or_app; right; left; reflexivity|]. auto.
  - destruct IH as [(-> & IH)|(s' & I & P' & D')].
    + left. split; [reflexivity|]. intros s' I. apply in_app_or in I. destruct I as [I|[<-|[]]]; [apply IH, I|exact P].
    + right. exists s'. split; [apply in_or_app; left; exact I|]. auto.
Qed.

(** C18.  The method's default threshold is used exactly when no setter call with an
    acceptable threshold was made. *)
Lemma default_threshold_claim : forall c m l es p, Forall typed l -> set_all (Some (default_params c)) l = (es, Some p) ->
  (forall t, In (Threshold t) l -> ~ unit_number t) /\ used_threshold m (Some p) = method_threshold (used_method m) \/
  (exists t, In (Threshold t) l /\ unit_number t /\ used_threshold m (Some p) = t /\ p_threshold p = t).
Proof.
  intros c m l es p HT H. destruct (set_history_ok (default_params c) l HT) as (es' & p' & H' & _ & _ & L & _).
  rewrite H in H'. inversion H'; subst es' p'. apply last_value_cases in L.
  destruct L as [(L & N)|(s & I & P & D)].
  - left. split.
    + intros t I U. destruct (N _ I) as [X|X]; [discriminate X|]. apply X. exact U.
    + unfold used_threshold. rewrite L. reflexivity.
  - right. destruct s as [v|t|v]; try discriminate P. cbn in P, D. inversion P; subst t.
    exists (p_threshold p). split; [exact I|]. split; [exact D|]. split; [|reflexivity].
    unfold used_threshold. destruct D as (F & B). fold (ffinite (p_threshold p)) in F.
    rewrite <- flt_zero by exact F. destruct (flt (p_threshold p) (f32_of_Z 0)) eqn:X; [|reflexivity].
    destruct (f32_of_Z_exact 0 ltac:(lia)) as (Z1 & _ & Z3). apply flt_spec in X; [|exact F|exact Z1]. rewrite Z3 in X. lra.
Qed.

(** C19.  Raising the threshold only removes entries. *)
Lemma threshold_monotone_claim : forall E m w h p p' images Ds len l l',
  client_ok E w h p -> client_ok E w h p' -> countable images ->
  used_range (e_cfg E) m p = used_range (e_cfg E) m p' -> used_filter p = used_filter p' ->
  (B2R 24 128 (used_threshold m p) <= B2R 24 128 (used_threshold m p'))%R ->
  reported E m w h p images Ds len l -> reported E m w h p' images Ds len l' ->
  forall r, In r l' -> In r l.
Proof. exact threshold_monotone. Qed.

(** C20.  With threshold 0 and no filter every index of the window is reported. *)
Lemma threshold_zero_claim : forall E m w h p images Ds len l,
  client_ok E w h p -> countable images ->
  B2R 24 128 (used_threshold m p) = 0%R -> used_filter p = 0 -> reported E m w h p images Ds len l ->
  Permutation (map r_index l) (len :: zrange (used_range (e_cfg E) m p) (len - used_range (e_cfg E) m p)).
Proof. exact threshold_zero. Qed.

(** C20, finding: "every single line/column" (doc/libresdet.md) is not reported; the
    range at both ends is left out.  7x5 image, range 2. *)
Lemma threshold_zero_every_line_refuted_claim : exists E m w h p images l,
  client_ok E w h p /\ B2R 24 128 (used_threshold m p) = 0%R /\ used_filter p = 0 /\
  reported E m w h p images (seen_x E w h images) w l /\
  exists x, 0 < x < w /\ ~ In x (map r_index l).
Proof.
  set (P := snd (set_all (Some (default_params default_config)) [Range 2; Threshold (f32_of_Z 0)])).
  assert (HC : client_ok demo_env 7 5 P).
  { split; [exact demo_env_ok|]. split; [lia|]. split; [lia|]. right. exists [Range 2; Threshold (f32_of_Z 0)], [RDEOK; RDEOK].
    split; [repeat constructor; simpl; lia|reflexivity]. }
  assert (HN : countable [demo_image]) by (unfold countable; simpl; lia).
  destruct (reported_all demo_env (Some Msign) 7 5 P [demo_image] HC) as (lx & ly & RX & _).
  { reflexivity. } { unfold plan_fits. vm_compute. intuition discriminate. }
  { constructor; [|constructor]. split; [apply valid_forallb; vm_compute; reflexivity|vm_compute; discriminate]. }
  { exact HN. } { discriminate. }
  exists demo_env, (Some Msign), 7, 5, P, [demo_image], lx.
  assert (T0 : B2R 24 128 (used_threshold (Some Msign) P) = 0%R) by (destruct (f32_of_Z_exact 0 ltac:(lia)) as (_ & _ & Z3); exact Z3).
  split; [exact HC|]. split; [exact T0|]. split; [reflexivity|]. split; [exact RX|].
  exists 1. split; [lia|]. intros I.
  eapply Permutation_in in I; [|apply (threshold_zero _ _ _ _ _ _ _ _ _ HC HN T0 eq_refl RX)].
  vm_compute in I. intuition discriminate.
Qed.

(** C21.  Transposing the planes swaps the two lists. *)
Lemma transpose_claim : forall E m w h p images images' lx ly lx' ly',
  client_ok E w h p -> countable images -> Forall2 (transposed E w h) images images' ->
  reported E m w h p images (seen_x E w h images) w lx -> reported E m w h p images (seen_y E w h images) h ly ->
  reported E m h w p images' (seen_x E h w images') h lx' -> reported E m h w p images' (seen_y E h w images') w ly' ->
  lx = ly' /\ ly = lx'.
Proof.
  intros E m w h p imgs imgs' lx ly lx' ly' HC HN F A B C D. split.
  - eapply transpose_x; eassumption.
  - eapply transpose_y; eassumption.
Qed.

Example transpose_example :
  transposed demo_env 7 5 demo_image
    (map (fun k => at_ f0 demo_image ((k mod 5) * 7 + k / 5)) (zrange 0 35)).
Proof.
  assert (X : forallb (fun x => forallb (fun y =>
     (Z.eqb (Bits.bits_of_b32 (at_ f0 (plane demo_env 7 5 demo_image) (y * 7 + x)))
       (Bits.bits_of_b32 (at_ f0 (plane demo_env 5 7 (map (fun k => at_ f0 demo_image ((k mod 5) * 7 + k / 5)) (zrange 0 35))) (x * 5 + y)))))
     (zrange 0 5)) (zrange 0 7) = true) by (vm_compute; reflexivity).
  intros x y Hx Hy. rewrite forallb_forall in X. specialize (X x (proj2 (in_zrange _ _ _) Hx)).
  rewrite forallb_forall in X. specialize (X y (proj2 (in_zrange _ _ _) Hy)). apply Z.eqb_eq in X.
  apply (f_equal Bits.b32_of_bits) in X. unfold Bits.b32_of_bits, Bits.bits_of_b32 in X.
  rewrite !Bits.binary_float_of_bits_of_binary_float in X. exact X.
Qed.

(** C22.  A filter value of 0 removes nothing ... (see [exact_results]); a value v
    (sides up to 2^22) keeps exactly the indices whose distance from the start of the
    window is a multiple of 2^v. *)
Lemma filter_law_claim : forall E m w h p images Ds len l,
  client_ok E w h p -> countable images -> used_filter p <> 0 -> len <= 2^22 -> reported E m w h p images Ds len l ->
  Permutation (pairs l) ((len, f32_of_Z (-1)) ::
    found (used_criterion (e_cfg E) m) Ds len (used_range (e_cfg E) m p) (used_threshold m p)
      (fun x => (x - used_range (e_cfg E) m p) mod 2 ^ used_filter p =? 0)).
Proof.
  intros E m w h p imgs Ds len l HC HN F0 HL R.
  destruct (reaches_nonempty_reported _ _ _ _ _ _ _ _ _ HC HN R) as (_ & [_ (l' & -> & P & _)] & _).
  unfold pairs. rewrite map_app. cbn [map own_size r_index r_conf].
  apply Permutation_sym. apply Permutation_cons_app. rewrite app_nil_r.
  eapply Permutation_trans; [|exact P]. erewrite found_ext; [apply Permutation_refl|].
  intros x Hx. cbn beta. destruct (effective_used E w h m p HC) as (A & _ & B).
  pose proof (used_range_pos E w h m p HC).
  unfold keeps. rewrite A, B. symmetry. apply keeps_multiple; [lia| |lia].
  destruct (effective_ok (e_cfg E) (the_method m) p (eo_config _ (proj1 HC)) (client_valid _ _ _ _ HC)) as (PO & _).
  pose proof (po_filter _ PO). lia.
Qed.

Lemma filter_kept E m w h p images Ds len l :
  client_ok E w h p -> countable images -> used_filter p <> 0 -> len <= 2^22 -> reported E m w h p images Ds len l ->
  forall r, In r l -> r = own_size len \/ (r_index r - used_range (e_cfg E) m p) mod 2 ^ used_filter p = 0.
Proof.
  intros HC HN F0 HL R r I. pose proof (filter_law_claim _ _ _ _ _ _ _ _ _ HC HN F0 HL R) as P.
  destruct (reaches_nonempty_reported _ _ _ _ _ _ _ _ _ HC HN R) as (_ & [_ (l' & EQ & _ & B)] & _).
  subst l. apply in_app_or in I. destruct I as [I|[<-|[]]]; [right|left; reflexivity].
  destruct (B r I) as (_ & _ & _ & X). pose proof (used_range_pos E w h m p HC).
  assert (J : In (r_index r, r_conf r) (pairs (l' ++ [own_size len]))).
  { unfold pairs. apply (in_map (fun r => (r_index r, r_conf r))). apply in_or_app. left. exact I. }
  eapply Permutation_in in J; [|exact P]. destruct J as [J|J]; [inversion J; lia|].
  unfold found in J. apply in_map_iff in J. destruct J as (x & J1 & J2). inversion J1; subst x.
  apply filter_In in J2. destruct J2 as (_ & J2). apply andb_prop in J2. destruct J2 as (_ & J2). lia.
Qed.

(** C22, finding: the documented behaviour ("removes results at intervals of the image
    size / 2^value") is not what happens.  Image 7x5, range 1, threshold 0, filter 1:
    index 2, which is at no multiple of 7/2, is removed, though it is reported without
    the filter. *)
Lemma filter_documentation_refuted_claim : exists E m w h p p' images l l' r,
  client_ok E w h p /\ client_ok E w h p' /\ used_filter p = 1 /\ used_filter p' = 0 /\
  reported E m w h p images (seen_x E w h images) w l /\ reported E m w h p' images (seen_x E w h images) w l' /\
  In r l' /\ ~ In r l /\ ~ (exists k, 2 * r_index r = k * w).
Proof.
  set (P := snd (set_all (Some (default_params default_config)) [Range 1; Threshold (f32_of_Z 0); Filter 1])).
  set (P' := snd (set_all (Some (default_params default_config)) [Range 1; Threshold (f32_of_Z 0)])).
  assert (HC : client_ok demo_env 7 5 P).
  { split; [exact demo_env_ok|]. split; [lia|]. split; [lia|]. right. exists [Range 1; Threshold (f32_of_Z 0); Filter 1], [RDEOK; RDEOK; RDEOK].
    split; [repeat constructor; simpl; lia|reflexivity]. }
  assert (HC' : client_ok demo_env 7 5 P').
  { split; [exact demo_env_ok|]. split; [lia|]. split; [lia|]. right. exists [Range 1; Threshold (f32_of_Z 0)], [RDEOK; RDEOK].
    split; [repeat constructor; simpl; lia|reflexivity]. }
  assert (HN : countable [demo_image]) by (unfold countable; simpl; lia).
  assert (RA : forall p, client_ok demo_env 7 5 p -> exists lx ly, reported demo_env (Some Msign) 7 5 p [demo_image] (seen_x demo_env 7 5 [demo_image]) 7 lx /\
     reported demo_env (Some Msign) 7 5 p [demo_image] (seen_y demo_env 7 5 [demo_image]) 5 ly).
  { intros p Hp. apply reported_all; [exact Hp|reflexivity| | |exact HN|discriminate].
    - unfold plan_fits. vm_compute. intuition discriminate.
    - constructor; [|constructor]. split; [apply valid_forallb; vm_compute; reflexivity|vm_compute; discriminate]. }
  destruct (RA P HC) as (l & _ & R & _). destruct (RA P' HC') as (l' & _ & R' & _).
  assert (T0 : B2R 24 128 (used_threshold (Some Msign) P') = 0%R) by (destruct (f32_of_Z_exact 0 ltac:(lia)) as (_ & _ & Z3); exact Z3).
  assert (I : In 2 (map r_index l')).
  { eapply Permutation_in; [apply Permutation_sym, (threshold_zero _ _ _ _ _ _ _ _ _ HC' HN T0 eq_refl R')|]. vm_compute. tauto. }
  apply in_map_iff in I. destruct I as (r & Ir & I).
  exists demo_env, (Some Msign), 7, 5, P, P', [demo_image], l, l', r.
  split; [exact HC|]. split; [exact HC'|]. split; [reflexivity|]. split; [reflexivity|].
  split; [exact R|]. split; [exact R'|]. split; [exact I|]. split.
  - intros X. destruct (filter_kept demo_env (Some Msign) 7 5 P [demo_image] _ 7 l HC HN ltac:(discriminate) ltac:(lia) R r X) as [Y|Y].
    + subst r. discriminate Ir.
    + rewrite Ir in Y. vm_compute in Y. discriminate Y.
  - intros (k & K). lia.
Qed.

(** C23.  The zero crossing method ignores the range parameter. *)
Lemma zerox_range_claim : forall E w h p p' images Ds len l l',
  client_ok E w h p -> client_ok E w h p' -> countable images ->
  used_threshold (Some Mzerox) p = used_threshold (Some Mzerox) p' -> used_filter p = used_filter p' ->
  reported E (Some Mzerox) w h p images Ds len l -> reported E (Some Mzerox) w h p' images Ds len l' -> l = l'.
Proof.
  intros E w h p p' imgs Ds len l l' HC HC' HN T F R R'.
  eapply reported_params; [exact HC|exact HC'| |exact T|exact F|exact HN|exact R|exact R']. reflexivity.
Qed.

(** C23.  Its window is [1, size-1). *)
Lemma zerox_window_claim : forall E w h p images Ds len l,
  client_ok E w h p -> countable images -> reported E (Some Mzerox) w h p images Ds len l ->
  forall r, In r l -> r = own_size len \/ 1 <= r_index r < len - 1.
Proof. intros E w h p imgs Ds len l HC HN R r I. exact (window_only_claim E (Some Mzerox) w h p imgs Ds len l HC HN R r I). Qed.
