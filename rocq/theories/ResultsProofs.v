(** Fetching results, whole histories and resdetect(). *)
From Coq Require Import Reals Lra Permutation Sorted.
From Flocq Require Import Core IEEE754.BinarySingleNaN IEEE754.Binary IEEE754.Bits.
From Verif Require Import Base Flt Util Methods Analysis Resdetect Spec SpecAnalysis History SpecUtil SpecReport
  BaseProofs FltProofs MethodsProofs WorldProofs AnalysisProofs.
Open Scope list_scope.
Open Scope Z_scope.

(** the list reported for one dimension *)
Definition report (E : env) (m : method) (p : params) (Ds : list dim) (n len : Z) : list rdres :=
  e_qsort E sortres (mkRes len (f32_of_Z (-1)) ::
    entries (criterion_of (e_cfg E) m) Ds n len (p_range p) (p_threshold p) (keeps p len)).

Definition report_x E m w h p xs n := report E m p (map (dim_x w h) xs) n w.
Definition report_y E m w h p ys n := report E m p (map (dim_y w h) ys) n h.

(** what a call of resdet_analysis_results leaves in the outputs when it succeeds *)
Definition filled (q : wants) (o o' : outs) (lx ly : list rdres) (bs : list nat) : Prop :=
  exists bx by_,
   o_rw o' = (if want_rw q then Some (bx, lx) else o_rw o) /\
   o_cw o' = (if want_rw q then zlen lx else if want_cw q then 0 else o_cw o) /\
   o_rh o' = (if want_rh q then Some (by_, ly) else o_rh o) /\
   o_ch o' = (if want_rh q then zlen ly else if want_ch q then 0 else o_ch o) /\
   bs = (if want_rw q then [bx] else []) ++ (if want_rh q then [by_] else []).

Lemma zlen_perm {A} (l l' : list A) : Permutation l l' -> zlen l = zlen l'.
Proof. intros H. unfold zlen. apply Permutation_length in H. lia. Qed.

Lemma entries_finite c Ds n len range thr keep r :
  (forall D, In D Ds -> 0 < d_lines D <= 2^31) -> 1 <= range -> len <= INT_MAX -> 1 <= n <= SIZE_MAX ->
  In r (entries c Ds n len range thr keep) ->
  ffinite (r_conf r) = true /\ (0 <= rf (r_conf r))%R.
Proof.
  intros HD Hr Hl Hn H. unfold entries in H. apply in_map_iff in H. destruct H as (x & <- & H).
  apply filter_In in H. destruct H as (H & _). unfold window in H. apply in_zrange in H.
  unfold INT_MAX in *. cbn [r_conf].
  destruct (conf_val c Ds n range x HD ltac:(lia) Hn) as (F & P & _). auto.
Qed.

Lemma report_ok E m p Ds n len :
  env_ok E -> (forall D, In D Ds -> 0 < d_lines D <= 2^31) -> 1 <= p_range p -> len <= INT_MAX -> 1 <= n <= SIZE_MAX ->
  let es := entries (criterion_of (e_cfg E) m) Ds n len (p_range p) (p_threshold p) (keeps p len) in
  descending (report E m p Ds n len) /\ zlen (report E m p Ds n len) = zlen es + 1 /\
  exists l', report E m p Ds n len = l' ++ [mkRes len (f32_of_Z (-1))] /\ Permutation es l'.
Proof.
  intros HE HD Hr Hl Hn es.
  destruct (sorted_entries_ok E len es HE) as (P & S & L).
  - intros r H. eapply entries_finite; eauto.
  - split; [exact S|]. split; [|exact L]. apply zlen_perm in P. rewrite zlen_cons in P. symmetry. exact P.
Qed.

Section Results.
Variables (E : env) (a : analysis) (m : method) (w h : Z) (p : params) (xs ys : list (list f32)) (n : Z).
Hypothesis HE : env_ok E.
Hypothesis HS : an_state E a m w h p xs ys n.
Hypothesis HF : 0 <= p_filter p <= 31.
Hypothesis Hn : 0 <= n <= SIZE_MAX.

Lemma lines_x D : In D (map (dim_x w h) xs) -> 0 < d_lines D <= 2^31.
Proof using HS. intros H. apply in_map_iff in H. destruct H as (q & <- & _). simpl.
  pose proof (as_h _ _ _ _ _ _ _ _ _ HS). unfold INT_MAX in *. lia. Qed.
Lemma lines_y D : In D (map (dim_y w h) ys) -> 0 < d_lines D <= 2^31.
Proof using HS. intros H. apply in_map_iff in H. destruct H as (q & <- & _). simpl.
  pose proof (as_w _ _ _ _ _ _ _ _ _ HS). unfold INT_MAX in *. lia. Qed.

Lemma gen_x wd : 1 <= n -> generate_dimension_results E a (an_width a) (an_xbound a) (an_xresult a) wd =
  match alloc (e_alloc E) wd with
  | (None, wd') => Ok (RDENOMEM, None, 0, wd')
  | (Some blk, wd') => Ok (RDEOK, Some (blk, report_x E m w h p xs n), zlen (report_x E m w h p xs n), wd')
  end.
Proof using All.
  intros N1. pose proof HS as HS'. destruct HS' as [Sw Sh Sa Sb Sm Swd Shd Sp Sr Sz Sf Sx Sy Sn].
  rewrite Swd. rewrite generate_ok with (m := m) (Ds := map (dim_x w h) xs) (n := n).
  - rewrite Sp. destruct (alloc (e_alloc E) wd) as [[b|] wd']; [|reflexivity].
    unfold report_x.
    destruct (report_ok E m p (map (dim_x w h) xs) n w HE lines_x ltac:(lia) ltac:(lia) ltac:(lia)) as (_ & L & _).
    rewrite L, zlen_cons. reflexivity.
  - rewrite Sp. exact Sx.
  - exact Sn.
  - lia.
  - rewrite Sp. exact Sr.
  - rewrite Sp. exact HF.
Qed.

Lemma gen_y wd : 1 <= n -> generate_dimension_results E a (an_height a) (an_ybound a) (an_yresult a) wd =
  match alloc (e_alloc E) wd with
  | (None, wd') => Ok (RDENOMEM, None, 0, wd')
  | (Some blk, wd') => Ok (RDEOK, Some (blk, report_y E m w h p ys n), zlen (report_y E m w h p ys n), wd')
  end.
Proof using All.
  intros N1. pose proof HS as HS'. destruct HS' as [Sw Sh Sa Sb Sm Swd Shd Sp Sr Sz Sf Sx Sy Sn].
  rewrite Shd. rewrite generate_ok with (m := m) (Ds := map (dim_y w h) ys) (n := n).
  - rewrite Sp. destruct (alloc (e_alloc E) wd) as [[b|] wd']; [|reflexivity].
    unfold report_y.
    destruct (report_ok E m p (map (dim_y w h) ys) n h HE lines_y ltac:(lia) ltac:(lia) ltac:(lia)) as (_ & L & _).
    rewrite L, zlen_cons. reflexivity.
  - rewrite Sp. exact Sy.
  - exact Sn.
  - lia.
  - rewrite Sp. exact Sr.
  - rewrite Sp. exact HF.
Qed.

Lemma results_ok q o wd :
  exists e o' wd', resdet_analysis_results E (Some a) q o wd = Ok (e, o', wd') /\
  ((e = RDEPARAM /\ bad_wants q = true /\ o' = clear_outs q o /\ wd' = wd) \/
   (e = RDENOIMG /\ bad_wants q = false /\ n = 0 /\ o' = clear_outs q o /\ wd' = wd) \/
   (e = RDENOMEM /\ bad_wants q = false /\ 1 <= n /\ o' = clear_outs q o /\ owns wd' wd [] /\
      (exists k, e_alloc E k = false)) \/
   (e = RDEOK /\ bad_wants q = false /\ 1 <= n /\
      exists bs, filled q o o' (report_x E m w h p xs n) (report_y E m w h p ys n) bs /\ owns wd' wd bs)).
Proof using All.
  unfold resdet_analysis_results. destruct (bad_wants q) eqn:BW.
  { do 3 eexists. split; [reflexivity|]. left. auto. }
  rewrite (as_n _ _ _ _ _ _ _ _ _ HS). destruct (Z.eqb_spec n 0) as [N0|N0].
  { do 3 eexists. split; [reflexivity|]. right; left. auto. }
  assert (N1 : 1 <= n) by lia.
  destruct q as [rw cw rh ch]. unfold bad_wants in BW. unfold filled, clear_outs. cbn [want_rw want_cw want_rh want_ch] in *.
  destruct rw.
  - rewrite gen_x by exact N1.
    pose proof (owns_alloc (e_alloc E) wd wd [] (owns_refl wd)) as A1.
    destruct cw; [|discriminate].
    destruct (alloc (e_alloc E) wd) as [[b1|] wd1].
    + destruct A1 as (O1 & C1 & T1 & _). cbn [bind]. unfold RDEOK at 1. cbn [Z.eqb negb].
      destruct rh.
      * destruct ch; [|discriminate]. rewrite gen_y by exact N1.
        pose proof (owns_alloc (e_alloc E) wd1 wd _ O1) as A2.
        destruct (alloc (e_alloc E) wd1) as [[b2|] wd2].
        -- destruct A2 as (O2 & C2 & T2 & _). cbn. do 3 eexists. split; [reflexivity|].
           right; right; right. split; [reflexivity|]. split; [reflexivity|]. split; [exact N1|].
           exists [b1; b2]. split; [exists b1, b2; auto 10|]. eapply owns_perm; [exact O2|apply perm_swap].
        -- destruct A2 as (O2 & C2 & T2). cbn [bind]. unfold RDENOMEM, results_error. cbn [Z.eqb negb want_rw want_rh o_rw o_rh o_cw o_ch option_map fst free_opt].
           destruct (owns_free _ _ _ _ O2) as (wd3 & E3 & O3 & C3). rewrite E3. cbn. do 3 eexists. split; [reflexivity|].
           right; right; left. split; [reflexivity|]. split; [reflexivity|]. split; [exact N1|].
           split; [reflexivity|]. split; [exact O3|]. eexists; exact T2.
      * cbn. do 3 eexists. split; [reflexivity|].
        right; right; right. split; [reflexivity|]. split; [reflexivity|]. split; [exact N1|].
        exists [b1]. split; [|exact O1]. exists b1, 0%nat. auto 10.
    + destruct A1 as (O1 & C1 & T1). cbn [bind]. unfold RDENOMEM, results_error. cbn [Z.eqb negb want_rw want_rh o_rw o_rh o_cw o_ch option_map fst free_opt bind].
      assert (HR : (rh && negb ch) = false) by (destruct rh, ch; auto).
      destruct rh; cbn [bind option_map free_opt].
      * destruct ch; [|discriminate]. do 3 eexists. split; [reflexivity|]. right; right; left. split; [reflexivity|]. split; [reflexivity|]. split; [exact N1|].
        split; [reflexivity|]. split; [exact O1|]. eexists; exact T1.
      * do 3 eexists. split; [reflexivity|]. right; right; left. split; [reflexivity|]. split; [reflexivity|]. split; [exact N1|].
        split; [reflexivity|]. split; [exact O1|]. eexists; exact T1.
  - cbn [bind]. unfold RDEOK at 1. cbn [Z.eqb negb]. destruct rh.
    + destruct ch; [|discriminate]. rewrite gen_y by exact N1.
      pose proof (owns_alloc (e_alloc E) wd wd _ (owns_refl wd)) as A2.
      destruct (alloc (e_alloc E) wd) as [[b2|] wd2].
      * destruct A2 as (O2 & C2 & T2 & _). cbn. do 3 eexists. split; [reflexivity|].
        right; right; right. split; [reflexivity|]. split; [reflexivity|]. split; [exact N1|].
        exists [b2]. split; [|exact O2]. exists 0%nat, b2. auto 10.
      * destruct A2 as (O2 & C2 & T2). cbn. do 3 eexists. split; [reflexivity|].
        right; right; left. split; [reflexivity|]. split; [reflexivity|]. split; [exact N1|].
        split; [reflexivity|]. split; [exact O2|]. eexists; exact T2.
    + cbn. do 3 eexists. split; [reflexivity|].
      right; right; right. split; [reflexivity|]. split; [reflexivity|]. split; [exact N1|].
      exists []. split; [exists 0%nat, 0%nat; auto 10|]. apply owns_refl.
Qed.
End Results.

(** ** Histories *)

Definition valid_params (p : option params) : Prop :=
  match p with Some p => params_ok p | None => True end.

Lemma reaches_state E m w h p imgs a :
  env_ok E -> is_size w -> is_size h -> valid_params p ->
  reaches E m w h p imgs a -> zlen imgs < SIZE_MAX ->
  plan_fits E w h /\ Forall (fun i => forallb ffinite (firstn (Z.to_nat (w * h)) i) = true) imgs /\
  an_state E a (the_method m) w h (effective_params (e_cfg E) (the_method m) p)
    (map (plane E w h) imgs) (map (plane E w h) imgs) (zlen imgs).
Proof.
  intros HE Hw Hh HP R. induction R as [a wd wd' C|imgs a img a' wd wd' R IH L C|imgs a img a' wd wd' R IH L C]; intros HN.
  - destruct (create_ok E m w h p wd (eo_config E HE) Hw Hh HP) as (ao & e & wd2 & EC & H).
    rewrite C in EC. inversion EC; subst. destruct H as (_ & F & S & _). split; [exact F|]. split; [constructor|exact S].
  - rewrite zlen_app in HN. change (zlen [img]) with 1 in HN. destruct (IH ltac:(lia)) as (F & G & S). split; [exact F|].
    destruct (analyze_ok E a _ w h _ _ _ _ img wd HE S L) as (e & a2 & wd2 & EA & _ & _ & _ & _ & H).
    { pose proof (zlen_nonneg imgs). lia. }
    rewrite C in EA. inversion EA; subst. rewrite !map_app, zlen_app. change (zlen [img]) with 1. cbn [map].
    destruct (forallb ffinite (firstn (Z.to_nat (w * h)) img)) eqn:FF.
    + split. { apply Forall_app. split; [exact G|]. constructor; [exact FF|constructor]. }
      destruct H as [(_ & H)|(H & _)]; [exact H|discriminate].
    + destruct H as (H & _). discriminate.
  - destruct (IH HN) as (F & G & S). split; [exact F|]. split; [exact G|].
    destruct (analyze_ok E a _ w h _ _ _ _ img wd HE S L) as (e & a2 & wd2 & EA & _ & _ & _ & _ & H).
    { pose proof (zlen_nonneg imgs). lia. }
    rewrite C in EA. inversion EA; subst.
    destruct (forallb ffinite (firstn (Z.to_nat (w * h)) img)) eqn:FF.
    + destruct H as [(H & _)|(H & _)]; discriminate.
    + apply H.
Qed.

(** ** From the client's view to the invariant *)
From Verif Require Import UtilProofs.

Lemma client_valid E w h p : client_ok E w h p -> valid_params p.
Proof.
  intros (HE & _ & _ & [->|(l & es & T & S)]); [exact I|].
  destruct p as [p|]; [|exact I]. eapply set_params_ok; eauto. apply eo_config, HE.
Qed.

Lemma used_method_ok m : used_method m = the_method m.
Proof. destruct m; reflexivity. Qed.

Lemma criterion_used c m : used_criterion c m = criterion_of c (the_method m).
Proof. destruct m as [[]|]; reflexivity. Qed.

Lemma flt_zero t : ffinite t = true -> flt t (f32_of_Z 0) = fsign t && negb (feq t (f32_of_Z 0)).
Proof.
  intros F. destruct t as [s|s|s pl H|s mm e H]; try discriminate.
  - destruct s; reflexivity.
  - destruct s; cbn [fsign Bsign].
    + unfold flt, feq. cbn. reflexivity.
    + unfold flt, feq. cbn. reflexivity.
Qed.

Lemma effective_used E w h m p : client_ok E w h p ->
  let P := effective_params (e_cfg E) (the_method m) p in
  p_range P = used_range (e_cfg E) m p /\ p_threshold P = used_threshold m p /\ p_filter P = used_filter p.
Proof.
  intros HC. pose proof (client_valid _ _ _ _ HC) as V. cbn zeta.
  unfold effective_params, used_range, used_threshold, used_filter. change (used_method m) with (the_method m).
  destruct p as [p|].
  - rewrite flt_zero by apply V.
    destruct (fsign (p_threshold p) && negb (feq (p_threshold p) (f32_of_Z 0)));
      destruct (the_method m); repeat split; reflexivity.
  - cbn [p_threshold default_params]. replace (flt (f32_of_Z (-1)) (f32_of_Z 0)) with true by (vm_compute; reflexivity).
    destruct (the_method m); repeat split; reflexivity.
Qed.

Lemma seen_map_x E w h imgs : seen_x E w h imgs = map (dim_x w h) (map (plane E w h) imgs).
Proof. unfold seen_x. rewrite map_map. reflexivity. Qed.
Lemma seen_map_y E w h imgs : seen_y E w h imgs = map (dim_y w h) (map (plane E w h) imgs).
Proof. unfold seen_y. rewrite map_map. reflexivity. Qed.

Lemma pairs_entries c Ds len range thr keep :
  pairs (entries c Ds (zlen Ds) len range thr keep) = found c Ds len range thr keep.
Proof. unfold pairs, entries, found. rewrite map_map. reflexivity. Qed.

Lemma found_ext c Ds len range thr k k' : (forall x, range <= x < len - range -> k x = k' x) ->
  found c Ds len range thr k = found c Ds len range thr k'.
Proof.
  intros H. unfold found. f_equal. apply filter_ext_in. intros x Hx. unfold window in Hx. apply in_zrange in Hx.
  rewrite H by exact Hx. reflexivity.
Qed.

Lemma keeps_none p len x : p_filter p = 0 -> keeps p len x = true.
Proof.
  intros H. unfold keeps, interval, filter_keeps. rewrite H. cbn [Z.eqb].
  replace (feq (f32_of_Z 0) (f32_of_Z 0)) with true by (vm_compute; reflexivity). reflexivity.
Qed.

(** everything the properties need from a history, in one place *)
Record known (E : env) (m : option method) (w h : Z) (p : option params) (imgs : list (list f32)) (a : analysis)
    (P : params) : Prop := {
  k_fits : plan_fits E w h;
  k_finite : Forall (valid_image w h) imgs;
  k_state : an_state E a (the_method m) w h P (map (plane E w h) imgs) (map (plane E w h) imgs) (zlen imgs);
  k_params : params_ok P;
  k_range : p_range P = used_range (e_cfg E) m p;
  k_thr : p_threshold P = used_threshold m p;
  k_thr_unit : ffinite (p_threshold P) = true /\ (0 <= rf (p_threshold P) <= 1)%R;
  k_filter : p_filter P = used_filter p
}.

Lemma history_known E m w h p imgs a : client_ok E w h p -> reaches E m w h p imgs a -> zlen imgs < SIZE_MAX ->
  known E m w h p imgs a (effective_params (e_cfg E) (the_method m) p).
Proof.
  intros HC R N. pose proof (client_valid _ _ _ _ HC) as V.
  destruct (effective_used E w h m p HC) as (U1 & U2 & U3). destruct HC as (HE & Hw & Hh & HC).
  destruct (effective_ok (e_cfg E) (the_method m) p (eo_config _ HE) V) as (PO & PT).
  destruct (reaches_state E m w h p imgs a HE) as (F & G & S); auto; try (unfold is_size, SIZE_MAX; lia).
  constructor; auto.
  - eapply Forall_impl; [|exact G]. intros i Hi. unfold valid_image. rewrite forallb_forall in Hi.
    apply Forall_forall. exact Hi.
  - split; [apply PO|exact PT].
Qed.

(** the two lists, and what each result call does with them *)
Definition list_x E m w h p imgs := report_x E (the_method m) w h (effective_params (e_cfg E) (the_method m) p) (map (plane E w h) imgs) (zlen imgs).
Definition list_y E m w h p imgs := report_y E (the_method m) w h (effective_params (e_cfg E) (the_method m) p) (map (plane E w h) imgs) (zlen imgs).

Lemma history_results E m w h p imgs a q o wd :
  client_ok E w h p -> reaches E m w h p imgs a -> zlen imgs < SIZE_MAX ->
  exists e o' wd', resdet_analysis_results E (Some a) q o wd = Ok (e, o', wd') /\
  ((e = RDEPARAM /\ bad_wants q = true /\ o' = clear_outs q o /\ wd' = wd) \/
   (e = RDENOIMG /\ bad_wants q = false /\ imgs = [] /\ o' = clear_outs q o /\ wd' = wd) \/
   (e = RDENOMEM /\ bad_wants q = false /\ imgs <> [] /\ o' = clear_outs q o /\ owns wd' wd [] /\
      (exists k, e_alloc E k = false)) \/
   (e = RDEOK /\ bad_wants q = false /\ imgs <> [] /\
      exists bs, filled q o o' (list_x E m w h p imgs) (list_y E m w h p imgs) bs /\ owns wd' wd bs)).
Proof.
  intros HC R N. pose proof (history_known _ _ _ _ _ _ _ HC R N) as K.
  assert (HE : env_ok E) by apply HC.
  assert (NZ : forall l : list (list f32), zlen l = 0 <-> l = []).
  { intros l. split; [|intros ->; reflexivity]. destruct l; [reflexivity|]. rewrite zlen_cons.
    pose proof (zlen_nonneg l0). lia. }
  pose proof (zlen_nonneg imgs) as NN.
  destruct (results_ok E a _ w h _ _ _ _ HE (k_state _ _ _ _ _ _ _ _ K) (po_filter _ (k_params _ _ _ _ _ _ _ _ K))
     ltac:(lia) q o wd) as (e & o' & wd' & ER & H).
  exists e, o', wd'. split; [exact ER|].
  destruct H as [H|[H|[H|H]]]; [left; exact H|right; left|right; right; left|right; right; right].
  - destruct H as (H1 & H2 & H3 & H4 & H5). apply NZ in H3. auto.
  - destruct H as (H1 & H2 & H3 & H4 & H5 & H6). repeat split; auto; try apply H5. intros H7. apply NZ in H7. lia.
  - destruct H as (H1 & H2 & H3 & H4). repeat split; auto. intros H7. apply NZ in H7. lia.
Qed.

(** content of a reported list: [Ds] the frames along the dimension *)
Record good_list (E : env) (m : option method) (p : option params) (Ds : list dim) (len : Z) (l : list rdres) : Prop := {
  gl_sorted : descending l;
  gl_last : exists l', l = l' ++ [own_size len] /\
     Permutation (found (used_criterion (e_cfg E) m) Ds len (used_range (e_cfg E) m p) (used_threshold m p)
                    (keeps (effective_params (e_cfg E) (the_method m) p) len)) (pairs l') /\
     forall r, In r l' -> ffinite (r_conf r) = true /\ (rf (used_threshold m p) <= rf (r_conf r) <= 1)%R /\
         (0 <= rf (r_conf r))%R /\
         used_range (e_cfg E) m p <= r_index r < len - used_range (e_cfg E) m p
}.

Lemma report_good E m w h p Ds len :
  client_ok E w h p -> (forall D, In D Ds -> 0 < d_lines D <= 2^31) -> len <= INT_MAX -> 1 <= zlen Ds <= SIZE_MAX ->
  good_list E m p Ds len (report E (the_method m) (effective_params (e_cfg E) (the_method m) p) Ds (zlen Ds) len).
Proof.
  intros HC HD HL HN. pose proof (client_valid _ _ _ _ HC) as V.
  destruct (effective_used E w h m p HC) as (U1 & U2 & U3). destruct HC as (HE & Hw & Hh & HC).
  destruct (effective_ok (e_cfg E) (the_method m) p (eo_config _ HE) V) as (PO & PT).
  set (P := effective_params (e_cfg E) (the_method m) p) in *.
  destruct (report_ok E (the_method m) P Ds (zlen Ds) len HE HD) as (S & L & l' & EL & PE); try lia.
  { apply PO. }
  constructor; [exact S|]. exists l'. split; [exact EL|]. split.
  - rewrite criterion_used, <- U1, <- U2. rewrite <- pairs_entries. unfold pairs. apply Permutation_map. exact PE.
  - intros r Hr. apply Permutation_sym in PE. pose proof (Permutation_in _ PE Hr) as Hi. unfold entries in Hi.
    apply in_map_iff in Hi. destruct Hi as (x & <- & Hx). apply filter_In in Hx. destruct Hx as (Hx & HG).
    apply andb_true_iff in HG. destruct HG as (HG & _). unfold window in Hx. apply in_zrange in Hx.
    pose proof (po_range _ PO). unfold INT_MAX in HL. cbn [r_conf r_index].
    destruct (conf_val (criterion_of (e_cfg E) (the_method m)) Ds (zlen Ds) (p_range P) x HD ltac:(lia) ltac:(lia)) as (F & Z0 & U & T).
    rewrite <- U1, <- U2. repeat split; auto; try lia.
    + apply T; [apply PO|exact HG].
    + apply U. lia.
Qed.

Lemma list_x_good E m w h p imgs a : client_ok E w h p -> reaches E m w h p imgs a -> zlen imgs < SIZE_MAX -> imgs <> [] ->
  good_list E m p (seen_x E w h imgs) w (list_x E m w h p imgs).
Proof.
  intros HC R N NE. pose proof (history_known _ _ _ _ _ _ _ HC R N) as K.
  destruct (k_state _ _ _ _ _ _ _ _ K) as [Sw Sh Sa Sb Sm Swd Shd Sp Sr Sz Sf Sx Sy Sn].
  unfold list_x, report_x. rewrite seen_map_x.
  replace (zlen imgs) with (zlen (map (dim_x w h) (map (plane E w h) imgs))) by (rewrite !zlen_map; reflexivity).
  apply report_good with (w := w) (h := h); auto.
  - intros D HD. apply in_map_iff in HD. destruct HD as (? & <- & _). simpl. unfold INT_MAX in *. lia.
  - lia.
  - rewrite !zlen_map. destruct imgs; [congruence|]. rewrite zlen_cons in *. pose proof (zlen_nonneg imgs). lia.
Qed.

Lemma list_y_good E m w h p imgs a : client_ok E w h p -> reaches E m w h p imgs a -> zlen imgs < SIZE_MAX -> imgs <> [] ->
  good_list E m p (seen_y E w h imgs) h (list_y E m w h p imgs).
Proof.
  intros HC R N NE. pose proof (history_known _ _ _ _ _ _ _ HC R N) as K.
  destruct (k_state _ _ _ _ _ _ _ _ K) as [Sw Sh Sa Sb Sm Swd Shd Sp Sr Sz Sf Sx Sy Sn].
  unfold list_y, report_y. rewrite seen_map_y.
  replace (zlen imgs) with (zlen (map (dim_y w h) (map (plane E w h) imgs))) by (rewrite !zlen_map; reflexivity).
  apply report_good with (w := w) (h := h); auto.
  - intros D HD. apply in_map_iff in HD. destruct HD as (? & <- & _). simpl. unfold INT_MAX in *. lia.
  - lia.
  - rewrite !zlen_map. destruct imgs; [congruence|]. rewrite zlen_cons in *. pose proof (zlen_nonneg imgs). lia.
Qed.
