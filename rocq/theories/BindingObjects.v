(** Analyses and image buffers of the Python bindings; numpy, PIL and JavaScript. *)
From Coq Require Import Permutation String.
From Flocq Require Import IEEE754.Binary.
From Verif Require Import Base BaseProofs Flt Util Methods Analysis Resdetect History Spec SpecAnalysis SpecUtil SpecReport WorldProofs UtilProofs AnalysisProofs ResultsProofs ClientProofs ProgramProofs
  Stdio Pgm Pfm Y4m Image ImageHistory SpecImage ImageSafe FrameProofs ImageApi FileProofs SelectProofs Cli SpecCli CodeProofs CliProofs CliFilm CliRun AnalysisClaims Tools SpecTools StatProofs ProfileProofs StatRun
  Bindings SpecBindings BindingProofs BindingRun.
Open Scope string_scope.
Open Scope list_scope.
Open Scope Z_scope.

(** ** Analyses *)
Lemma results_raise E a e o wd wd1 w0 bs fls : resdet_analysis_results E a everything no_outs wd = Ok (e, o, wd1) -> e <> RDEOK -> known_code e -> owns wd1 wd [] ->
  holds wd w0 bs fls -> exists x, py_results E a wd = Ok (Raise x, wd1) /\ reflects e x /\ holds wd1 w0 bs fls.
Proof.
  intros Q NE K O H. unfold py_results. change all_wanted with everything. change null_outs with no_outs. rewrite Q. cbn [bind].
  assert (Z0 : e =? 0 = false) by (apply Z.eqb_neq; exact NE). rewrite Z0. cbn [negb].
  destruct (raise_ok (A := both) e wd1 K NE) as (x & -> & R). exists x. split; [reflexivity|]. split; [exact R|]. exact (holds_owns _ _ _ _ _ _ O H).
Qed.
Lemma results_return E a o wd wd1 w0 bs fls lx ly bl : resdet_analysis_results E a everything no_outs wd = Ok (RDEOK, o, wd1) ->
  ResultsProofs.filled everything no_outs o lx ly bl -> owns wd1 wd bl -> holds wd w0 bs fls ->
  exists wd2, py_results E a wd = Ok (Return (lx, ly), wd2) /\ holds wd2 w0 bs fls /\ exists b1 b2, o_rw o = Some (b1, lx) /\ o_rh o = Some (b2, ly).
Proof.
  intros Q (bx & by_ & A1 & A2 & A3 & A4 & A5) O H. cbn [everything want_rw want_rh want_cw want_ch] in A1, A2, A3, A4, A5.
  unfold py_results. change all_wanted with everything. change null_outs with no_outs. rewrite Q. cbn [bind Z.eqb RDEOK negb].
  pose proof (holds_owns _ _ _ _ _ _ O H) as H1. subst bl.
  destruct (collect_ok o _ _ _ _ wd1 w0 _ _ A1 A3 A2 A4 H1) as (wd2 & -> & H2 & _). eauto 8.
Qed.

Lemma py_analyze_eq E a image wd e a' wd' : resdet_analyze_image E a (Some image) wd = Ok (e, a', wd') -> known_code e ->
  (e = RDEOK /\ py_analyze E a (Some image) wd = Ok (None, a', wd')) \/ (e <> RDEOK /\ exists x, reflects e x /\ py_analyze E a (Some image) wd = Ok (Some x, a', wd')).
Proof.
  intros Q K. unfold py_analyze. rewrite Q. cbn [bind]. destruct (Z.eqb_spec e 0) as [->|NE]; cbn [negb]; [left; auto|right].
  split; [exact NE|]. destruct (exception_ok e K NE) as (x & -> & R). exists x. auto.
Qed.

(** any state, also after a failed analysis *)
Lemma calls_safe E m w h P cs : env_ok E -> params_ok P -> Forall (py_call_ok w h) cs ->
  forall a xs ys n wd w0 bs, an_state E a m w h P xs ys n -> 0 <= n -> n + zlen cs <= SIZE_MAX -> holds wd w0 (an_blocks a ++ bs) [] ->
  exists rs a' wd', py_do_calls E cs (Some a) wd = Ok (rs, Some a', wd') /\ length rs = length cs /\ holds wd' w0 (an_blocks a' ++ bs) [].
Proof.
  intros HE HP. induction cs as [|c cs IH]; intros FC a xs ys n wd w0 bs S Hn HN H.
  { exists [], a, wd. auto. }
  inversion FC as [|? ? Hc FC']; subst. rewrite zlen_cons in HN. pose proof (zlen_nonneg cs). destruct c as [image|]; cbn [py_do_calls py_do_call].
  - destruct (analyze_ok E a m w h P xs ys n image wd HE S Hc ltac:(lia)) as (e & a' & wd' & EQ & AB & L1 & L2 & L3 & H').
    assert (H2 : holds wd' w0 (an_blocks a' ++ bs) []). { rewrite AB. destruct H as (P1 & P2). split; [rewrite L1; exact P1|rewrite L3; exact P2]. }
    assert (HS : known_code e /\ exists xs' ys' n', an_state E a' m w h P xs' ys' n' /\ 0 <= n' <= n + 1).
    { destruct (forallb ffinite (firstn (Z.to_nat (w * h)) image)).
      - destruct H' as [(-> & S')|(-> & _ & _ & [S'|S'])]; (split; [apply known_in_list; cbn; auto 8|]; do 3 eexists; split; [exact S'|lia]).
      - destruct H' as (-> & S'). split; [apply known_in_list; cbn; auto 8|]. do 3 eexists. split; [exact S'|lia]. }
    destruct HS as (KE & xs' & ys' & n' & S' & Hn').
    destruct (IH FC' a' xs' ys' n' wd' w0 bs S' ltac:(lia) ltac:(lia) H2) as (rs & a2 & wd2 & EQ2 & LR & H3).
    destruct (py_analyze_eq _ _ _ _ _ _ _ EQ KE) as [(_ & ->)|(_ & x & _ & ->)]; cbn [bind]; rewrite EQ2; cbn [bind]; (do 3 eexists; split; [reflexivity|]; split; [cbn; lia|exact H3]).
  - destruct (results_ok E a m w h P xs ys n HE S (po_filter _ HP) ltac:(lia) everything no_outs wd) as (e & o' & wd' & EQ & H').
    assert (RR : exists r wd2, py_results E (Some a) wd = Ok (r, wd2) /\ holds wd2 w0 (an_blocks a ++ bs) []).
    { destruct H' as [(_ & BW & _)|[(-> & _ & _ & _ & ->)|[(-> & _ & _ & _ & O & _)|(-> & _ & _ & bl & F & O)]]].
      - discriminate BW.
      - destruct (results_raise _ _ _ _ _ _ _ _ _ EQ ltac:(discriminate) ltac:(apply known_in_list; cbn; auto 8) (owns_refl _) H) as (x & -> & _ & H2). eauto.
      - destruct (results_raise _ _ _ _ _ _ _ _ _ EQ ltac:(discriminate) ltac:(apply known_in_list; cbn; auto 8) O H) as (x & -> & _ & H2). eauto.
      - destruct (results_return _ _ _ _ _ _ _ _ _ _ _ EQ F O H) as (wd2 & -> & H2 & _). eauto. }
    destruct RR as (r & wd2 & -> & H2). cbn [bind].
    destruct (IH FC' a xs ys n wd2 w0 bs S Hn ltac:(lia) H2) as (rs & a2 & wd3 & -> & LR & H3). cbn [bind]. do 3 eexists. split; [reflexivity|]. split; [cbn; lia|exact H3].
Qed.

Lemma calls_ok E m w h p cs : client_ok E w h p -> Forall (py_call_ok w h) cs ->
  forall imgs a wd w0 bs, reaches E m w h p imgs a -> zlen imgs + zlen cs < SIZE_MAX -> holds wd w0 (an_blocks a ++ bs) [] ->
  exists rs a' wd', py_do_calls E cs (Some a) wd = Ok (rs, Some a', wd') /\ py_history E m w h p imgs cs rs /\ holds wd' w0 (an_blocks a' ++ bs) [].
Proof.
  intros HC. assert (HE : env_ok E) by apply HC. induction cs as [|c cs IH]; intros FC imgs a wd w0 bs R HN H.
  { exists [], a, wd. split; [reflexivity|]. split; [constructor|exact H]. }
  inversion FC as [|? ? Hc FC']; subst. rewrite zlen_cons in HN. pose proof (zlen_nonneg cs). pose proof (zlen_nonneg imgs). destruct c as [image|]; cbn [py_do_calls py_do_call].
  - pose proof (history_known E m w h p imgs a HC R ltac:(lia)) as K.
    destruct (analyze_ok E a _ w h _ _ _ _ image wd HE (k_state _ _ _ _ _ _ _ _ K) Hc ltac:(lia)) as (e & a' & wd' & EQ & AB & L1 & L2 & L3 & HS).
    destruct (analyze_step E m w h p imgs a image wd HC R ltac:(apply countable_zlen; lia) Hc) as (e2 & a2 & wd2 & EQ2 & O & AB2 & CS).
    rewrite EQ in EQ2. inversion EQ2; subst e2 a2 wd2. clear EQ2.
    assert (H2 : holds wd' w0 (an_blocks a' ++ bs) []) by (rewrite AB; exact (holds_owns _ _ _ _ _ _ O H)).
    destruct CS as [(V & -> & R')|[(V & -> & UM & AF)|(NV & -> & R')]].
    + destruct (py_analyze_eq _ _ _ _ _ _ _ EQ ltac:(apply known_in_list; cbn; auto 8)) as [(_ & ->)|(Q & _)]; [|contradiction Q; reflexivity]. cbn [bind].
      destruct (IH FC' (imgs ++ [image]) a' wd' w0 bs R') as (rs & a2 & wd2 & -> & PH & H3); [rewrite zlen_app; change (zlen [image]) with 1; lia|exact H2|]. cbn [bind].
      do 3 eexists. split; [reflexivity|]. split; [constructor; assumption|exact H3].
    + destruct (py_analyze_eq _ _ _ _ _ _ _ EQ ltac:(apply known_in_list; cbn; auto 8)) as [(Q & _)|(_ & x & RF & ->)]; [discriminate Q|]. cbn [bind].
      assert (SS : exists xs ys n, an_state E a' (the_method m) w h (effective_params (e_cfg E) (the_method m) p) xs ys n /\ 0 <= n <= zlen imgs).
      { destruct (forallb ffinite (firstn (Z.to_nat (w * h)) image)); [|destruct HS as (Q & _); discriminate Q].
        destruct HS as [(Q & _)|(_ & _ & _ & [S'|S'])]; [discriminate Q| |]; do 3 eexists; (split; [exact S'|lia]). }
      destruct SS as (xs & ys & n & S' & Hn).
      destruct (calls_safe E _ w h _ cs HE (k_params _ _ _ _ _ _ _ _ K) FC' a' xs ys n wd' w0 bs S' ltac:(lia) ltac:(lia) H2) as (rs & a2 & wd2 & -> & LR & H3). cbn [bind].
      do 3 eexists. split; [reflexivity|]. split; [apply ph_nomem; assumption|exact H3].
    + destruct (py_analyze_eq _ _ _ _ _ _ _ EQ ltac:(apply known_in_list; cbn; auto 8)) as [(Q & _)|(_ & x & RF & ->)]; [discriminate Q|]. cbn [bind].
      destruct (IH FC' imgs a' wd' w0 bs R' ltac:(lia) H2) as (rs & a2 & wd2 & -> & PH & H3). cbn [bind].
      do 3 eexists. split; [reflexivity|]. split; [apply ph_refuse; assumption|exact H3].
  - destruct (history_results E m w h p imgs a everything no_outs wd HC R ltac:(lia)) as (e & o & wd1 & EQ & CS).
    assert (NEXT : forall r wd2, py_results E (Some a) wd = Ok (r, wd2) -> holds wd2 w0 (an_blocks a ++ bs) [] ->
       (forall rs, py_history E m w h p imgs cs rs -> py_history E m w h p imgs (PyResults :: cs) (PyLists r :: rs)) ->
       exists rs a' wd', ('(r0, a0, w1) <- ('(r0, w1) <- py_results E (Some a) wd ;; Ok (PyLists r0, Some a, w1)) ;; '(rs, a1, w2) <- py_do_calls E cs a0 w1 ;; Ok (r0 :: rs, a1, w2)) = Ok (rs, Some a', wd') /\
         py_history E m w h p imgs (PyResults :: cs) rs /\ holds wd' w0 (an_blocks a' ++ bs) []).
    { intros r wd2 -> H2 PH. cbn [bind]. destruct (IH FC' imgs a wd2 w0 bs R ltac:(lia) H2) as (rs & a2 & wd3 & -> & PH2 & H3). cbn [bind]. do 3 eexists. split; [reflexivity|]. split; [apply PH, PH2|exact H3]. }
    destruct CS as [(_ & BW & _)|[(-> & _ & -> & _ & ->)|[(-> & _ & NE & _ & O & AF)|(-> & _ & NE & bl & F & O)]]].
    + discriminate BW.
    + destruct (results_raise _ _ _ _ _ _ _ _ _ EQ ltac:(discriminate) ltac:(apply known_in_list; cbn; auto 8) (owns_refl _) H) as (x & Q & RF & H2).
      apply (NEXT _ _ Q H2). intros rs PH. apply ph_none; [left; auto|exact PH].
    + destruct (results_raise _ _ _ _ _ _ _ _ _ EQ ltac:(discriminate) ltac:(apply known_in_list; cbn; auto 8) O H) as (x & Q & RF & H2).
      apply (NEXT _ _ Q H2). intros rs PH. apply ph_none; [right; auto|exact PH].
    + destruct (results_return _ _ _ _ _ _ _ _ _ _ _ EQ F O H) as (wd2 & Q & H2 & b1 & b2 & A1 & A2).
      apply (NEXT _ _ Q H2). intros rs PH. apply ph_lists; [exact NE| | |exact PH]; cbn [fst snd].
      * econstructor; [exact R| |exact EQ|exact A1]. reflexivity.
      * eapply reported_height; [exact R| |exact EQ|exact A2]. reflexivity.
Qed.

Lemma new_analysis_ok E w h m d wd p wd1 : env_ok E -> NoDup (map fst d) -> 0 <= w < 2^64 -> 0 <= h < 2^64 -> py_parameters E d wd = (Return p, wd1) ->
  client_ok E w h (option_map snd p) /\
  exists r wd', py_new_analysis E w h m d wd = Ok (r, wd') /\
    ((exists a, r = Return a /\ reaches E m w h (option_map snd p) [] a /\ holds wd' wd (an_blocks a) []) \/
     (exists e x leak, r = Raise x /\ reflects e x /\ In e [RDEINVAL; RDETOOBIG; RDENOMEM; RDEINTERNAL] /\ holds wd' wd leak [] /\ leak_ok E leak)).
Proof.
  intros EO ND Hw Hh PQ. destruct (parameters_returned E d wd p wd1 EO ND PQ) as (CP & HP).
  assert (HC : client_ok E w h (option_map snd p)) by (split; [exact EO|]; auto). split; [exact HC|].
  unfold py_new_analysis. rewrite PQ, !wrap_small by lia. destruct (client_sizes _ _ _ _ HC) as (Sw & Sh).
  destruct (create_ok E m w h (option_map snd p) wd1 (eo_config _ EO) Sw Sh (client_valid _ _ _ _ HC)) as (ao & e & wd2 & EC & HCR). rewrite EC. cbn [bind].
  assert (FR : forall xs, owns wd2 wd1 xs -> exists wd3, free_opt (option_map fst p) wd2 = Ok wd3 /\ holds wd3 wd xs []).
  { intros xs O. apply holds_free_opt. eapply holds_perm; [exact (holds_owns _ _ _ _ _ _ O HP)|apply Permutation_app_comm]. }
  destruct ao as [a|].
  - destruct HCR as (-> & _ & _ & O). destruct (FR _ O) as (wd3 & -> & H3). cbn [bind]. eexists _, _. split; [reflexivity|]. left. exists a. split; [reflexivity|]. split; [econstructor; exact EC|exact H3].
  - destruct HCR as (CE & leak & O & HL). destruct (FR _ O) as (wd3 & -> & H3). cbn [bind].
    assert (KC : In e [RDEINVAL; RDETOOBIG; RDENOMEM; RDEINTERNAL]). { destruct CE as [(-> & _)|[(-> & _)|[(-> & _)|(-> & _)]]]; cbn; auto 8. }
    destruct (raise_ok (A := analysis) e wd3) as (x & -> & RF); [apply known_in_list; cbn in *; intuition auto|intros ->; cbn in KC; intuition discriminate|].
    eexists _, _. split; [reflexivity|]. right. exists e, x, leak. split; [reflexivity|]. split; [exact RF|]. split; [exact KC|]. split; [exact H3|].
    destruct HL as [->|(_ & L)]; [left; reflexivity|right]. apply leaks_leaky in L. destruct L as (L1 & _ & L2). eauto.
Qed.

Lemma session_ok E w h m d cs wd p wd1 : env_ok E -> NoDup (map fst d) -> 0 <= w < 2^64 -> 0 <= h < 2^64 -> py_parameters E d wd = (Return p, wd1) ->
  Forall (py_call_ok w h) cs -> countable cs ->
  exists r wd' leak, py_session E w h m d cs wd = Ok (r, wd') /\ holds wd' wd leak [] /\ leak_ok E leak /\
    ((exists rs, r = Return rs /\ py_history E m w h (option_map snd p) [] cs rs) \/
     (exists e x, r = Raise x /\ reflects e x /\ In e [RDEINVAL; RDETOOBIG; RDENOMEM; RDEINTERNAL])).
Proof.
  intros EO ND Hw Hh PQ FC CN. destruct (new_analysis_ok E w h m d wd p wd1 EO ND Hw Hh PQ) as (HC & r & wd2 & Q & CS). unfold py_session. rewrite Q. cbn [bind].
  destruct CS as [(a & -> & R & H)|(e & x & leak & -> & RF & I & H & LK)].
  - apply (proj1 (countable_zlen _)) in CN.
    destruct (calls_ok E m w h _ cs HC FC [] a wd2 wd [] R) as (rs & a' & wd3 & -> & PH & H3); [change (zlen []) with 0; lia|rewrite app_nil_r; exact H|]. cbn [bind].
    destruct (holds_destroy _ _ _ _ _ H3) as (wd4 & -> & H4). cbn [bind]. eexists _, _, []. split; [reflexivity|]. split; [exact H4|]. split; [left; reflexivity|]. left. eauto.
  - eexists _, _, leak. split; [reflexivity|]. split; [exact H|]. split; [exact LK|]. right. eauto.
Qed.

(** ** PIL *)
Lemma pil_frames_eq E fs : forall a wd e a' wd', known_code e -> analyze_frames E (map pl_pixels fs) a wd = Ok (e, a', wd') ->
  (e = RDEOK /\ pil_frames E fs a wd = Ok (None, a', wd')) \/ (e <> RDEOK /\ exists x, reflects e x /\ pil_frames E fs a wd = Ok (Some x, a', wd')).
Proof.
  induction fs as [|f fs IH]; intros a wd e a' wd' K Q; cbn [map analyze_frames pil_frames] in *.
  { inversion Q; subst. left. auto. }
  change (nd_floats (numpy_of_pil f)) with (pl_pixels f). unfold py_analyze. destruct (resdet_analyze_image E a (Some (pl_pixels f)) wd) as [[[e1 a1] wd1]|]; [|discriminate]. cbn [bind] in *.
  destruct (Z.eqb_spec e1 0) as [->|NE]; cbn [negb bind] in *.
  - apply IH; assumption.
  - inversion Q; subst. right. split; [exact NE|]. destruct (exception_ok e K NE) as (x & -> & R). cbn [bind]. eauto.
Qed.
Lemma pil_ok E w h fs pos m d wd p wd1 : env_ok E -> NoDup (map fst d) -> 0 <= w < 2^64 -> 0 <= h < 2^64 -> py_parameters E d wd = (Return p, wd1) ->
  let frames := map pl_pixels (skipn pos fs) in
  Forall (fun f => w * h <= Z.of_nat (length f)) frames -> countable frames ->
  exists r wd' leak, pil_resdetect E w h fs pos m d wd = Ok (r, wd') /\ holds wd' wd leak [] /\ leak_ok E leak /\
    ((exists lists, r = Return lists /\ frames <> [] /\ detected E m w h (option_map snd p) frames lists) \/
     (exists e x, r = Raise x /\ reflects e x /\ In e [RDEINVAL; RDETOOBIG; RDENOMEM; RDEINTERNAL; RDENOIMG] /\
        (e = RDENOIMG -> frames = []))).
Proof.
  intros EO ND Hw Hh PQ frames FB CN. destruct (new_analysis_ok E w h m d wd p wd1 EO ND Hw Hh PQ) as (HC & r & wd2 & Q & CS). unfold pil_resdetect. rewrite Q. cbn [bind].
  apply (proj1 (countable_zlen _)) in CN.
  destruct CS as [(a & -> & R & H)|(e & x & leak & -> & RF & I & H & LK)].
  2: { eexists _, _, leak. split; [reflexivity|]. split; [exact H|]. split; [exact LK|]. right. exists e, x. split; [reflexivity|]. split; [exact RF|]. split; [cbn in *; intuition auto|]. intros ->. cbn in I. intuition discriminate. }
  destruct (analyze_frames_ok E m w h _ frames HC FB [] a wd2 R) as (e & a1 & wd3 & EQ & O & AB & CS). { change (zlen []) with 0. lia. }
  assert (KE : known_code e). { destruct CS as [(-> & _)|[(-> & _)|(-> & _)]]; apply known_in_list; cbn; auto 8. }
  assert (H3 : holds wd3 wd (an_blocks a1 ++ []) []). { rewrite AB, app_nil_r. exact (holds_owns _ _ _ _ _ _ O H). }
  destruct (pil_frames_eq E (skipn pos fs) (Some a) wd2 e (Some a1) wd3 KE EQ) as [(-> & PF)|(NE & x & RF & PF)]; rewrite PF; cbn [bind].
  2: { destruct (holds_destroy _ _ _ _ _ H3) as (wd4 & -> & H4). cbn [bind]. eexists _, _, []. split; [reflexivity|]. split; [exact H4|]. split; [left; reflexivity|]. right. exists e, x. split; [reflexivity|]. split; [exact RF|].
       destruct CS as [(-> & _)|[(-> & _)|(-> & _)]]; [elim NE; reflexivity| |]; (split; [cbn; auto 8|discriminate]). }
  destruct CS as [(_ & R1 & V)|[(Q1 & _)|(Q1 & _)]]; [|discriminate Q1|discriminate Q1]. cbn [app] in R1.
  destruct (history_results E m w h _ frames a1 everything no_outs wd3 HC R1 CN) as (e & o & wd4 & EQ2 & CS).
  assert (BAD : e <> RDEOK -> In e [RDENOMEM; RDENOIMG] -> (e = RDENOIMG -> frames = []) -> owns wd4 wd3 [] -> exists r wd' leak,
     ('(r, w0) <- py_results E (Some a1) wd3 ;; w1 <- resdet_destroy_analysis (Some a1) w0 ;; Ok (r, w1)) = Ok (r, wd') /\ holds wd' wd leak [] /\ leak_ok E leak /\
     ((exists lists, r = Return lists /\ frames <> [] /\ detected E m w h (option_map snd p) frames lists) \/
      (exists e x, r = Raise x /\ reflects e x /\ In e [RDEINVAL; RDETOOBIG; RDENOMEM; RDEINTERNAL; RDENOIMG] /\ (e = RDENOIMG -> frames = [])))).
  { intros NE IE IM O4. destruct (results_raise _ _ _ _ _ _ _ _ _ EQ2 NE ltac:(apply known_in_list; cbn in *; intuition auto) O4 H3) as (x & -> & RF & H4). cbn [bind].
    destruct (holds_destroy _ _ _ _ _ H4) as (wd5 & -> & H5). cbn [bind]. eexists _, _, []. split; [reflexivity|]. split; [exact H5|]. split; [left; reflexivity|]. right. exists e, x. split; [reflexivity|]. split; [exact RF|].
    split; [cbn in *; intuition auto|exact IM]. }
  destruct CS as [(_ & BW & _)|[(-> & _ & EF & _ & ->)|[(-> & _ & NE & _ & O4 & AF)|(-> & _ & NE & bl & F & O4)]]].
  - discriminate BW.
  - apply BAD; [discriminate|cbn; auto|auto|apply owns_refl].
  - apply BAD; [discriminate|cbn; auto|discriminate|exact O4].
  - destruct (results_return _ _ _ _ _ _ _ _ _ _ _ EQ2 F O4 H3) as (wd5 & -> & H5 & b1 & b2 & A1 & A2). cbn [bind].
    destruct (holds_destroy _ _ _ _ _ H5) as (wd6 & -> & H6). cbn [bind]. eexists _, _, []. split; [reflexivity|]. split; [exact H6|]. split; [left; reflexivity|]. left. eexists. split; [reflexivity|]. split; [exact NE|].
    split; [exact V|]. cbn [fst snd]. split; [econstructor; [exact R1| |exact EQ2|exact A1]; reflexivity|eapply reported_height; [exact R1| |exact EQ2|exact A2]; reflexivity].
Qed.

(** ** Image buffers *)
Lemma concat_at {A} (d : A) k : 0 <= k -> forall fs i j, Forall (fun f => Z.of_nat (length f) = k) fs -> 0 <= i < zlen fs -> 0 <= j < k ->
  at_ d (concat fs) (i * k + j) = at_ d (nth (Z.to_nat i) fs []) j.
Proof.
  intros K. induction fs as [|f fs IH]; intros i j F I J; [change (zlen []) with 0 in I; lia|]. rewrite zlen_cons in I. inversion F as [|? ? LF F']; subst. unfold at_ in *. cbn [concat].
  destruct (Z.eq_dec i 0) as [->|NZ].
  - cbn [Z.to_nat nth]. rewrite app_nth1 by lia. f_equal; lia.
  - specialize (IH (i - 1) j F' ltac:(lia) J). rewrite app_nth2 by nia.
    replace (Z.to_nat (i * Z.of_nat (length f) + j) - length f)%nat with (Z.to_nat ((i - 1) * Z.of_nat (length f) + j)) by nia. rewrite IH.
    replace (Z.to_nat i) with (S (Z.to_nat (i - 1))) by lia. reflexivity.
Qed.
Lemma concat_len {A} k (fs : list (list A)) : Forall (fun f => Z.of_nat (length f) = k) fs -> zlen (concat fs) = k * zlen fs.
Proof. induction 1 as [|f fs L F IH]; [change (zlen []) with 0; cbn; change (zlen []) with 0; lia|]. cbn [concat]. rewrite zlen_app, zlen_cons, IH. unfold zlen at 1. lia. Qed.

Lemma flat_ok b width height fs i : contains b width height fs -> 0 <= i ->
  py_flat b width height (Z.of_nat (length fs)) i = Ok (if i <? width * height * Z.of_nat (length fs) then Return (at_ f0 (concat fs) i) else Raise (mkExn IndexError None)).
Proof.
  intros (_ & _ & W & H & S & FL & blk & rest & D) I. pose proof (concat_len _ _ FL) as LC. unfold zlen at 2 in LC.
  unfold py_flat. rewrite Z.geb_leb. destruct (Z.leb_spec (width * height * Z.of_nat (length fs)) i); destruct (Z.ltb_spec i (width * height * Z.of_nat (length fs))); try lia; [reflexivity|].
  destruct (Z.ltb_spec i (- 2^63)); [lia|]. destruct (Z.leb_spec (2^63) i); [lia|]. cbn [orb]. rewrite D.
  rewrite (get_at None). 2: { rewrite zlen_app. unfold zlen at 1. rewrite map_length. change (Z.of_nat (length (concat fs))) with (zlen (concat fs)). pose proof (zlen_nonneg rest). lia. }
  cbn [bind]. unfold at_. rewrite app_nth1 by (rewrite map_length; unfold zlen in LC; lia).
  rewrite (nth_indep _ None (Some f0)) by (rewrite map_length; unfold zlen in LC; lia). rewrite map_nth. reflexivity.
Qed.
Lemma tuple_ok b width height fs n y x : contains b width height fs -> 0 <= n -> 0 <= y -> 0 <= x ->
  (n < Z.of_nat (length fs) /\ y < height /\ x < width -> py_getitem b (Tuple [n; y; x]) = Ok (Return (sample width (nth (Z.to_nat n) fs []) x y))) /\
  (~ (n < Z.of_nat (length fs) /\ y < height /\ x < width) -> py_getitem b (Tuple [n; y; x]) = Ok (Raise (mkExn IndexError None))).
Proof.
  intros C N Y X. assert (C' := C). destruct C' as (D & _ & W & H & S & FL & _). cbn [py_getitem length Nat.ltb Nat.leb]. rewrite D. rewrite !Z.geb_leb.
  split; intros Q.
  - destruct (Z.leb_spec (Z.of_nat (length fs)) n); [lia|]. destruct (Z.leb_spec height y); [lia|]. destruct (Z.leb_spec width x); [lia|].
    rewrite (flat_ok b width height fs _ C) by nia. destruct (Z.ltb_spec ((n * height + y) * width + x) (width * height * Z.of_nat (length fs))) as [_|Q1]; [|exfalso; revert Q1 Q W H N Y X; generalize (Z.of_nat (length fs)); clear; intros N Q1 Q W H N0 Y X; assert (n * height + y + 1 <= N * height) by nia; assert ((n * height + y + 1) * width <= N * height * width) by (apply Z.mul_le_mono_nonneg_r; lia); lia].
    unfold sample. rewrite <- (concat_at f0 (width * height) ltac:(nia) fs n (y * width + x) FL); [|unfold zlen; lia|nia]. do 3 f_equal. ring.
  - destruct (Z.leb_spec (Z.of_nat (length fs)) n); [reflexivity|]. destruct (Z.leb_spec height y); [reflexivity|]. destruct (Z.leb_spec width x); [reflexivity|]. lia.
Qed.

Lemma frame_sizes Y im fs er im' : frames Y im fs er im' -> Forall (fun f => Z.of_nat (length f) = im_width im * im_height im) fs.
Proof.
  induction 1 as [|im f im1 fs e im' G F IH]; [constructor|].
  destruct (G (repeat None (Z.to_nat (im_width im * im_height im)))) as (u & EE & _ & FT).
  { rewrite repeat_length. lia. } destruct (FT eq_refl) as (LF & _).
  unfold resdet_read_image_frame in EE. apply bind_ok in EE. destruct EE as ([[[b2 e2] u2] c2] & _ & EE). inversion EE; subst. cbn in IH.
  constructor; [lia|exact IH].
Qed.
Lemma read_image_buffer R E Y file t w : env_ok E -> machine_ok Y ->
  exists r w', py_read_image R E Y file t w = Ok (r, w') /\
    ((exists b blk width height fs, r = Return b /\ reads_typed R E Y file (type_arg t) width height fs /\ contains b width height fs /\ option_map fst (ib_data b) = Some blk /\ holds w' w [blk] []) \/
     (exists e x, r = Raise x /\ reflects e x /\ holds w' w [] [])).
Proof.
  intros EO [S RX CO SF FI]. unfold py_read_image.
  destruct (read_image_ok R E Y (Some file) (type_arg t) true w (eo_config _ EO) S RX) as (im & width & height & ob & e0 & w1 & EQ & buf & n & e & w' & Q & CS). rewrite Q. cbn [bind].
  pose proof (open_by_code Y CO R E (Some file) (ByType (type_arg t)) true true w) as K0. cbn [open_by] in K0. rewrite EQ in K0. cbn in K0.
  assert (BAD : e <> RDEOK -> known_code e -> holds w' w [] [] -> exists r w2, (if negb (e =? 0) then py_raise e w' else Ok (Return (mkBuf buf None (Some (width, height, n))), w')) = Ok (r, w2) /\
     ((exists b blk width height fs, r = Return b /\ reads_typed R E Y file (type_arg t) width height fs /\ contains b width height fs /\ option_map fst (ib_data b) = Some blk /\ holds w2 w [blk] []) \/
      (exists e x, r = Raise x /\ reflects e x /\ holds w2 w [] []))).
  { intros NE K H. assert (Z0 : e =? 0 = false) by (apply Z.eqb_neq; exact NE). rewrite Z0. cbn [negb]. destruct (raise_ok (A := imagebuffer) e w' K NE) as (x & -> & RF). eexists _, _. split; [reflexivity|]. right. exists e, x. auto. }
  destruct CS as [(-> & -> & NE & _ & _ & H)|(i & fs & er & i' & -> & -> & W & H & F & CS)]; [apply BAD; assumption|].
  destruct (ext_sizes Y S) as (sz & X).
  destruct (open_by_ok sz R E Y (Some file) (ByType (type_arg t)) true true w w [] [] (eo_config _ EO) S RX X (holds_refl w)) as (rr & ER & O).
  cbn [open_by] in ER. rewrite EQ in ER. inversion ER; subst rr. destruct O as [(_ & i1 & Q1 & IW & IH & K & _)|(NE & _)]; [|elim NE; reflexivity]. inversion Q1; subst i1.
  destruct CS as [(-> & -> & -> & (W1 & W2) & b & tail & -> & ZC & ZT & HH)|(NE & -> & HH & CE)].
  - cbn [Z.eqb RDEOK negb]. eexists _, _. split; [reflexivity|]. left. eexists _, b, width, height, fs. split; [reflexivity|]. split; [exists w, i, ob, w1, i'; auto|].
    split; [|split; [reflexivity|exact HH]]. split; [reflexivity|]. split; [reflexivity|]. split; [exact W|]. split; [exact H|].
    split; [unfold zlen, SIZE_MAX in W2; nia|]. split; [rewrite <- IW, <- IH; exact (frame_sizes _ _ _ _ _ F)|]. exists b, tail. reflexivity.
  - apply BAD; [exact NE| |exact HH]. destruct CE as [(-> & _)|[(-> & _)|(-> & _)]]; [exact (frames_code _ _ _ _ _ CO F)| |]; apply known_in_list; cbn; auto 8.
Qed.

(** ** numpy *)
Lemma product_shape width height n : product ([width; height] ++ (if n >? 1 then [n] else [])) = width * height * (if n >? 1 then n else 1).
Proof. unfold product. destruct (n >? 1); cbn [app fold_right]; ring. Qed.
Lemma ndarray_ok b width height fs : contains b width height fs -> fs <> [] ->
  py_as_ndarray b = Ok (Return (mkNd ([width; height] ++ (if Z.of_nat (length fs) >? 1 then [Z.of_nat (length fs)] else [])) 4 (concat fs))).
Proof.
  intros (D & _ & W & H & S & FL & blk & rest & DT) NE. unfold py_as_ndarray, py_shape. rewrite D, DT. pose proof (concat_len _ _ FL) as LC. unfold zlen at 2 in LC.
  rewrite product_shape. rewrite Z.gtb_ltb.
  assert (L1 : (if 1 <? Z.of_nat (length fs) then Z.of_nat (length fs) else 1) = Z.of_nat (length fs)).
  { destruct (Z.ltb_spec 1 (Z.of_nat (length fs))); [reflexivity|]. destruct fs; [elim NE; reflexivity|]. cbn [length] in *. lia. }
  rewrite L1. assert (LN : Z.to_nat (width * height * Z.of_nat (length fs)) = length (map (@Some f32) (concat fs))) by (rewrite map_length; unfold zlen in LC; lia). rewrite LN.
  destruct (Nat.ltb_spec (length (map Some (concat fs) ++ rest)) (length (map (@Some f32) (concat fs)))) as [Q|_]; [rewrite app_length in Q; lia|].
  rewrite firstn_app, firstn_all, Nat.sub_diag. cbn [firstn]. rewrite app_nil_r, filled_some. reflexivity.
Qed.
Lemma numpy_round E b width height fs m d wd : contains b width height fs -> fs <> [] ->
  exists a, py_as_ndarray b = Ok (Return a) /\ nd_ok a /\ numpy_resdetect E a m d wd = py_resdetect E (Some (concat fs)) (Z.of_nat (length fs)) width height m d wd.
Proof.
  intros C NE. eexists. split; [apply ndarray_ok; eassumption|]. destruct C as (D & _ & W & H & S & FL & _). pose proof (concat_len _ _ FL) as LC.
  assert (L1 : 1 <= Z.of_nat (length fs)) by (destruct fs; [elim NE; reflexivity|cbn [length]; lia]). split.
  - split; cbn [nd_shape nd_item nd_floats].
    + constructor; [lia|]. constructor; [lia|]. destruct (_ >? 1); [constructor; [lia|constructor]|constructor].
    + rewrite LC, product_shape. rewrite Z.div_mul by lia. unfold zlen. rewrite Z.gtb_ltb. destruct (Z.ltb_spec 1 (Z.of_nat (length fs))); [reflexivity|]. replace (Z.of_nat (length fs)) with 1 by lia. reflexivity.
  - unfold numpy_resdetect. cbn [nd_shape nd_floats app]. rewrite Z.gtb_ltb. destruct (Z.ltb_spec 1 (Z.of_nat (length fs))); [reflexivity|]. replace (Z.of_nat (length fs)) with 1 by lia. reflexivity.
Qed.
