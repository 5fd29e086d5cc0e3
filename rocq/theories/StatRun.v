(** A run of stat. *)
From Coq Require Import Permutation Sorted Reals Lra String.
From Flocq Require Import Core IEEE754.Binary.
From Verif Require Import Base BaseProofs Flt FltProofs Util Methods Analysis Resdetect History Spec SpecAnalysis SpecReport WorldProofs AnalysisProofs ResultsProofs ClientProofs CompareProofs ProgramProofs
  Stdio Pgm Pfm Y4m Image ImageHistory SpecImage ImageSafe FrameProofs ImageApi FileProofs SelectProofs Cli SpecCli CodeProofs CliProofs CliFilm CliRun AnalysisClaims Tools SpecTools StatProofs ProfileProofs.
Open Scope list_scope.
Open Scope Z_scope.

Lemma reported_confident E m w h p imgs Ds len l : client_ok E w h p -> countable imgs -> reported E m w h p imgs Ds len l -> Forall confident l.
Proof.
  intros HC CT R. apply Forall_forall. intros r I. destruct (confidence_range_claim _ _ _ _ _ _ _ _ _ HC CT R r I) as (F & [->|((_ & U) & L)]).
  - split; [exact F|]. unfold conf_real, own_size. cbn [r_conf]. destruct m1_val as (_ & V). rewrite V. lra.
  - split; [exact F|lra].
Qed.
Lemma stat_reported E m w h p imgs Ds len l : client_ok E w h p -> countable imgs -> reported E m w h p imgs Ds len l ->
  exists st, statres l (wrap (zlen l - 1)) = Ok st /\ st_mild st = [] /\ st_extreme st = removelast l.
Proof.
  intros HC CT R. destruct (reported_len _ _ _ _ _ _ _ _ _ HC CT R) as (l' & EL & LN).
  assert (ZL : zlen l = zlen l' + 1) by (rewrite EL, zlen_app; reflexivity). rewrite wrap_small by lia.
  apply statres_sorted; [rewrite EL; destruct l'; discriminate|lia|exact (proj1 (list_order_claim _ _ _ _ _ _ _ _ _ HC CT R))|exact (reported_confident _ _ _ _ _ _ _ _ _ HC CT R)].
Qed.

Lemma by_hand_file_cases E used er width height m p wd e o' wd' : client_ok E width height p ->
  Forall (fun f => width * height <= zlen f) used -> countable used -> known_code er ->
  by_hand_file E used er width height everything m p no_outs wd = Ok (e, o', wd') ->
  known_code e /\ (e <> RDEOK -> o' = clear_outs everything no_outs) /\
  (e = RDEOK -> er = RDEOK /\ exists bw rw bh rh, o_rw o' = Some (bw, rw) /\ o_rh o' = Some (bh, rh) /\ o_cw o' = zlen rw /\ o_ch o' = zlen rh /\
    reported E m width height p used (seen_x E width height used) width rw /\ reported E m width height p used (seen_y E width height used) height rh).
Proof.
  intros HC FB CT KE. apply (proj1 (countable_zlen _)) in CT. destruct (client_sizes _ _ _ _ HC) as (Hw & Hh). unfold by_hand_file.
  destruct (create_ok E m width height p wd (eo_config _ (proj1 HC)) Hw Hh (client_valid _ _ _ _ HC)) as (ao & e0 & wd1 & EC & HCR). rewrite EC. cbn [bind].
  assert (KN : forall c, In c [RDENOMEM; RDEINVAL; RDENOIMG; RDETOOBIG; RDEPARAM; RDEOK; RDEINTERNAL] -> known_code c).
  { intros c I. apply known_const. repeat (destruct I as [<-|I]; [reflexivity|]). destruct I. }
  destruct ao as [a|].
  2: { destruct HCR as (CE & _). intros Q. inversion Q; subst. split; [destruct CE as [(-> & _)|[(-> & _)|[(-> & _)|(-> & _)]]]; apply KN; cbn; auto 8|].
       split; [reflexivity|]. intros ->. destruct CE as [(Q1 & _)|[(Q1 & _)|[(Q1 & _)|(Q1 & _)]]]; discriminate Q1. }
  assert (R0 : reaches E m width height p [] a) by (destruct HCR as (-> & _); econstructor; exact EC).
  destruct (analyze_frames_ok E m width height p used HC FB [] a wd1 R0) as (e1 & a1 & wd2 & EQ1 & O1 & AB & H'). { change (zlen []) with 0. lia. }
  rewrite EQ1. cbn [bind]. destruct H' as [(-> & R1 & _)|[(-> & _)|(-> & _)]]; cbn [Z.eqb RDEOK RDENOMEM RDEINVAL].
  2,3: cbn [bind]; destruct (resdet_destroy_analysis (Some a1) wd2); [|discriminate]; intros Q; inversion Q; subst; split; [apply KN; cbn; auto 8|]; split; [reflexivity|discriminate].
  cbn [app] in R1. destruct (Z.eqb_spec er 0) as [->|NE].
  2: { cbn [bind]. destruct (resdet_destroy_analysis (Some a1) wd2); [|discriminate]. intros Q. inversion Q; subst. split; [exact KE|]. split; [reflexivity|]. intros F. contradiction. }
  destruct (history_results E m width height p used a1 everything no_outs wd2 HC R1 CT) as (e3 & o3 & wd3 & EQ3 & HR). rewrite EQ3. cbn [bind].
  destruct (resdet_destroy_analysis (Some a1) wd3) as [wd4|]; [|discriminate]. cbn [bind]. intros Q. inversion Q; subst. clear Q.
  destruct HR as [(-> & _ & -> & _)|[(-> & _ & _ & -> & _)|[(-> & _ & _ & -> & _)|(-> & _ & NU & bs & FL & _)]]].
  1,2,3: split; [apply KN; cbn; auto 8|]; split; [reflexivity|discriminate].
  split; [apply KN; cbn; auto 8|]. split; [intros F; contradiction F; reflexivity|]. intros _. split; [reflexivity|]. destruct FL as (bx & by_ & ERW & ECW & ERH & ECH & _). cbn [everything want_rw want_rh want_cw want_ch] in ERW, ERH, ECW, ECH.
  exists bx, (list_x E m width height p used), by_, (list_y E m width height p used). split; [exact ERW|]. split; [exact ERH|]. split; [exact ECW|]. split; [exact ECH|]. split.
  - econstructor; [exact R1| |exact EQ3|exact ERW]. reflexivity.
  - eapply reported_height; [exact R1| |exact EQ3|exact ERH]. reflexivity.
Qed.

(** resdetect_file on a machine whose files end *)
Lemma file_results R E Y file m w : env_ok E -> machine_ok Y ->
  exists e o w' leak, resdetect_file R E Y (Some file) None (mkWants true true true true) m None (mkOuts None 0 None 0) w = Ok (e, o, w') /\
    leak_ok E leak /\ known_code e /\
    ((e <> RDEOK /\ o_rw o = None /\ o_rh o = None /\ holds w' w leak []) \/
     (e = RDEOK /\ exists width height fs bw rw bh rh, reads_as R E Y file width height fs /\ client_ok E width height None /\ countable fs /\
        o_rw o = Some (bw, rw) /\ o_rh o = Some (bh, rh) /\ o_cw o = zlen rw /\ o_ch o = zlen rh /\ holds w' w (leak ++ [bw; bh]) [] /\
        reported E m width height None fs (seen_x E width height fs) width rw /\ reported E m width height None fs (seen_y E width height fs) height rh)).
Proof.
  intros EO [S RX CO SF FI]. change (mkWants true true true true) with everything. change (mkOuts None 0 None 0) with no_outs.
  assert (CP : client_params (e_cfg E) None) by (left; reflexivity).
  destruct (resdetect_file_ok R E Y (Some file) None everything m None no_outs w EO CP S RX eq_refl) as (im & width & height & ob & e0 & w1 & EQ & [(_ & NE & Q & H)|(i & fs & er & i' & -> & -> & F & Q)]).
  - pose proof (open_by_code Y CO R E (Some file) (ByType None) true true w) as K0. cbn [open_by] in K0. rewrite EQ in K0. cbn in K0.
    eexists _, _, _, []. split; [exact Q|]. split; [left; reflexivity|]. split; [exact K0|]. left. split; [exact NE|]. split; [reflexivity|]. split; [reflexivity|exact H].
  - destruct (ext_sizes Y S) as (sz & X).
    destruct (open_by_ok sz R E Y (Some file) (ByType None) true true w w [] [] (eo_config _ EO) S RX X (holds_refl w)) as (r & ER & O).
    cbn [open_by] in ER. rewrite EQ in ER. inversion ER; subst r. destruct O as [(_ & i1 & Q1 & W & H & K & _)|(NE & _)]; [|elim NE; reflexivity]. inversion Q1; subst i1.
    destruct (FI file) as (N & BB & NN).
    pose proof (open_by_left R E Y file (ByType None) true true w _ _ _ _ _ _ N (eo_config _ EO) S RX BB EQ) as L.
    destruct (all_frames sz Y RX X _ i K L) as (fs' & er' & j & F' & _ & LF).
    destruct (frames_det _ _ _ _ _ F _ _ _ F') as (<- & _).
    assert (CT : countable fs) by (apply countable_zlen; unfold zlen; lia).
    destruct (Q CT) as (e & o' & wd & w' & BH & RF & HH).
    assert (D := proj1 K). rewrite W, H in D. destruct D as (D1 & D2 & D3).
    pose proof (client_sized E _ _ None EO CP D1 D2 D3) as HC. pose proof (leaks_frames _ _ _ _ _ F) as FB. rewrite W, H in FB.
    destruct (by_hand_file_cases _ _ _ _ _ _ _ _ _ _ _ HC FB CT (frames_code _ _ _ _ _ CO F) BH) as (KE & NO & OKC).
    assert (LEAK : exists leak, leak_ok E leak /\ holds w' w (leak ++ out_blocks everything o') []).
    { destruct HH as [HH|((KB & _ & AF) & b & HH)]; [exists []; split; [left; reflexivity|exact HH]|exists [b]; split; [right; eauto|exact HH]]. }
    destruct LEAK as (leak & LK & HL). exists e, o', w', leak. split; [exact RF|]. split; [exact LK|]. split; [exact KE|].
    destruct (Z.eq_dec e RDEOK) as [E0|NE].
    + right. split; [exact E0|]. destruct (OKC E0) as (-> & bw & rw & bh & rh & A1 & A2 & A3 & A4 & A5 & A6). exists width, height, fs, bw, rw, bh, rh.
      split; [exists w, i, ob, w1, i'; split; [exact EQ|exact F]|]. split; [exact HC|]. split; [exact CT|]. split; [exact A1|]. split; [exact A2|]. split; [exact A3|]. split; [exact A4|].
      split; [|split; assumption]. unfold out_blocks in HL. cbn [everything want_rw want_rh] in HL. rewrite A1, A2 in HL. exact HL.
    + left. split; [exact NE|]. specialize (NO NE). rewrite NO in HL |- *. split; [reflexivity|]. split; [reflexivity|]. rewrite clear_blocks, app_nil_r in HL. exact HL.
Qed.

Lemma stat_ok R E Y file args w : env_ok E -> machine_ok Y ->
  let m := resdet_get_method (hd_error args) in
  exists e s msg w' leak, stat_main R E Y (file :: args) w = Ok (Some (e, s, msg), w') /\ holds w' w leak [] /\ leak_ok E leak /\
    ((e <> RDEOK /\ s = None /\ exists t, msg = Some t /\ resdet_error_str e = Ok t) \/
     (e = RDEOK /\ msg = None /\ exists width height fs rw rh a b, reads_as R E Y file width height fs /\ client_ok E width height None /\ countable fs /\
        reported E m width height None fs (seen_x E width height fs) width rw /\ reported E m width height None fs (seen_y E width height fs) height rh /\
        s = Some (a, b) /\ st_mild a = [] /\ st_extreme a = removelast rw /\ st_mild b = [] /\ st_extreme b = removelast rh)).
Proof.
  intros EO MO m. cbn [stat_main]. fold m. destruct (file_results R E Y file m w EO MO) as (e & o & w' & leak & -> & LK & KE & CASES). cbn [bind].
  destruct CASES as [(NE & -> & -> & HH)|(-> & width & height & fs & bw & rw & bh & rh & RA & HC & CT & -> & -> & -> & -> & HH & RX & RY)].
  - assert (Z0 : e =? 0 = false) by (apply Z.eqb_neq; exact NE). rewrite Z0. cbn [negb bind option_map free_opt]. rewrite ?Z0. destruct (error_text_ok e KE) as (t & -> & ES). cbn [bind].
    eexists _, _, _, _, leak. split; [reflexivity|]. split; [exact HH|]. split; [exact LK|]. left. split; [exact NE|]. split; [reflexivity|]. eauto.
  - cbn [Z.eqb RDEOK negb]. destruct (stat_reported _ _ _ _ _ _ _ _ _ HC CT RX) as (a & -> & A1 & A2). cbn [bind]. destruct (stat_reported _ _ _ _ _ _ _ _ _ HC CT RY) as (b & -> & B1 & B2). cbn [bind option_map fst free_opt].
    assert (H2 : holds w' w (bw :: bh :: leak) []). { eapply holds_perm; [exact HH|]. apply (Permutation_app_comm leak [bw; bh]). }
    destruct (holds_free _ _ _ _ _ H2) as (w2 & -> & H3). cbn [bind]. destruct (holds_free _ _ _ _ _ H3) as (w3 & -> & H4). cbn [bind].
    eexists _, _, _, _, leak. split; [reflexivity|]. split; [exact H4|]. split; [exact LK|]. right. split; [reflexivity|]. split; [reflexivity|].
    exists width, height, fs, rw, rh, a, b. split; [exact RA|]. split; [exact HC|]. split; [exact CT|]. split; [exact RX|]. split; [exact RY|]. auto.
Qed.
