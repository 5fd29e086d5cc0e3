(** The example of the README of the Python bindings is resdetect_file. *)
From Coq Require Import Permutation String.
From Flocq Require Import IEEE754.Binary.
From Verif Require Import Base BaseProofs Flt Util Methods Analysis Resdetect History Spec SpecAnalysis SpecUtil SpecReport WorldProofs UtilProofs AnalysisProofs ResultsProofs ClientProofs ProgramProofs
  Stdio Pgm Pfm Y4m Image ImageHistory SpecImage ImageSafe FrameProofs ImageApi FileProofs SelectProofs Cli SpecCli CodeProofs CliProofs CliFilm CliRun AnalysisClaims Tools SpecTools StatProofs ProfileProofs StatRun
  Bindings SpecBindings BindingProofs BindingRun.
Open Scope string_scope.
Open Scope list_scope.
Open Scope Z_scope.

Definition raised (e : Z) (x : option exn) : Prop := (e = RDEOK /\ x = None) \/ (e <> RDEOK /\ exists y, x = Some y /\ py_exception e = Ok y).

Lemma example_loop_ok sz E Y er im_end : relaxed Y -> (forall x, ext_spec (y_ext Y x) (sz x)) -> known_code er ->
  forall fs im, frames Y im fs er im_end -> image_ok sz im -> forall fuel b blk image a w e a' w',
  (ctx_left Y (im_ctx im) < fuel)%nat -> zlen image = im_width im * im_height im -> ib_data b = Some (blk, image) -> ib_passed b = None ->
  known_code e -> analyze_frames E fs a w = Ok (e, a', w') ->
  exists x im' b' image', py_example_loop fuel E Y im b a w = Ok (x, im', b', a', w') /\ same_image sz im im' /\
    ib_data b' = Some (blk, image') /\ raised (if e =? 0 then er else e) x.
Proof.
  intros R X KE. induction fs as [|f fs IH]; intros im F K fuel b blk image a w e a' w' FU ZI BD BP K2 EA;
    (destruct fuel as [|fuel]; [lia|]); cbn [py_example_loop]; unfold py_read_frame; rewrite BP, BD; cbn [option_map snd]; set (wh := im_width im * im_height im) in *.
  all: assert (D := proj1 K); assert (WH : 1 <= wh) by (destruct D as (? & ? & ?); unfold wh; nia).
  all: inversion F as [? ? ? ? G|? ? ? ? ? ? G F2]; subst.
  all: destruct (G image) as (t2 & EQ & LT & FT); [unfold zlen in ZI; fold wh; lia|]; rewrite EQ; cbn [bind].
  all: destruct (gives_same sz Y _ _ _ _ _ R X K G) as (S & OKE & LFT).
  - cbn [analyze_frames] in EA. inversion EA; subst. cbn [Z.eqb RDEOK]. destruct (Z.eqb_spec er 0) as [->|NE]; cbn [negb bind].
    + eexists _, _, _, _. split; [reflexivity|]. split; [exact S|]. split; [reflexivity|]. left. auto.
    + destruct (exception_ok er KE NE) as (y & Q & _). rewrite Q. cbn [bind]. eexists _, _, _, _. split; [reflexivity|]. split; [exact S|]. split; [reflexivity|]. right. eauto.
  - cbn [Z.eqb RDEOK negb bind ib_data]. destruct (FT eq_refl) as (LF & ->). fold wh in LF. fold wh.
    assert (SK : skipn (Z.to_nat wh) image = []) by (apply skipn_all2; unfold zlen in ZI; lia). rewrite SK, app_nil_r, filled_some. cbn [bind].
    cbn [analyze_frames] in EA. unfold py_analyze. destruct (resdet_analyze_image E a (Some f) w) as [[[e1 a1] w1]|]; [|discriminate]. cbn [bind] in *.
    destruct (Z.eqb_spec e1 0) as [->|NZ]; cbn [negb bind] in *.
    + destruct S as (K1 & SB & SF & SW & SH).
      destruct (IH im1 F2 K1 fuel (mkBuf (Some (blk, map Some f)) None (ib_dims b)) blk (map Some f) a1 w1 e a' w') as (x & im' & b' & image' & -> & S' & BD' & RS); try reflexivity; try assumption.
      { specialize (LFT eq_refl). lia. } { rewrite SW, SH. fold wh. unfold zlen. rewrite map_length. lia. }
      eexists _, _, _, _. split; [reflexivity|]. split; [eapply same_image_trans; [split; [exact K1|]; auto|exact S']|]. split; [exact BD'|exact RS].
    + inversion EA; subst. destruct (exception_ok e K2 NZ) as (y & Q & _). rewrite Q. cbn [bind]. eexists _, _, _, _. split; [reflexivity|]. split; [exact S|]. split; [reflexivity|].
      destruct (Z.eqb_spec e 0); [contradiction|]. right. eauto.
Qed.

Lemma new_analysis_plain E w h m wd : 0 <= w < 2^64 -> 0 <= h < 2^64 -> py_new_analysis E w h m [] wd =
  ('(a, e, wd) <- resdet_create_analysis E m w h None wd ;; match a with None => py_raise e wd | Some a => Ok (Return a, wd) end).
Proof. intros Hw Hh. unfold py_new_analysis. cbn [py_parameters option_map]. rewrite !wrap_small by lia. destruct (resdet_create_analysis E m w h None wd) as [[[a e] wd']|]; reflexivity. Qed.

Lemma example_ok R E Y file w : env_ok E -> machine_ok Y ->
  exists r w1 leak1 w2 leak2, py_example R E Y file w = Ok (r, w1) /\ holds w1 w leak1 [] /\ leak_ok E leak1 /\
    py_resdetect_file R E Y file None None [] w = Ok (r, w2) /\ holds w2 w leak2 [] /\ leak_ok E leak2.
Proof.
  intros EO MO. assert (MO' := MO). destruct MO' as [S RX CO SF FI].
  assert (CP : client_params (e_cfg E) None) by (left; reflexivity).
  destruct (detect_file_ok R E Y file None None [] w None w EO MO (NoDup_nil _) eq_refl) as (r & w2 & leak2 & PQ & H2 & LK2 & _).
  assert (PQ' := PQ). unfold py_resdetect_file in PQ'. cbn [py_parameters type_arg option_map free_opt] in PQ'. change all_wanted with everything in PQ'. change null_outs with no_outs in PQ'.
  destruct (resdetect_file_ok R E Y (Some file) None everything None None no_outs w EO CP S RX eq_refl) as (im & width & height & ob & e0 & w1 & EQ & CS).
  destruct (ext_sizes Y S) as (sz & X).
  destruct (open_by_ok sz R E Y (Some file) (ByType None) true true w w [] [] (eo_config _ EO) S RX X (holds_refl w)) as (rr & ER & O).
  cbn [open_by] in ER. rewrite EQ in ER. inversion ER; subst rr. clear ER.
  assert (KO : known_code e0). { pose proof (open_by_code Y CO R E (Some file) (ByType None) true true w) as K0. cbn [open_by] in K0. rewrite EQ in K0. exact K0. }
  unfold py_example, py_open_image. cbn [type_arg]. rewrite EQ. cbn [bind].
  destruct O as [(-> & i & -> & W & H & K & PM & _ & b & -> & O)|(NE & -> & -> & -> & -> & O)].
  2: { destruct CS as [(_ & _ & Q & _)|(i & ? & ? & ? & Q & _)]; [|discriminate Q]. rewrite Q in PQ'. cbn [bind] in PQ'.
       assert (Z0 : e0 =? 0 = false) by (apply Z.eqb_neq; exact NE). rewrite Z0 in PQ'. cbn [negb] in PQ'. unfold py_raise in PQ'.
       destruct (exception_ok e0 KO NE) as (x & QX & _). rewrite QX in PQ' |- *. cbn [bind] in PQ' |- *. assert (QR : r = Raise x) by congruence; subst r.
       cbn [py_close_buffer ib_data option_map free_opt bind]. exists (Raise x), w1, [], w2, leak2. split; [reflexivity|]. split; [exact O|]. split; [left; reflexivity|]. auto. }
  destruct CS as [(Q & _)|(i0 & fs & er & i' & Q & _ & F & CT)]; [discriminate Q|]. inversion Q; subst i0. clear Q.
  destruct (FI file) as (N & BB & NN).
  pose proof (open_by_left R E Y file (ByType None) true true w _ _ _ _ _ _ N (eo_config _ EO) S RX BB EQ) as L.
  destruct (all_frames sz Y RX X _ i K L) as (fs' & er' & j & F' & _ & LF).
  destruct (frames_det _ _ _ _ _ F _ _ _ F') as (<- & _).
  assert (CN : countable fs) by (apply countable_zlen; unfold zlen; lia).
  destruct (CT CN) as (e & o & wd & w3 & BH & RF & HH). clear CT.
  rewrite RF in PQ'. cbn [bind] in PQ'.
  assert (D := proj1 K). rewrite W, H in D. destruct D as (D1 & D2 & D3). unfold SIZE_MAX in D3.
  pose proof (client_sized E _ _ None EO CP D1 D2 D3) as HC. pose proof (leaks_frames _ _ _ _ _ F) as FB. rewrite W, H in FB.
  assert (KR : known_code er) by exact (frames_code _ _ _ _ _ CO F).
  cbn [bind]. rewrite W, H. rewrite new_analysis_plain by nia. unfold by_hand_file in BH. destruct (client_sizes _ _ _ _ HC) as (Hw & Hh).
  destruct (create_ok E None width height None w1 (eo_config _ EO) Hw Hh (client_valid _ _ _ _ HC)) as (ao & ec & wd1 & EC & HCR).
  rewrite EC in BH |- *. cbn [bind] in BH |- *.
  assert (HH1 : holds w1 w (b :: image_blocks i) (image_files i)) by (rewrite !app_nil_r in O; exact O).
  assert (FIN : forall wz im' blk' bs, same_image sz i im' -> blk' = b -> holds wz w (b :: image_blocks i ++ bs) (image_files i) ->
     exists wa wb, resdet_close_image (Some im') wz = Ok wa /\ free_block b wa = Ok wb /\ holds wb w bs []).
  { intros wz im' blk' bs (K1 & SB & SFI & _) -> HZ. rewrite <- SB, <- SFI in HZ.
    destruct (close_image_ok sz im' wz w (b :: bs) [] K1) as (wa & EA & HA).
    { rewrite app_nil_r. eapply holds_perm; [exact HZ|]. apply Permutation_middle. }
    destruct (holds_free _ _ _ _ _ HA) as (wb & EB & HB). eauto. }
  destruct ao as [a|].
  2: { inversion BH; subst e o wd. destruct HCR as (CE & leak & OL & HL).
       assert (KC : known_code ec /\ ec <> RDEOK). { destruct CE as [(-> & _)|[(-> & _)|[(-> & _)|(-> & _)]]]; (split; [apply known_in_list; cbn; auto 8|discriminate]). }
       destruct KC as (KC & NC). assert (Z0 : ec =? 0 = false) by (apply Z.eqb_neq; exact NC). rewrite Z0 in PQ'. cbn [negb] in PQ'. unfold py_raise in *.
       destruct (exception_ok ec KC NC) as (x & QX & _). rewrite QX in PQ' |- *. cbn [bind] in PQ' |- *. assert (QR : r = Raise x) by congruence; subst r.
       destruct (FIN wd1 i b leak (same_image_refl sz i K) eq_refl) as (wa & wb & EA & EB & HB).
       { eapply holds_perm; [exact (holds_owns _ _ _ _ _ _ OL HH1)|apply (Permutation_app_comm leak)]. }
       rewrite EA. cbn [bind]. unfold py_close_buffer. cbn [ib_data option_map fst free_opt]. rewrite EB. cbn [bind].
       exists (Raise x), wb, leak, w2, leak2. split; [reflexivity|]. split; [exact HB|]. split; [|auto].
       destruct HL as [->|(_ & LL)]; [left; reflexivity|right]. apply leaks_leaky in LL. destruct LL as (L1 & _ & L2). eauto. }
  destruct HCR as (-> & _ & _ & OW).
  assert (R0 : reaches E None width height None [] a) by (econstructor; exact EC).
  destruct (analyze_frames_ok E None width height None fs HC FB [] a wd1 R0) as (e1 & a1 & wd2 & EQ1 & O1 & AB & H').
  { apply (proj1 (countable_zlen _)) in CN. change (zlen []) with 0. lia. }
  assert (K1 : known_code e1). { destruct H' as [(-> & _)|[(-> & _)|(-> & _)]]; apply known_in_list; cbn; auto 8. }
  rewrite EQ1 in BH. cbn [bind] in BH.
  pose proof (left_bound Y (im_ctx i)) as LB.
  destruct (example_loop_ok sz E Y er i' RX X KR fs i F K (Datatypes.S (frames_bound Y (im_ctx i))) (mkBuf (Some (b, repeat None (Z.to_nat (width * height)))) (ib_passed py_empty_buffer) (Some (width, height, 1))) b
     (repeat None (Z.to_nat (width * height))) (Some a) wd1 e1 (Some a1) wd2) as (x & im' & b' & image' & QL & SI & BD & RS); try reflexivity; try assumption.
  { lia. } { rewrite zlen_repeat, W, H. nia. }
  cbn [bind]. rewrite QL. cbn [bind]. set (e2 := if e1 =? 0 then er else e1) in *.
  assert (O2 : owns wd2 w1 (an_blocks a1)) by (rewrite AB; exact (owns_trans _ _ _ [] _ O1 OW)).
  assert (END : forall wz bs, holds wz w (an_blocks a1 ++ b :: image_blocks i ++ bs) (image_files i) ->
     exists wy wa wb, resdet_destroy_analysis (Some a1) wz = Ok wy /\ resdet_close_image (Some im') wy = Ok wa /\ free_block b wa = Ok wb /\ holds wb w bs []).
  { intros wz bs HZ. destruct (holds_destroy _ _ _ _ _ HZ) as (wy & EY & HY). destruct (FIN wy im' b bs SI eq_refl HY) as (wa & wb & EA & EB & HB). eauto 8. }
  assert (HA2 : holds wd2 w (an_blocks a1 ++ b :: image_blocks i) (image_files i)) by exact (holds_owns _ _ _ _ _ _ O2 HH1).
  destruct RS as [(Z2 & ->)|(NZ2 & y & -> & QY)].
  - (* all frames read: the results *)
    rewrite Z2 in *. cbn [Z.eqb RDEOK] in BH.
    assert (E1 : e1 = RDEOK). { unfold e2 in Z2. destruct (Z.eqb_spec e1 0); [assumption|]. contradiction. }
    destruct H' as [(_ & R1 & V)|[(Y1 & _)|(Y1 & _)]]; [|subst; discriminate|subst; discriminate]. cbn [app] in R1.
    destruct (history_results E None width height None fs a1 everything no_outs wd2 HC R1 (proj1 (countable_zlen _) CN)) as (e3 & o3 & wd3 & EQ3 & HR).
    rewrite EQ3 in BH. cbn [bind] in BH. unfold py_results. change all_wanted with everything. change null_outs with no_outs. rewrite EQ3. cbn [bind].
    assert (FAILS : e3 <> RDEOK -> known_code e3 -> owns wd3 wd2 [] -> exists r' w1' leak1, (('(r0, w4) <- (if negb (e3 =? 0) then py_raise e3 wd3 else py_collect o3 wd3) ;; w5 <- resdet_destroy_analysis (Some a1) w4 ;; Ok (r0, im', b', w5)) = Ok (r', im', b', w1') /\
       (exists y, py_exception e3 = Ok y /\ r' = Raise y) /\ exists wa wb, resdet_close_image (Some im') w1' = Ok wa /\ free_block b wa = Ok wb /\ holds wb w leak1 [] /\ leak1 = [])).
    { intros N3 K3 O3. assert (Z0 : e3 =? 0 = false) by (apply Z.eqb_neq; exact N3). rewrite Z0. cbn [negb]. unfold py_raise. destruct (exception_ok e3 K3 N3) as (y & QY & _). rewrite QY. cbn [bind].
      destruct (END wd3 []) as (wy & wa & wb & EY & EA & EB & HB). { rewrite app_nil_r. exact (holds_owns _ _ _ _ _ _ O3 HA2). }
      rewrite EY. cbn [bind]. exists (Raise y), wy, []. split; [reflexivity|]. split; [eauto|]. eauto 8. }
    assert (DONE : forall r' w1' wa wb, (('(r0, w4) <- (if negb (e3 =? 0) then py_raise e3 wd3 else py_collect o3 wd3) ;; w5 <- resdet_destroy_analysis (Some a1) w4 ;; Ok (r0, im', b', w5)) = Ok (r', im', b', w1')) ->
       resdet_close_image (Some im') w1' = Ok wa -> free_block b wa = Ok wb -> holds wb w [] [] -> r' = r ->
       exists r0 w5 leak1 w6 leak3, ('(r0, b0, w4) <- ('(r0, im0, b0, w4) <- ('(r0, w4) <- (if negb (e3 =? 0) then py_raise e3 wd3 else py_collect o3 wd3) ;; w5 <- resdet_destroy_analysis (Some a1) w4 ;; Ok (r0, im', b', w5)) ;; w5 <- resdet_close_image (Some im0) w4 ;; Ok (r0, b0, w5)) ;;
         '(_, w5) <- py_close_buffer b0 w4 ;; Ok (r0, w5)) = Ok (r0, w5) /\ holds w5 w leak1 [] /\ leak_ok E leak1 /\ py_resdetect_file R E Y file None None [] w = Ok (r0, w6) /\ holds w6 w leak3 [] /\ leak_ok E leak3).
    { intros r' w1' wa wb -> EA EB HB ->. cbn [bind]. rewrite EA. cbn [bind]. unfold py_close_buffer. rewrite BD. cbn [option_map fst free_opt]. rewrite EB. cbn [bind].
      exists r, wb, [], w2, leak2. split; [reflexivity|]. split; [exact HB|]. split; [left; reflexivity|]. auto. }
    assert (BE : e = e3 /\ o = o3). { destruct (resdet_destroy_analysis (Some a1) wd3); [|discriminate]. cbn [bind] in BH. inversion BH. auto. }
    destruct BE as (-> & ->).
    assert (FAILED : e3 <> RDEOK -> known_code e3 -> owns wd3 wd2 [] -> exists r' w1', (('(r0, w4) <- (if negb (e3 =? 0) then py_raise e3 wd3 else py_collect o3 wd3) ;; w5 <- resdet_destroy_analysis (Some a1) w4 ;; Ok (r0, im', b', w5)) = Ok (r', im', b', w1')) /\ r' = r /\
       exists wa wb, resdet_close_image (Some im') w1' = Ok wa /\ free_block b wa = Ok wb /\ holds wb w [] []).
    { intros N3 K3 O3. destruct (FAILS N3 K3 O3) as (r' & w1' & leak1 & Q1 & (y & QY & ->) & wa & wb & EA & EB & HB & ->). exists (Raise y), w1'. split; [exact Q1|]. split; [|eauto].
      assert (Z0 : e3 =? 0 = false) by (apply Z.eqb_neq; exact N3). rewrite Z0 in PQ'. cbn [negb] in PQ'. unfold py_raise in PQ'. rewrite QY in PQ'. inversion PQ'. reflexivity. }
    destruct HR as [(-> & BW & _)|[(-> & _ & _ & -> & ->)|[(-> & _ & _ & -> & O' & _)|(-> & _ & _ & bs' & FL & O')]]]; [discriminate BW| | |].
    + destruct FAILED as (r' & w1' & Q1 & QR & wa & wb & EA & EB & HB); [discriminate|apply known_in_list; cbn; auto 8|apply owns_refl|]. exact (DONE _ _ _ _ Q1 EA EB HB QR).
    + destruct FAILED as (r' & w1' & Q1 & QR & wa & wb & EA & EB & HB); [discriminate|apply known_in_list; cbn; auto 8|exact O'|]. exact (DONE _ _ _ _ Q1 EA EB HB QR).
    + destruct FL as (bx & by_ & A1 & A2 & A3 & A4 & A5). cbn [everything want_rw want_rh want_cw want_ch] in A1, A2, A3, A4, A5.
      assert (HR : holds wd3 w (bx :: by_ :: an_blocks a1 ++ b :: image_blocks i) (image_files i)).
      { subst bs'. exact (holds_owns _ _ _ _ _ _ O' HA2). }
      destruct (collect_ok o3 _ _ _ _ wd3 w _ _ A1 A3 A2 A4 HR) as (wd4 & QC & HC4 & _).
      destruct (END wd4 []) as (wy & wa & wb & EY & EA & EB & HB). { rewrite app_nil_r. exact HC4. }
      refine (DONE _ wy wa wb _ EA EB HB _).
      * cbn [Z.eqb RDEOK negb]. rewrite QC. cbn [bind]. rewrite EY. reflexivity.
      * cbn [Z.eqb RDEOK negb] in PQ'. unfold py_collect in PQ'. rewrite A1, A2, A3, A4, !py_list_ok in PQ'. cbn [bind] in PQ'.
        destruct (free_opt _ w3); [|discriminate]. cbn [bind] in PQ'. destruct (free_opt _ a0); [|discriminate]. cbn [bind] in PQ'. inversion PQ'. reflexivity.
  - (* a frame could not be read or analysed *)
    assert (Z0 : e2 =? 0 = false) by (apply Z.eqb_neq; exact NZ2). rewrite Z0 in BH. cbn [bind] in BH |- *.
    destruct (END wd2 []) as (wy & wa & wb & EY & EA & EB & HB). { rewrite app_nil_r. exact HA2. }
    rewrite EY. cbn [bind]. rewrite EA. cbn [bind]. unfold py_close_buffer. rewrite BD. cbn [option_map fst free_opt]. rewrite EB. cbn [bind].
    assert (BE : e = e2). { destruct (resdet_destroy_analysis (Some a1) wd2); [|discriminate]. cbn [bind] in BH. inversion BH. auto. } subst e.
    rewrite Z0 in PQ'. cbn [negb] in PQ'. unfold py_raise in PQ'. rewrite QY in PQ'. cbn [bind] in PQ'. assert (QR : r = Raise y) by congruence; subst r.
    exists (Raise y), wb, [], w2, leak2. split; [reflexivity|]. split; [exact HB|]. split; [left; reflexivity|]. auto.
Qed.
