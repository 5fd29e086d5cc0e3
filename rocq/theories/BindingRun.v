(** Detection through the Python bindings. *)
From Coq Require Import Permutation String.
From Flocq Require Import IEEE754.Binary.
From Verif Require Import Base BaseProofs Flt Util Methods Analysis Resdetect History Spec SpecAnalysis SpecUtil SpecReport WorldProofs UtilProofs AnalysisProofs ResultsProofs ClientProofs ProgramProofs
  Stdio Pgm Pfm Y4m Image ImageHistory SpecImage ImageSafe FrameProofs ImageApi FileProofs SelectProofs Cli SpecCli CodeProofs CliProofs CliFilm CliRun AnalysisClaims Tools SpecTools StatProofs ProfileProofs StatRun
  Bindings SpecBindings BindingProofs.
Open Scope string_scope.
Open Scope list_scope.
Open Scope Z_scope.

(** ** Collecting the results *)
Lemma copy_list_tail l : forall n pre, n = length l -> copy_list n (zlen pre) (pre ++ l) = Ok l.
Proof.
  induction l as [|r l IH]; intros n pre ->; [reflexivity|]. cbn [length copy_list].
  pose proof (zlen_nonneg pre). pose proof (zlen_nonneg l).
  rewrite (get_at r) by (rewrite zlen_app, zlen_cons; lia). unfold at_. rewrite app_nth2 by (unfold zlen; lia).
  replace (Z.to_nat (zlen pre) - length pre)%nat with 0%nat by (unfold zlen; lia). cbn [nth bind].
  specialize (IH (length l) (pre ++ [r]) eq_refl). rewrite zlen_app, <- app_assoc in IH. change (zlen [r]) with 1 in IH. cbn [app] in IH. rewrite IH. reflexivity.
Qed.
Lemma copy_list_ok l : copy_list (Z.to_nat (zlen l)) 0 l = Ok l.
Proof. apply (copy_list_tail l _ []). unfold zlen. lia. Qed.
Lemma py_list_ok b l : py_list (Some (b, l)) (zlen l) = Ok (Return l).
Proof.
  unfold py_list. destruct (Z.eqb_spec (zlen l) 0) as [Q|_].
  - destruct l; [reflexivity|]. rewrite zlen_cons in Q. pose proof (zlen_nonneg l). lia.
  - rewrite copy_list_ok. reflexivity.
Qed.
Lemma collect_ok o bw rw bh rh w w0 bs fs : o_rw o = Some (bw, rw) -> o_rh o = Some (bh, rh) -> o_cw o = zlen rw -> o_ch o = zlen rh ->
  holds w w0 (bw :: bh :: bs) fs -> exists w', py_collect o w = Ok (Return (rw, rh), w') /\ holds w' w0 bs fs /\ w_count w' = w_count w.
Proof.
  intros A B C D H. unfold py_collect. rewrite A, B, C, D, !py_list_ok. cbn [bind option_map fst free_opt].
  destruct (holds_free _ _ _ _ _ H) as (w1 & E1 & H1). rewrite E1. cbn [bind]. destruct (holds_free _ _ _ _ _ H1) as (w2 & E2 & H2). rewrite E2. cbn [bind].
  eexists. split; [reflexivity|]. split; [exact H2|]. unfold free_block in *.
  destruct (remove1 bw (w_live w)); [|discriminate]. inversion E1; subst. cbn in E2. destruct (remove1 bh l); [|discriminate]. inversion E2. reflexivity.
Qed.
Lemma known_in_list c : In c [RDENOMEM; RDEINVAL; RDENOIMG; RDETOOBIG; RDEPARAM; RDEOK; RDEINTERNAL] -> known_code c.
Proof. intros I. apply known_const. repeat (destruct I as [<-|I]; [reflexivity|]). destruct I. Qed.
Lemma leak_holds E w h wd wd' : holds_only E w h wd wd' [] -> exists leak, owns wd' wd leak /\ leak_ok E leak.
Proof.
  intros [O|((K & _ & A) & b & O)]; [exists []; split; [exact O|left; reflexivity]|exists [b]; split; [exact O|right; eauto]].
Qed.

(** ** resdetect *)
Lemma detect_ok E image n w h m d wd p wd1 : env_ok E -> NoDup (map fst d) -> 0 <= w < 2^64 -> 0 <= h < 2^64 -> 0 <= n < 2^64 ->
  Z.of_nat (length image) < 2^62 -> n * (w * h) <= Z.of_nat (length image) -> py_parameters E d wd = (Return p, wd1) ->
  let fs := frames_of (Z.to_nat n) (w * h) image in
  exists r wd' leak, py_resdetect E (Some image) n w h m d wd = Ok (r, wd') /\ holds wd' wd leak [] /\ leak_ok E leak /\
   ((exists lists, r = Return lists /\ 1 <= n /\ detected E m w h (option_map snd p) fs lists) \/
    (exists e x, r = Raise x /\ reflects e x /\ (e = RDENOIMG <-> n = 0) /\ In e [RDEINVAL; RDETOOBIG; RDENOMEM; RDEINTERNAL; RDENOIMG] /\
       (e = RDEINVAL -> w = 0 \/ h = 0 \/ ~ Forall (valid_image w h) fs))).
Proof.
  intros EO ND Hw Hh Hn HL HI PQ fs. destruct (parameters_returned E d wd p wd1 EO ND PQ) as (CP & HP).
  unfold py_resdetect. rewrite PQ. rewrite !wrap_small by lia. change all_wanted with everything. change null_outs with no_outs.
  assert (HC : client_ok E w h (option_map snd p)) by (split; [exact EO|]; auto).
  destruct (Z.eq_dec n 0) as [N0|N1].
  { rewrite (resdetect_by_hand E image n w h everything m _ no_outs wd1 HC ltac:(lia) HL HI). subst n. cbn [bad_wants everything Z.eqb bind want_rw want_cw want_rh want_ch orb andb negb xorb].
    destruct (holds_free_opt wd1 wd (option_map fst p) [] []) as (wd2 & -> & H2). { rewrite app_nil_r. exact HP. } cbn [bind].
    destruct (raise_ok (A := both) RDENOIMG wd2) as (x & Q & RF); [apply known_in_list; cbn; auto|discriminate|].
    cbn [Z.eqb RDENOIMG negb]. change 7 with RDENOIMG. rewrite Q. exists (Raise x), wd2, []. split; [reflexivity|]. split; [exact H2|]. split; [left; reflexivity|].
    right. exists RDENOIMG, x. split; [reflexivity|]. split; [exact RF|]. split; [split; reflexivity|]. split; [cbn; auto 8|discriminate]. }
  destruct (resdetect_outcome_claim E image n w h everything m (option_map snd p) no_outs wd1 HC ltac:(lia) HL HI eq_refl) as (e & o & wd2 & Q & OKC & ERC).
  fold fs in OKC, ERC. rewrite Q. cbn [bind]. destruct (Z.eq_dec e RDEOK) as [->|NE].
  - destruct (OKC eq_refl) as (V & O & XW & XH). destruct (XW eq_refl) as (bw & rw & A1 & A2 & RW). destruct (XH eq_refl) as (bh & rh & A3 & A4 & RH). clear XW XH OKC ERC.
    unfold out_blocks in O. cbn [everything want_rw want_rh] in O. rewrite A1, A3 in O. cbn [app] in O.
    assert (H2 : holds wd2 wd (opt_list (option_map fst p) ++ [bw; bh]) []).
    { eapply holds_perm; [exact (holds_owns _ _ _ _ _ _ O HP)|apply Permutation_app_comm]. }
    destruct (holds_free_opt _ _ _ _ _ H2) as (wd3 & -> & H3). cbn [bind Z.eqb RDEOK negb].
    destruct (collect_ok o bw rw bh rh wd3 wd [] [] A1 A3 A2 A4 H3) as (wd4 & -> & H4 & _).
    exists (Return (rw, rh)), wd4, []. split; [reflexivity|]. split; [exact H4|]. split; [left; reflexivity|]. left. exists (rw, rh).
    split; [reflexivity|]. split; [lia|]. split; [exact V|]. split; [exact RW|exact RH].
  - destruct (ERC NE) as (-> & HO & IE & IV). destruct (leak_holds _ _ _ _ _ HO) as (leak & O & LK).
    assert (H2 : holds wd2 wd (opt_list (option_map fst p) ++ leak) []).
    { eapply holds_perm; [exact (holds_owns _ _ _ _ _ _ O HP)|apply Permutation_app_comm]. }
    destruct (holds_free_opt _ _ _ _ _ H2) as (wd3 & -> & H3). cbn [bind].
    assert (Z0 : e =? 0 = false) by (apply Z.eqb_neq; exact NE). rewrite Z0. cbn [negb].
    destruct (raise_ok (A := both) e wd3) as (x & -> & RF); [apply known_in_list; cbn in *; intuition auto|exact NE|].
    exists (Raise x), wd3, leak. split; [reflexivity|]. split; [exact H3|]. split; [exact LK|]. right. exists e, x. split; [reflexivity|]. split; [exact RF|].
    split; [split; [intros ->|intros ->; contradiction]; cbn in IE; intuition discriminate|]. split; [cbn in *; intuition auto|exact IV].
Qed.

(** ** resdetect_file *)
Lemma typed_results R E Y file t m p w : env_ok E -> machine_ok Y -> client_params (e_cfg E) p ->
  exists e o w' leak, resdetect_file R E Y (Some file) t everything m p no_outs w = Ok (e, o, w') /\
    leak_ok E leak /\ known_code e /\
    ((e <> RDEOK /\ holds w' w leak []) \/
     (e = RDEOK /\ exists width height fs bw rw bh rh, reads_typed R E Y file t width height fs /\ client_ok E width height p /\ countable fs /\
        o_rw o = Some (bw, rw) /\ o_rh o = Some (bh, rh) /\ o_cw o = zlen rw /\ o_ch o = zlen rh /\ holds w' w (bw :: bh :: leak) [] /\
        reported E m width height p fs (seen_x E width height fs) width rw /\ reported E m width height p fs (seen_y E width height fs) height rh)).
Proof.
  intros EO [S RX CO SF FI] CP.
  destruct (resdetect_file_ok R E Y (Some file) t everything m p no_outs w EO CP S RX eq_refl) as (im & width & height & ob & e0 & w1 & EQ & [(_ & NE & Q & H)|(i & fs & er & i' & -> & -> & F & Q)]).
  - pose proof (open_by_code Y CO R E (Some file) (ByType t) true true w) as K0. cbn [open_by] in K0. rewrite EQ in K0. cbn in K0.
    eexists _, _, _, []. split; [exact Q|]. split; [left; reflexivity|]. split; [exact K0|]. left. split; [exact NE|exact H].
  - destruct (ext_sizes Y S) as (sz & X).
    destruct (open_by_ok sz R E Y (Some file) (ByType t) true true w w [] [] (eo_config _ EO) S RX X (holds_refl w)) as (r & ER & O).
    cbn [open_by] in ER. rewrite EQ in ER. inversion ER; subst r. destruct O as [(_ & i1 & Q1 & W & H & K & _)|(NE & _)]; [|elim NE; reflexivity]. inversion Q1; subst i1.
    destruct (FI file) as (N & BB & NN).
    pose proof (open_by_left R E Y file (ByType t) true true w _ _ _ _ _ _ N (eo_config _ EO) S RX BB EQ) as L.
    destruct (all_frames sz Y RX X _ i K L) as (fs' & er' & j & F' & _ & LF).
    destruct (frames_det _ _ _ _ _ F _ _ _ F') as (<- & _).
    assert (CT : countable fs) by (apply countable_zlen; unfold zlen; lia).
    destruct (Q CT) as (e & o' & wd & w' & BH & RF & HH).
    assert (D := proj1 K). rewrite W, H in D. destruct D as (D1 & D2 & D3).
    pose proof (client_sized E _ _ p EO CP D1 D2 D3) as HC. pose proof (leaks_frames _ _ _ _ _ F) as FB. rewrite W, H in FB.
    destruct (by_hand_file_cases _ _ _ _ _ _ _ _ _ _ _ HC FB CT (frames_code _ _ _ _ _ CO F) BH) as (KE & NO & OKC).
    assert (LEAK : exists leak, leak_ok E leak /\ holds w' w (leak ++ out_blocks everything o') []).
    { destruct HH as [HH|((KB & _ & AF) & b & HH)]; [exists []; split; [left; reflexivity|exact HH]|exists [b]; split; [right; eauto|exact HH]]. }
    destruct LEAK as (leak & LK & HL). exists e, o', w', leak. split; [exact RF|]. split; [exact LK|]. split; [exact KE|].
    destruct (Z.eq_dec e RDEOK) as [E0|NE].
    + right. split; [exact E0|]. destruct (OKC E0) as (-> & bw & rw & bh & rh & A1 & A2 & A3 & A4 & A5 & A6). exists width, height, fs, bw, rw, bh, rh.
      split; [exists w, i, ob, w1, i'; split; [exact EQ|exact F]|]. split; [exact HC|]. split; [exact CT|]. split; [exact A1|]. split; [exact A2|]. split; [exact A3|]. split; [exact A4|].
      split; [|split; assumption]. unfold out_blocks in HL. cbn [everything want_rw want_rh] in HL. rewrite A1, A2 in HL. eapply holds_perm; [exact HL|apply (Permutation_app_comm leak [bw; bh])].
    + left. split; [exact NE|]. specialize (NO NE). rewrite NO in HL. rewrite clear_blocks, app_nil_r in HL. exact HL.
Qed.

Lemma reported_valid E m w h p fs Ds len l : client_ok E w h p -> countable fs -> reported E m w h p fs Ds len l -> Forall (valid_image w h) fs /\ fs <> [].
Proof.
  intros HC CT R. assert (X : exists a, reaches E m w h p fs a) by (inversion R; eauto). destruct X as (a & RA). apply (proj1 (countable_zlen _)) in CT.
  pose proof (history_known E m w h p fs a HC RA CT) as K. split; [|exact (proj1 (reaches_nonempty_reported _ _ _ _ _ _ _ _ _ HC CT R))].
  clear -RA HC CT. induction RA as [|images a image a' wd wd' RA IH L Q|]; [constructor| |auto].
  rewrite zlen_app in CT. change (zlen [image]) with 1 in CT. apply Forall_app. split; [apply IH; lia|]. constructor; [|constructor].
  destruct (analyze_step E m w h p images a image wd HC RA) as (e & a2 & wd2 & Q2 & _ & _ & H); [apply countable_zlen; lia|exact L|].
  rewrite Q in Q2. inversion Q2; subst. destruct H as [(V & _)|[(V & _)|(_ & N & _)]]; [exact V|exact V|discriminate].
Qed.

Lemma detect_file_ok R E Y file t m d wd p wd1 : env_ok E -> machine_ok Y -> NoDup (map fst d) -> py_parameters E d wd = (Return p, wd1) ->
  exists r wd' leak, py_resdetect_file R E Y file t m d wd = Ok (r, wd') /\ holds wd' wd leak [] /\ leak_ok E leak /\
    ((exists lists width height fs, r = Return lists /\ reads_typed R E Y file (type_arg t) width height fs /\ fs <> [] /\ detected E m width height (option_map snd p) fs lists) \/
     (exists e x o wd2, r = Raise x /\ reflects e x /\ resdetect_file R E Y (Some file) (type_arg t) everything m (option_map snd p) no_outs wd1 = Ok (e, o, wd2))).
Proof.
  intros EO MO ND PQ. destruct (parameters_returned E d wd p wd1 EO ND PQ) as (CP & HP).
  unfold py_resdetect_file. rewrite PQ. change all_wanted with everything. change null_outs with no_outs.
  destruct (typed_results R E Y file (type_arg t) m (option_map snd p) wd1 EO MO CP) as (e & o & wd2 & leak & Q & LK & KE & CS). rewrite Q. cbn [bind].
  assert (TR : forall xs, holds wd2 wd1 xs [] -> holds wd2 wd (opt_list (option_map fst p) ++ xs) []).
  { intros xs (P1 & P2). destruct HP as (P3 & P4). split.
    - eapply Permutation_trans; [exact P1|]. rewrite <- app_assoc. eapply Permutation_trans; [apply Permutation_app_head; exact P3|]. rewrite !app_assoc. apply Permutation_app_tail, Permutation_app_comm.
    - eapply Permutation_trans; [exact P2|exact P4]. }
  destruct CS as [(NE & H)|(-> & width & height & fs & bw & rw & bh & rh & RT & HC & CT & A1 & A2 & A3 & A4 & H & RW & RH)].
  - destruct (holds_free_opt _ _ _ _ _ (TR _ H)) as (wd3 & -> & H3). cbn [bind]. assert (Z0 : e =? 0 = false) by (apply Z.eqb_neq; exact NE). rewrite Z0. cbn [negb].
    destruct (raise_ok (A := both) e wd3 KE NE) as (x & -> & RF). exists (Raise x), wd3, leak. split; [reflexivity|]. split; [exact H3|]. split; [exact LK|].
    right. exists e, x, o, wd2. auto.
  - destruct (holds_free_opt _ _ _ _ _ (TR _ H)) as (wd3 & -> & H3). cbn [bind Z.eqb RDEOK negb].
    destruct (collect_ok o bw rw bh rh wd3 wd leak [] A1 A2 A3 A4 H3) as (wd4 & -> & H4 & _).
    exists (Return (rw, rh)), wd4, leak. split; [reflexivity|]. split; [exact H4|]. split; [exact LK|]. left. exists (rw, rh), width, height, fs. split; [reflexivity|]. split; [exact RT|].
    destruct (reported_valid _ _ _ _ _ _ _ _ _ HC CT RW) as (V & NE). split; [exact NE|]. split; [exact V|]. split; [exact RW|exact RH].
Qed.
