(** The command line program as a whole, and on well-formed files. *)
From Coq Require Import Permutation Sorted Reals Lia Ascii String.
From Verif Require Import Base BaseProofs Flt Spec Util Methods Analysis Resdetect History SpecAnalysis SpecUtil SpecReport WorldProofs UtilProofs AnalysisProofs
  ResultsProofs ClientProofs ProgramProofs Stdio StdioProofs Pgm Pfm Y4m Image ImageHistory SpecImage SpecFormats ImageSafe FrameProofs ImageApi FileProofs SelectProofs
  FormatProofs Cli SpecCli CodeProofs CliProofs CliOptions.
Open Scope list_scope.
Open Scope Z_scope.

(** ** Frames after a seek *)
Lemma map_some_inj (a b : list f32) (k : nat) : map Some a ++ skipn (length a) (repeat None k) = map Some b -> a = b.
Proof.
  revert b k. induction a as [|x a IH]; intros [|y b] k Q; cbn in Q; try reflexivity.
  - destruct k; discriminate Q.
  - discriminate Q.
  - inversion Q. f_equal. destruct k as [|k]; cbn in *; [apply (IH b 0%nat); cbn; rewrite skipn_nil; assumption|apply (IH b k); assumption].
Qed.
Lemma screened_frames sz E Y en : relaxed Y -> (forall x, ext_spec (y_ext Y x) (sz x)) ->
  forall fs im im2 er, image_ok sz im -> frames Y im fs er im2 -> forall fs',
  let buf := repeat None (Z.to_nat (im_width im * im_height im)) in
  (forall n wd, exists im' wd', do_image_calls E Y (repeat (IRead (Some buf)) n) (Some im) wd = Ok (screening en (repeat (IRead (Some buf)) n) fs', im', wd')) ->
  fs = fs' /\ er = en.
Proof.
  intros RX X. induction fs as [|f fs IH]; intros im im2 er K F fs' buf SC; inversion F as [? ? ? ? G|? ? ? ? ? ? G F2]; subst.
  - destruct (SC 1%nat world0) as (i' & wd' & Q). destruct (G buf) as (t & EQ & _).
    { unfold buf. rewrite repeat_length. destruct K as ((? & ? & _) & _). lia. }
    cbn [repeat do_image_calls do_image_call] in Q. rewrite EQ in Q. cbn [bind screening shown] in Q. destruct fs' as [|f' fs']; inversion Q; subst. auto.
  - destruct (gives_same sz Y _ _ _ _ _ RX X K G) as (S & _). destruct (G buf) as (t & EQ & _ & FT).
    { unfold buf. rewrite repeat_length. destruct K as ((? & ? & _) & _). lia. }
    destruct (FT eq_refl) as (LF & ->). assert (NN : 0 <= im_width im * im_height im) by (destruct K as ((? & ? & _) & _); lia).
    rewrite skipn_all2 in EQ by (unfold buf; rewrite repeat_length; lia). rewrite app_nil_r in EQ.
    destruct fs' as [|f' fs'].
    { destruct (SC 1%nat world0) as (i' & wd' & Q). cbn [repeat do_image_calls do_image_call] in Q. rewrite EQ in Q. cbn [bind screening shown] in Q. discriminate Q. }
    assert (FF : f = f').
    { destruct (SC 1%nat world0) as (i' & wd' & Q). cbn [repeat do_image_calls do_image_call] in Q. rewrite EQ in Q. cbn [bind screening shown] in Q. inversion Q as [[Q1 Q2 Q3]].
      symmetry in Q1. symmetry. exact (map_some_inj _ _ _ Q1). }
    subst f'. destruct (IH im1 im2 er (proj1 S) F2 fs') as (-> & ->); [|auto].
    intros n wd. destruct S as (_ & _ & _ & -> & ->). fold buf. destruct (SC (Datatypes.S n) wd) as (i' & wd' & Q). cbn [repeat do_image_calls do_image_call] in Q.
    rewrite EQ in Q. cbn [bind screening shown] in Q. destruct (do_image_calls E Y (repeat (IRead (Some buf)) n) (Some im1) wd) as [[[rs i2] wd2]|]; [|discriminate].
    cbn [bind] in Q. inversion Q; subst. eauto.
Qed.

Lemma film_after_seek sz E Y name (w h : Z) s en i fs offset wd : relaxed Y -> (forall x, ext_spec (y_ext Y x) (sz x)) -> image_ok sz i ->
  im_width i = w -> im_height i = h -> 0 <= offset ->
  (exists i', frames Y i fs en i') -> (forall cs, film_calls E name w h s cs -> screens E Y en i fs cs) ->
  (name = "PFM"%string -> offset <> 0 -> w * h * 12 <= SIZE_MAX /\ (s_seekable s = true \/ forall n, e_alloc E n = true)) ->
  forall b e i1 wd1, after_seek E Y offset i wd = Ok (b, e, Some i1, wd1) ->
  b = (offset <=? zlen fs) /\ (b = true -> exists i2, frames Y i1 (skipn (Z.to_nat offset) fs) en i2).
Proof.
  intros RX X K W H O0 FR SC OK b e i1 wd1. unfold after_seek. destruct (Z.eqb_spec offset 0) as [->|NZ].
  { intros Q. inversion Q; subst. cbn [Z.to_nat skipn]. split; [|auto]. symmetry. apply Z.leb_le. apply zlen_nonneg. }
  intros Q. apply bind_ok in Q. destruct Q as ([[[[b1 e1] calls] o1] w1] & SQ & Q). inversion Q; subst. clear Q.
  set (buf := repeat (@None f32) (Z.to_nat (im_width i * im_height i))). assert (NN : 0 <= im_width i * im_height i) by (destruct K as ((? & ? & _) & _); lia).
  assert (FC : forall n, film_calls E name (im_width i) (im_height i) s (ISeek offset :: repeat (IRead (Some buf)) n)).
  { intros n. split.
    - constructor; [split; [exact I|intros k Q; inversion Q; subst; exact O0]|]. apply Forall_forall. intros c I. apply repeat_spec in I. subst c.
      split; [cbn; unfold buf; rewrite repeat_length; lia|discriminate].
    - intros NP. split; [exact NZ|]. apply OK; assumption. }
  assert (RP : forall n, exists im' wd', do_image_calls E Y (repeat (IRead (Some buf)) n) (Some i1) wd1 = Ok (screening en (repeat (IRead (Some buf)) n) (skipn (Z.to_nat offset) fs), im', wd') /\ b = (offset <=? zlen fs)).
  { intros n. destruct (SC _ (FC n) wd) as (i' & wd' & Q). cbn [do_image_calls do_image_call] in Q. rewrite SQ in Q. cbn [bind screening shown] in Q.
    destruct (do_image_calls E Y (repeat (IRead (Some buf)) n) (Some i1) wd1) as [[[rs i2] wd2]|]; [|discriminate]. cbn [bind] in Q. inversion Q; subst. eauto. }
  destruct (RP 0%nat) as (_ & _ & _ & EB). split; [exact EB|]. intros BT.
  assert (S1 : same_image sz i i1).
  { unfold resdet_seek_frame in SQ. destruct (reader_seek_ok sz E Y (im_ctx i) offset (im_width i) (im_height i) wd wd [] [] RX X (proj1 K) (proj2 K) (holds_refl wd)) as (b2 & e2 & c2 & x2 & w2 & EQ & C1 & B1 & F1 & _).
    rewrite EQ in SQ. cbn [bind] in SQ. inversion SQ; subst. split; [split; [exact (proj1 K)|exact C1]|]. unfold image_blocks, image_files. cbn. rewrite B1, F1. auto. }
  destruct (all_frames sz Y RX X _ i1 (proj1 S1) (Nat.le_refl _)) as (fs2 & er & i2 & F2 & _ & _).
  destruct (screened_frames sz E Y en RX X fs2 i1 i2 er (proj1 S1) F2 (skipn (Z.to_nat offset) fs)) as (-> & ->); [|eauto].
  intros n wd0. destruct S1 as (_ & _ & _ & -> & ->). fold buf. destruct (RP n) as (im' & wd' & Q & _).
  (* reads do not look at the world *)
  clearbody buf. revert Q. clear. generalize (screening en (repeat (IRead (Some buf)) n) (skipn (Z.to_nat offset) fs)). intros rs. revert rs im' wd'. generalize i1. clear. induction n as [|n IH]; intros i rs im' wd' Q; cbn [repeat do_image_calls] in *.
  - inversion Q; subst. eauto.
  - cbn [do_image_call] in *. destruct (resdet_read_image_frame Y (Some i) (Some buf)) as [[[[b0 e0] b1] i0]|]; [|discriminate]. cbn [bind] in *.
    destruct i0 as [i0|].
    + destruct (do_image_calls E Y (repeat (IRead (Some buf)) n) (Some i0) wd1) as [[[rs' i3] wd3]|] eqn:D; [|discriminate]. cbn [bind] in Q. inversion Q; subst.
      destruct (IH _ _ _ _ D) as (im2 & wd2 & ->). cbn [bind]. eauto.
    + destruct (null_calls_ok E Y (repeat (IRead (Some buf)) n) wd1) as (r1 & D1 & _). rewrite D1 in Q. cbn [bind] in Q. inversion Q; subst.
      assert (NC : forall cs w w' r i3 w3, do_image_calls E Y cs None w = Ok (r, i3, w3) -> do_image_calls E Y cs None w' = Ok (r, i3, w')).
      { clear. induction cs as [|c cs IH]; intros w w' r i3 w3; cbn [do_image_calls]; [intros Q; inversion Q; reflexivity|].
        destruct c as [[b|]|k]; cbn; destruct (do_image_calls E Y cs None w) as [[[r1 i1] w1]|] eqn:D; try discriminate; cbn [bind]; intros Q; inversion Q; subst; rewrite (IH _ w' _ _ _ D); reflexivity. }
      rewrite (NC _ _ wd0 _ _ _ D1). cbn [bind]. eauto.
Qed.

(** ** main *)
Lemma take_options_exit R c self : forall evs o x, take_options R c self evs o = inl x ->
  (x_status x = 1 /\ x_err x <> []) \/ (x_status x = 0 /\ exists e, In e evs /\ asks_info e).
Proof.
  induction evs as [|[d a] evs IH]; intros o x; cbn [take_options]; [discriminate|].
  destruct (take_option R c self (Opt d a) o) as [y|o1] eqn:T1.
  2: { intros Q. destruct (IH _ _ Q) as [A|(A & e & I & B)]; [left; exact A|right]. split; [exact A|]. exists e. split; [right; exact I|exact B]. }
  intros Q. inversion Q; subst y. clear Q IH. rewrite take_kind in T1. pose proof (kind_char d) as KC. destruct o as [v m t r rg th f off n p fnd].
  destruct (kind_of d); cbn [by_kind] in T1; try discriminate T1.
  - destruct (fnd || _); [discriminate|]. inversion T1; subst x. unfold list_readers. destruct (String.eqb_spec a "list") as [->|N]; cbn [negb x_status x_err].
    + right. split; [reflexivity|]. exists (Opt d "list"). split; [left; reflexivity|]. right. right. destruct KC as [(Q & _)|(_ & ->)]; [discriminate|auto].
    + left. split; [reflexivity|discriminate].
  - destruct (strtoull a); [discriminate|]. inversion T1; subst x. left. split; [reflexivity|discriminate].
  - destruct (strtoull a) as [k|]; [destruct (negb _); [discriminate|]|]; inversion T1; subst x; left; (split; [reflexivity|discriminate]).
  - inversion T1; subst x. right. split; [reflexivity|]. exists (Opt d a). split; [left; reflexivity|]. left. destruct KC as [(Q & _)|(_ & ->)]; [discriminate|auto].
  - inversion T1; subst x. right. split; [reflexivity|]. exists (Opt d a). split; [left; reflexivity|]. right. left. destruct KC as [(Q & _)|(_ & ->)]; [discriminate|auto].
  - inversion T1; subst x. left. split; [reflexivity|discriminate].
Qed.

Lemma cli_main_cases R E Y T self args w : config_ok (e_cfg E) = true ->
  (exists o m blk p input w1, invoked R E T self args w o m blk p input w1 /\ cli_main R E Y T self args w = cli_run R E Y o m blk p input w1 /\
     holds w1 w [blk] [] /\ client_params (e_cfg E) (Some (auto_filter o input p)) /\ 0 <= o_nframes o /\ 0 <= o_offset o) \/
  (exists x w' evs rest, getopt optstring (t_permute T) args = (evs, rest) /\ cli_main R E Y T self args w = Ok (x, w') /\
     ((x_status x = 1 /\ x_err x <> []) \/ (x_status x = 0 /\ exists e, In e evs /\ asks_info e)) /\
     (holds w' w [] [] \/ (last_arg "t" evs <> None /\ last_arg "R" evs <> None /\ exists b, holds w' w [b] []))).
Proof.
  intros CF. unfold cli_main. destruct (getopt optstring (t_permute T) args) as [evs rest] eqn:GO.
  destruct (take_options R (e_cfg E) self evs no_opts) as [x|o] eqn:TO.
  { right. exists x, w, evs, rest. split; [reflexivity|]. split; [reflexivity|]. split; [exact (take_options_exit _ _ _ _ _ _ TO)|]. left. apply holds_refl. }
  destruct (options_taken _ _ _ _ _ _ _ no_options TO) as (LW & _ & _). cbn [app] in LW.
  destruct rest as [|input rest].
  { right. eexists _, w, evs, []. split; [reflexivity|]. split; [reflexivity|]. split; [left; split; [reflexivity|discriminate]|]. left. apply holds_refl. }
  destruct (resdet_get_method (o_method o)) as [m|] eqn:GM.
  2: { right. eexists _, w, evs, (input :: rest). split; [reflexivity|]. split; [reflexivity|]. split; [left; split; [reflexivity|discriminate]|]. left. apply holds_refl. }
  unfold resdet_alloc_default_parameters. pose proof (holds_alloc (e_alloc E) w w [] [] (holds_refl w)) as HA.
  destruct (alloc (e_alloc E) w) as [[blk|] w1] eqn:AL.
  2: { right. eexists _, w1, evs, (input :: rest). split; [reflexivity|]. split; [reflexivity|]. split; [left; split; [reflexivity|discriminate]|]. left. exact (proj1 HA) || exact HA. }
  destruct (option_params T o (default_params (e_cfg E))) as [err|p] eqn:OP.
  { assert (NE : err <> []).
    { clear - OP. intros ->. unfold option_params in OP. cbv zeta in OP.
      match type of OP with match ?x with _ => _ end = _ => destruct x as [l|q] eqn:Q1 end.
      { inversion OP; subst l. repeat match type of Q1 with context [match ?x with _ => _ end] => destruct x; try discriminate Q1 end. }
      match type of OP with match ?x with _ => _ end = _ => destruct x as [l|q2] eqn:Q2 end.
      { inversion OP; subst l. repeat match type of Q2 with context [match ?x with _ => _ end] => destruct x; try discriminate Q2 end. }
      repeat match type of OP with context [match ?x with _ => _ end] => destruct x; try discriminate OP end. }
    destruct (holds_free _ _ _ _ _ HA) as (w2 & EF & H2). right. exists (mkExit 1 [] err), w2, evs, (input :: rest). split; [reflexivity|]. rewrite EF. split; [reflexivity|].
    split; [left; split; [reflexivity|exact NE]|]. left. exact H2. }
  pose proof (lw_type _ _ LW) as LT. pose proof (lw_reader _ _ LW) as LR.
  assert (RUN : o_type o = None \/ o_reader o = None -> exists o0 m0 blk0 p0 input0 w0, invoked R E T self args w o0 m0 blk0 p0 input0 w0 /\
     cli_run R E Y o m blk p input w1 = cli_run R E Y o0 m0 blk0 p0 input0 w0 /\
     holds w0 w [blk0] [] /\ client_params (e_cfg E) (Some (auto_filter o0 input0 p0)) /\ 0 <= o_nframes o0 /\ 0 <= o_offset o0).
  { intros TR. exists o, m, blk, p, input, w1. destruct (proj1 (option_params_spec T o (default_params (e_cfg E)) p) OP) as (l & AS & G).
    split. { exists evs, rest, (default_params (e_cfg E)), l. split; [exact GO|]. split; [exact TO|]. split; [exact GM|]. split; [unfold resdet_alloc_default_parameters; rewrite AL; reflexivity|]. auto. }
    split; [reflexivity|]. split; [exact HA|]. split.
    - apply auto_params. eapply client_good; [|exact (asked_typed _ _ _ AS)|exact G]. right. exists [], []. split; [constructor|reflexivity].
    - pose proof (lw_nframes _ _ LW) as N. pose proof (lw_offset _ _ LW) as O. split.
      + destruct (last_arg "n" evs); [destruct N as (N & _); apply strtoull_range in N; lia|lia].
      + destruct (last_arg "o" evs); [apply strtoull_range in O; lia|lia]. }
  destruct (o_type o) as [t|] eqn:OT; [destruct (o_reader o) as [r|] eqn:OR|].
  - right. eexists _, w1, evs, (input :: rest). split; [reflexivity|]. split; [reflexivity|]. split; [left; split; [reflexivity|discriminate]|]. right.
    split; [congruence|]. split; [congruence|]. exists blk. exact HA.
  - left. apply RUN. right. reflexivity.
  - left. apply RUN. left. reflexivity.
Qed.

(** ** Frames left after a seek are still bounded *)
Lemma seek_left sz E Y i offset w b e i1 w1 : relaxed Y -> seeks_forward Y -> (forall x, ext_spec (y_ext Y x) (sz x)) -> image_ok sz i ->
  after_seek E Y offset i w = Ok (b, e, Some i1, w1) -> (ctx_left Y (im_ctx i1) <= Datatypes.S (ctx_left Y (im_ctx i)))%nat.
Proof.
  intros RX SF X (D & C). unfold after_seek. destruct (offset =? 0); [intros Q; inversion Q; subst; lia|].
  intros Q. apply bind_ok in Q. destruct Q as ([[[[b1 e1] calls] o1] w2] & SQ & Q). inversion Q; subst. clear Q. unfold resdet_seek_frame in SQ.
  apply bind_ok in SQ. destruct SQ as ([[[[b2 e2] c2] x2] w3] & SQ & Q). inversion Q; subst. clear Q. cbn [im_ctx].
  destruct (im_ctx i) as [c|c|c|x c]; cbn [reader_seek ctx_ok] in *.
  - unfold pgm_seek in SQ. destruct (_ && _); inversion SQ; subst; cbn; destruct (pg_eof _); lia.
  - destruct (pfm_seek_ok E Y c offset (im_width i) (im_height i) w w [] [] RX C (holds_refl w)) as (b3 & e3 & l3 & c' & w4 & EQ & S & _). rewrite EQ in SQ. cbn [bind] in SQ. inversion SQ; subst.
    destruct S as (_ & _ & _ & L). cbn. destruct L as (_ & _ & _ & k & ->). rewrite skipn_length. destruct (pf_consumed c'), (pf_consumed c); lia.
  - destruct (y4m_skip_ok (im_width i) (im_height i) D (Z.to_nat offset) 0 [] c C) as (b3 & e3 & l3 & c' & EQ & S & _). unfold y4m_seek in SQ. rewrite EQ in SQ. cbn [bind] in SQ. inversion SQ; subst.
    destruct S as (_ & _ & _ & _ & L). cbn. destruct L as (_ & _ & _ & k & ->). rewrite skipn_length. lia.
  - destruct (x_seek (y_ext Y x) c offset) as [[[b3 e3] l3] c'] eqn:Q. inversion SQ; subst. cbn. specialize (SF _ _ _ _ _ _ _ Q). lia.
Qed.

Lemma invoked_run R E Y T self args w o m blk p input w1 : config_ok (e_cfg E) = true -> invoked R E T self args w o m blk p input w1 ->
  cli_main R E Y T self args w = cli_run R E Y o m blk p input w1 /\ holds w1 w [blk] [] /\ client_params (e_cfg E) (Some (auto_filter o input p)) /\
  0 <= o_nframes o /\ 0 <= o_offset o.
Proof.
  intros CF (evs & rest & p0 & l & GO & TO & GM & AL & AS & G & TR).
  destruct (options_taken _ _ _ _ _ _ _ no_options TO) as (LW & _ & _). cbn [app] in LW.
  assert (OP : option_params T o p0 = inr p) by (apply option_params_spec; exists l; auto).
  unfold cli_main. rewrite GO, TO, GM, AL, OP. split.
  { destruct (o_type o), (o_reader o); try reflexivity. destruct TR; discriminate. }
  unfold resdet_alloc_default_parameters in AL. pose proof (holds_alloc (e_alloc E) w w [] [] (holds_refl w)) as HA. destruct (alloc (e_alloc E) w) as [[b|] w2]; inversion AL; subst.
  split; [exact HA|]. split.
  - apply auto_params. eapply client_good; [|exact (asked_typed _ _ _ AS)|exact G]. right. exists [], []. split; [constructor|reflexivity].
  - pose proof (lw_nframes _ _ LW) as N. pose proof (lw_offset _ _ LW) as O. split.
    + destruct (last_arg "n" evs); [destruct N as (N & _); apply strtoull_range in N; lia|lia].
    + destruct (last_arg "o" evs); [apply strtoull_range in O; lia|lia].
Qed.

(** ** A successful run by hand reports the result lists of the frames *)
Lemma by_hand_reported E used er width height m p o wd o' wd' : client_ok E width height p ->
  Forall (fun f => width * height <= zlen f) used -> countable used ->
  by_hand_file E used er width height everything m p o wd = Ok (RDEOK, o', wd') ->
  used <> [] /\ er = RDEOK /\ exists bw rw bh rh, o_rw o' = Some (bw, rw) /\ o_rh o' = Some (bh, rh) /\
    reported E m width height p used (seen_x E width height used) width rw /\ reported E m width height p used (seen_y E width height used) height rh.
Proof.
  intros HC FB CT. apply (proj1 (countable_zlen _)) in CT. destruct (client_sizes _ _ _ _ HC) as (Hw & Hh). unfold by_hand_file.
  destruct (create_ok E m width height p wd (eo_config _ (proj1 HC)) Hw Hh (client_valid _ _ _ _ HC)) as (ao & e & wd1 & EC & HCR). rewrite EC. cbn [bind].
  destruct ao as [a|].
  2: { destruct HCR as (CE & _). intros Q. inversion Q; subst. destruct CE as [(Q1 & _)|[(Q1 & _)|[(Q1 & _)|(Q1 & _)]]]; discriminate Q1. }
  assert (R0 : reaches E m width height p [] a) by (destruct HCR as (-> & _); econstructor; exact EC).
  destruct (analyze_frames_ok E m width height p used HC FB [] a wd1 R0) as (e1 & a1 & wd2 & EQ1 & O1 & AB & H'). { change (zlen []) with 0. lia. }
  rewrite EQ1. cbn [bind].
  destruct H' as [(-> & R1 & _)|[(-> & _)|(-> & _)]]; cbn [Z.eqb RDEOK RDENOMEM RDEINVAL].
  2: { cbn [bind]. destruct (resdet_destroy_analysis (Some a1) wd2); discriminate. }
  2: { cbn [bind]. destruct (resdet_destroy_analysis (Some a1) wd2); discriminate. }
  cbn [app] in R1. destruct (Z.eqb_spec er 0) as [->|NE].
  2: { cbn [bind]. destruct (resdet_destroy_analysis (Some a1) wd2); [|discriminate]. intros Q. inversion Q. contradiction. }
  destruct (history_results E m width height p used a1 everything o wd2 HC R1 CT) as (e3 & o3 & wd3 & EQ3 & HR). rewrite EQ3. cbn [bind].
  destruct (resdet_destroy_analysis (Some a1) wd3) as [wd4|]; [|discriminate]. cbn [bind]. intros Q. inversion Q; subst. clear Q.
  destruct HR as [(Q & _)|[(Q & _)|[(Q & _)|(_ & _ & NU & bs & FL & _)]]]; try discriminate Q.
  split; [exact NU|]. split; [reflexivity|]. destruct FL as (bx & by_ & ERW & _ & ERH & _). cbn [everything want_rw want_rh] in ERW, ERH.
  exists bx, (list_x E m width height p used), by_, (list_y E m width height p used). split; [exact ERW|]. split; [exact ERH|]. split.
  - econstructor; [exact R1| |exact EQ3|exact ERW]. reflexivity.
  - eapply reported_height; [exact R1| |exact EQ3|exact ERH]. reflexivity.
Qed.
Lemma first_frames_sub n fs (P : list f32 -> Prop) : Forall P fs -> Forall P (first_frames n fs).
Proof.
  unfold first_frames. destruct (n =? 0); [auto|]. rewrite !Forall_forall. intros A f I. apply A.
  rewrite <- (firstn_skipn (Z.to_nat n) fs). apply in_or_app. left. exact I.
Qed.

(** ** getopt *)
Lemma getopt_operand spec permute a rest : operand a ->
  getopt spec permute (a :: rest) = if permute then let '(evs, ops) := getopt spec permute rest in (evs, a :: ops) else ([], a :: rest).
Proof.
  intros O. cbn [getopt]. destruct (String.eqb_spec a "--") as [->|_]; [elim (O "-"%char ""%string); reflexivity|].
  destruct a as [|c [|d s]]; try reflexivity.
  - destruct c as [[] [] [] [] [] [] [] []]; reflexivity.
  - destruct (ascii_dec c "-") as [->|N]; [elim (O d s); reflexivity|]. destruct c as [[] [] [] [] [] [] [] []]; try reflexivity. elim N. reflexivity.
Qed.
Lemma getopt_dash spec permute c s rest : c <> "-"%char ->
  getopt spec permute (String "-" (String c s) :: rest) =
  (let '(evs, used) := option_cluster spec (String c s) (hd_error rest) in
   match rest with
   | _ :: rest' => let '(evs', operands) := if used then getopt spec permute rest' else getopt spec permute rest in (evs ++ evs', operands)
   | [] => (evs, [])
   end).
Proof.
  intros N. cbn [getopt]. destruct (String.eqb_spec (String "-" (String c s)) "--") as [Q|_]; [inversion Q; contradiction|]. reflexivity.
Qed.
Lemma not_dash c b : find_option optstring c = Some b -> c <> "-"%char.
Proof. intros Q ->. discriminate Q. Qed.
Lemma getopt_spelled permute input rest evs args : operand input -> spelled evs args ->
  getopt optstring permute (args ++ input :: rest) =
  if permute then let '(evs', ops) := getopt optstring permute rest in (evs ++ evs', input :: ops) else (evs, input :: rest).
Proof.
  intros O SP. induction SP as [|c evs args FO SP IH|c a evs args FO SP IH|c a evs args FO NE SP IH]; cbn [app].
  - apply getopt_operand. exact O.
  - rewrite getopt_dash by (eapply not_dash; exact FO). cbn [option_cluster]. rewrite FO.
    destruct (args ++ input :: rest) as [|a0 l0] eqn:AL; [destruct args; discriminate AL|]. rewrite <- AL in *. rewrite IH. destruct permute; [destruct (getopt optstring true rest)|]; reflexivity.
  - rewrite getopt_dash by (eapply not_dash; exact FO). cbn [option_cluster hd_error]. rewrite FO.
    rewrite IH. destruct permute; [destruct (getopt optstring true rest)|]; reflexivity.
  - rewrite getopt_dash by (eapply not_dash; exact FO). cbn [option_cluster]. rewrite FO. destruct a as [|x a]; [contradiction NE; reflexivity|].
    destruct (args ++ input :: rest) as [|a0 l0] eqn:AL; [destruct args; discriminate AL|]. rewrite <- AL in *. cbn [hd_error].
    rewrite IH. destruct permute; [destruct (getopt optstring true rest)|]; reflexivity.
Qed.
Lemma getopt_end permute rest evs args : spelled evs args -> getopt optstring permute (args ++ "--"%string :: rest) = (evs, rest).
Proof.
  intros SP. induction SP as [|c evs args FO SP IH|c a evs args FO SP IH|c a evs args FO NE SP IH]; cbn [app].
  - reflexivity.
  - rewrite getopt_dash by (eapply not_dash; exact FO). cbn [option_cluster]. rewrite FO.
    destruct (args ++ "--"%string :: rest) as [|a0 l0] eqn:AL; [destruct args; discriminate AL|]. rewrite <- AL in *. rewrite IH. reflexivity.
  - rewrite getopt_dash by (eapply not_dash; exact FO). cbn [option_cluster hd_error]. rewrite FO. rewrite IH. reflexivity.
  - rewrite getopt_dash by (eapply not_dash; exact FO). cbn [option_cluster]. rewrite FO. destruct a as [|x a]; [contradiction NE; reflexivity|].
    destruct (args ++ "--"%string :: rest) as [|a0 l0] eqn:AL; [destruct args; discriminate AL|]. rewrite <- AL in *. cbn [hd_error]. rewrite IH. reflexivity.
Qed.
