(** resdet_read_image and resdetect_file. *)
From Coq Require Import Permutation.
From Verif Require Import Base BaseProofs Flt Spec Util Methods Analysis Resdetect History SpecReport WorldProofs UtilProofs AnalysisProofs
  ResultsProofs ClientProofs ProgramProofs Stdio StdioProofs Pgm Pfm Y4m Image ImageHistory SpecImage ImageSafe FrameProofs ImageApi.
Open Scope list_scope.
Open Scope Z_scope.

Lemma gives_det Y im b e f im1 b' e' f' im1' : gives Y im b e f im1 -> gives Y im b' e' f' im1' ->
  b = b' /\ e = e' /\ im1 = im1' /\ (b = true -> f = f').
Proof.
  intros G G'. set (n := Z.to_nat (im_width im * im_height im)).
  destruct (G (repeat None n)) as (u & E & L & F); [rewrite repeat_length; unfold n; lia|].
  destruct (G' (repeat None n)) as (u' & E' & L' & F'); [rewrite repeat_length; unfold n; lia|].
  rewrite E in E'. inversion E'; subst. repeat (split; [reflexivity|]). intros ->.
  destruct (F eq_refl) as (A & B), (F' eq_refl) as (A' & B'). rewrite B in B'.
  fold n in B'. rewrite !skipn_all2, !app_nil_r in B' by (rewrite repeat_length; lia).
  apply (f_equal (map (fun o => match o with Some v => v | None => f0 end))) in B'. rewrite !map_map, !map_id in B'. exact B'.
Qed.
Lemma frames_det Y im fs e im1 : frames Y im fs e im1 -> forall fs' e' im1', frames Y im fs' e' im1' -> fs = fs' /\ e = e' /\ im1 = im1'.
Proof.
  induction 1 as [im e f im1 G|im f im1 fs e im2 G F IH]; intros fs' e' im2' F'; inversion F' as [? ? ? ? G'|? ? ? ? ? ? G' F2]; subst;
    destruct (gives_det _ _ _ _ _ _ _ _ _ _ G G') as (A & B & C & D); try discriminate.
  - subst. auto.
  - subst. specialize (D eq_refl). subst. destruct (IH _ _ _ F2) as (-> & -> & ->). auto.
Qed.
Lemma gives_same sz Y im b e f im' : relaxed Y -> (forall x, ext_spec (y_ext Y x) (sz x)) -> image_ok sz im ->
  gives Y im b e f im' -> same_image sz im im' /\ (b = true -> e = RDEOK) /\ (b = true -> (ctx_left Y (im_ctx im') < ctx_left Y (im_ctx im))%nat).
Proof.
  intros R X K G. destruct (read_frame_ok sz Y im R X K) as (b1 & e1 & f1 & im1 & G1 & S & O & L).
  destruct (gives_det _ _ _ _ _ _ _ _ _ _ G G1) as (-> & -> & -> & _). auto.
Qed.
Lemma holds_realloc al b w w0 bs fs : holds w w0 (b :: bs) fs ->
  exists r w', realloc_block al b w = Ok (r, w') /\
  match r with Some b' => holds w' w0 (b' :: bs) fs | None => holds w' w0 (b :: bs) fs /\ exists i, al i = false end.
Proof.
  intros H. unfold realloc_block. pose proof (holds_alloc al w w0 _ _ H) as A. unfold alloc in *.
  destruct (al (w_count w)) eqn:Q.
  - assert (H2 : holds (mkWorld (S (w_count w)) (w_count w :: w_live w) (w_nfile w) (w_files w)) w0 (b :: w_count w :: bs) fs).
    { eapply holds_perm; [exact A|]. apply perm_swap. }
    destruct (holds_free _ _ _ _ _ H2) as (w' & -> & H3). cbn [bind]. eexists _, _. split; [reflexivity|]. exact H3.
  - eexists _, _. split; [reflexivity|]. split; [apply A|eauto].
Qed.

(** ** All frames into one buffer *)
Lemma skipn_map_app {A} (l : list A) r n : n = length l -> skipn n (map Some l ++ r) = r.
Proof. intros ->. rewrite skipn_app, map_length, skipn_all2, Nat.sub_diag by (rewrite map_length; lia). reflexivity. Qed.
Lemma firstn_map_app {A} (l : list A) r n : n = length l -> firstn n (map Some l ++ r) = map Some l.
Proof. intros ->. rewrite firstn_app, map_length, firstn_all2, Nat.sub_diag by (rewrite map_length; lia). cbn. apply app_nil_r. Qed.

Definition read_result (E : env) (width height : Z) (done : list f32) (n : Z) (fs : list (list f32)) (er : Z) (e n' : Z) (image : list (option f32)) : Prop :=
  (e = er /\ n' = n + zlen fs /\ within E width height (n' + 1) /\
     exists tail, image = map Some (done ++ concat fs) ++ tail /\ zlen tail = width * height) \/
  (e = RDETOOBIG /\ n + 1 <= n' <= n + zlen fs /\ within E width height n' /\ ~ within E width height (n' + 1)) \/
  (e = RDENOMEM /\ n + 1 <= n' <= n + zlen fs /\ within E width height (n' + 1) /\ exists i, e_alloc E i = false).

Lemma read_loop_ok sz E Y er im_end : config_ok (e_cfg E) = true -> relaxed Y -> (forall x, ext_spec (y_ext Y x) (sz x)) ->
  forall fs im, frames Y im fs er im_end -> image_ok sz im -> forall fuel blk done tail n w w0 bs fls,
  (ctx_left Y (im_ctx im) < fuel)%nat ->
  zlen done = im_width im * im_height im * n -> zlen tail = im_width im * im_height im -> 0 <= n -> within E (im_width im) (im_height im) (n + 1) ->
  holds w w0 (blk :: bs) fls ->
  exists e im' blk' image' n' w', read_loop fuel E Y im blk (map Some done ++ tail) n (im_width im) (im_height im) w = Ok (e, im', (blk', image'), n', w') /\
    same_image sz im im' /\ holds w' w0 (blk' :: bs) fls /\ read_result E (im_width im) (im_height im) done n fs er e n' image'.
Proof.
  intros CF R X. induction fs as [|f fs IH]; intros im F K fuel blk done tail n w w0 bs fls FU ZD ZT N IN H;
    (destruct fuel as [|fuel]; [lia|]); cbn [read_loop]; set (wh := im_width im * im_height im) in *.
  all: assert (D := proj1 K); assert (D' := D); destruct D' as (D1 & D2 & D3).
  all: assert (WH : 1 <= wh) by (unfold wh; nia); destruct IN as (IN1 & IN2); fold wh in IN1, IN2; unfold SIZE_MAX in IN2.
  all: assert (DW : wrap wh = wh) by exact (dims_wrap _ _ D); rewrite DW; rewrite (wrap_small (wh * n)) by nia.
  all: unfold read_at; rewrite zlen_app; assert (ZM : zlen (map Some done) = wh * n) by (unfold zlen; rewrite map_length; exact ZD); rewrite ZM, ZT.
  all: destruct (Z.ltb_spec (wh * n) 0); [nia|]; destruct (Z.ltb_spec (wh * n + wh) (wh * n)); [nia|]; cbn [orb].
  all: rewrite skipn_map_app by (unfold zlen in ZD; lia); rewrite firstn_map_app by (unfold zlen in ZD; lia).
  all: inversion F as [? ? ? ? G|? ? ? ? ? ? G F2]; subst.
  all: destruct (G tail) as (t2 & EQ & LT & FT); [unfold zlen in ZT; fold wh; lia|]; rewrite EQ; cbn [bind].
  all: destruct (gives_same sz Y _ _ _ _ _ R X K G) as (S & OKE & LFT); cbn [negb].
  - eexists _, _, _, _, _, _. split; [reflexivity|]. split; [exact S|]. split; [exact H|].
    left. split; [reflexivity|]. change (zlen []) with 0. rewrite Z.add_0_r. split; [reflexivity|]. split; [split; [exact IN1|unfold SIZE_MAX; exact IN2]|].
    exists t2. cbn [concat]. rewrite app_nil_r. split; [reflexivity|unfold zlen in *; lia].
  - destruct (FT eq_refl) as (LF & ->). fold wh in LF. fold wh.
    assert (SK : skipn (Z.to_nat wh) tail = []) by (apply skipn_all2; unfold zlen in ZT; lia). rewrite SK, app_nil_r, <- map_app.
    assert (NB : n + 2 < 2 ^ 64) by nia.
    rewrite !(wrap_small (n + 1)) by lia. rewrite (wrap_small (n + 1 + 1)) by lia.
    unfold config_ok in CF. unfold is_size in *.
    destruct (dims_limit_ok (e_cfg E) (im_width im) (im_height im) (n + 1 + 1) 4) as (big & -> & DL); try lia. fold wh in DL. cbn [bind].
    pose proof (zlen_nonneg fs). destruct big.
    { eexists _, _, _, _, _, _. split; [reflexivity|]. split; [exact S|]. split; [exact H|]. right; left. split; [reflexivity|].
      rewrite zlen_cons. split; [lia|]. split; [split; [exact IN1|unfold SIZE_MAX; exact IN2]|]. intros (W1 & W2). fold wh in W1, W2.
      assert (true = false) by (apply DL; repeat split; lia). discriminate. }
    destruct DL as (DL & _). destruct (DL eq_refl) as (_ & _ & _ & DL4 & DL5). unfold SIZE_MAX in DL5.
    destruct (holds_realloc (e_alloc E) blk w w0 bs fls H) as (r & w1 & -> & HR). cbn [bind].
    destruct r as [blk1|].
    2: { destruct HR as (HR & AF). eexists _, _, _, _, _, _. split; [reflexivity|]. split; [exact S|]. split; [exact HR|]. right; right. split; [reflexivity|].
         rewrite zlen_cons. split; [lia|]. split; [split; [exact DL4|unfold SIZE_MAX; exact DL5]|exact AF]. }
    rewrite (wrap_small (wh * (n + 1 + 1))) by nia. rewrite (wrap_small (wh * (n + 1 + 1) * 4)) by nia. rewrite Z.div_mul by lia.
    set (m := Z.to_nat (wh * (n + 1 + 1))).
    assert (LEN : length (map (@Some f32) (done ++ f)) = (m - Z.to_nat wh)%nat).
    { rewrite map_length, app_length. unfold zlen in ZD. unfold m. nia. }
    rewrite LEN. replace (m - (m - Z.to_nat wh))%nat with (Z.to_nat wh) by (unfold m; nia).
    rewrite firstn_all2. 2: { rewrite app_length, LEN, repeat_length. unfold m. nia. }
    destruct S as (K1 & SB & SF & SW & SH).
    specialize (IH im1 F2 K1 fuel blk1 (done ++ f) (repeat None (Z.to_nat wh)) (n + 1) w1 w0 bs fls). rewrite SW, SH in IH. fold wh in IH.
    destruct IH as (e & im' & blk' & image' & n' & w' & -> & S' & H' & RES).
    { specialize (LFT eq_refl). lia. } { rewrite zlen_app. unfold zlen in *. lia. } { unfold zlen. rewrite repeat_length. lia. } { lia. }
    { split; [exact DL4|unfold SIZE_MAX; exact DL5]. } { exact HR. }
    eexists _, _, _, _, _, _. split; [reflexivity|]. split; [eapply same_image_trans; [split; [exact K1|]; auto|exact S']|]. split; [exact H'|].
    destruct RES as [(-> & -> & W & t & -> & TL)|[(-> & NN & W)|(-> & NN & W)]].
    + left. rewrite zlen_cons. split; [reflexivity|]. split; [lia|]. split; [exact W|].
      exists t. cbn [concat]. rewrite <- app_assoc. auto.
    + right; left. rewrite zlen_cons. split; [reflexivity|]. split; [lia|exact W].
    + right; right. rewrite zlen_cons. split; [reflexivity|]. split; [lia|exact W].
Qed.

Lemma zlen_repeat {A} (a : A) n : zlen (repeat a n) = Z.of_nat n.
Proof. unfold zlen. rewrite repeat_length. reflexivity. Qed.

(** what resdet_open_image gives, and the frames of the image *)
Lemma read_image_ok R E Y filename filetype ptrs w : config_ok (e_cfg E) = true -> system_ok Y -> relaxed Y ->
  exists im width height ob e0 w1, resdet_open_image R E Y filename filetype ptrs true w = Ok (im, width, height, ob, e0, w1) /\
  exists buf n e w', resdet_read_image R E Y filename filetype ptrs w = Ok (buf, n, width, height, e, w') /\
    ((im = None /\ e = e0 /\ e <> RDEOK /\ buf = None /\ n = 0 /\ holds w' w [] []) \/
     (exists i fs er i', im = Some i /\ e0 = RDEOK /\ 1 <= width /\ 1 <= height /\ frames Y i fs er i' /\
       ((e = RDEOK /\ er = RDEOK /\ n = zlen fs /\ within E width height (n + 1) /\
           exists b tail, buf = Some (b, map Some (concat fs) ++ tail) /\ zlen (concat fs) = width * height * n /\ zlen tail = width * height /\ holds w' w [b] []) \/
        (e <> RDEOK /\ buf = None /\ holds w' w [] [] /\
           ((e = er /\ n = zlen fs) \/
            (e = RDETOOBIG /\ 1 <= n <= zlen fs /\ ~ within E width height (n + 1)) \/
            (e = RDENOMEM /\ 1 <= n <= zlen fs /\ exists k, e_alloc E k = false)))))).
Proof.
  intros CF S RX. destruct (ext_sizes Y S) as (sz & X).
  destruct (open_by_ok sz R E Y filename (ByType filetype) ptrs true w w [] [] CF S RX X (holds_refl w)) as ([[[[[im width] height] ob] e0] w1] & EQ & O).
  cbn [open_by] in EQ. exists im, width, height, ob, e0, w1. split; [exact EQ|]. unfold resdet_read_image. rewrite EQ. cbn [bind].
  destruct O as [(-> & i & -> & W & H & K & PM & _ & b & -> & O)|(NE & -> & -> & -> & -> & O)].
  2: { destruct (Z.eqb_spec e0 0) as [->|_]; [elim NE; reflexivity|]. cbn [negb]. eexists _, _, _, _. split; [reflexivity|]. left. auto 10. }
  cbn [Z.eqb negb RDEOK]. assert (D := proj1 K). rewrite W, H in D. destruct D as (D1 & D2 & D3).
  destruct (all_frames sz Y RX X (ctx_left Y (im_ctx i)) i K (Nat.le_refl _)) as (fs & er & i' & F & _ & _).
  pose proof (left_bound Y (im_ctx i)) as LB.
  assert (HH : holds w1 w (b :: image_blocks i) (image_files i)) by (rewrite !app_nil_r in O; exact O).
  destruct (read_loop_ok sz E Y er i' CF RX X fs i F K (Datatypes.S (frames_bound Y (im_ctx i))) b [] (repeat None (Z.to_nat (width * height))) 0 w1 w (image_blocks i) (image_files i))
    as (e & im' & blk' & image' & n' & w' & EL & SI & H' & RES); try (rewrite ?W, ?H); try exact HH; try lia.
  { change (zlen []) with 0. lia. } { rewrite zlen_repeat. nia. } { split; rewrite ?Z.mul_1_r; lia. }
  rewrite W, H in *. cbn [map app] in EL. rewrite EL. cbn [bind].
  destruct SI as (K1 & SB & SF & SW & SH).
  assert (CL : forall wz, holds wz w (image_blocks i ++ []) (image_files i ++ []) -> exists wz', resdet_close_image (Some im') wz = Ok wz' /\ holds wz' w [] []).
  { intros wz HZ. rewrite <- SB, <- SF in HZ. exact (close_image_ok sz im' wz w [] [] K1 HZ). }
  assert (NBUF : e <> RDEOK -> exists buf n e2 w2,
     ('(buf, w0) <- (if e =? 0 then Ok (Some (blk', image'), w') else w0 <- free_block (fst (blk', image')) w' ;; Ok (None, w0)) ;;
      w0 <- resdet_close_image (Some im') w0 ;; Ok (buf, n', width, height, e, w0)) = Ok (buf, n, width, height, e2, w2) /\ e2 = e /\ n = n' /\ buf = None /\ holds w2 w [] []).
  { intros NE. destruct (Z.eqb_spec e 0); [contradiction|]. cbn [fst]. destruct (holds_free _ _ _ _ _ H') as (w2 & -> & H2). cbn [bind].
    destruct (CL w2) as (w3 & -> & H3). { rewrite !app_nil_r. exact H2. } cbn [bind]. eexists _, _, _, _. split; [reflexivity|]. auto. }
  destruct RES as [(Q & -> & WI & t & -> & TL)|RES].
  - destruct (Z.eq_dec e 0) as [Z0|NZ].
    + rewrite Z0 in *. cbn [Z.eqb bind]. cbn [app map] in *.
      assert (HC : holds w' w (image_blocks i ++ [blk']) (image_files i ++ [])).
      { rewrite app_nil_r. eapply holds_perm; [exact H'|]. apply Permutation_cons_append. }
      rewrite <- SB, <- SF in HC. destruct (close_image_ok sz im' w' w _ _ K1 HC) as (w3 & -> & H3). cbn [bind].
      eexists _, _, _, _. split; [reflexivity|]. right. exists i, fs, er, i'. repeat (split; [reflexivity||assumption|]). left.
      split; [reflexivity|]. split; [unfold RDEOK; congruence|]. split; [reflexivity|]. split; [exact WI|]. exists blk', t. split; [reflexivity|].
      split; [|split; [exact TL|exact H3]].
      clear -F D1 D2 W H. revert i W H F. cbn. induction fs as [|f fs IH]; intros i W H F.
      * change (zlen []) with 0. cbn. change (zlen []) with 0. lia.
      * inversion F as [|? ? ? ? ? ? G F2]; subst. destruct (G (repeat None (Z.to_nat (im_width i * im_height i)))) as (u & EE & _ & FT).
        { rewrite repeat_length. lia. } destruct (FT eq_refl) as (LF & _). cbn [concat]. rewrite zlen_app.
        assert (DM : im_width im1 = im_width i /\ im_height im1 = im_height i).
        { unfold resdet_read_image_frame in EE. apply bind_ok in EE. destruct EE as ([[[b2 e2] u2] c2] & _ & EE). inversion EE. auto. }
        destruct DM as (DM1 & DM2). rewrite (IH im1 DM1 DM2 F2). rewrite zlen_cons. unfold zlen at 1. lia.
    + destruct (NBUF NZ) as (buf & n & e2 & w2 & EZ & -> & -> & -> & H2). eexists _, _, _, _. split; [exact EZ|]. right.
      exists i, fs, er, i'. repeat (split; [reflexivity||assumption|]). right. split; [exact NZ|]. split; [reflexivity|]. split; [exact H2|].
      left. split; [exact Q|lia].
  - assert (NZ : e <> RDEOK) by (destruct RES as [(-> & _)|(-> & _)]; discriminate).
    destruct (NBUF NZ) as (buf & n & e2 & w2 & EZ & -> & -> & -> & H2). eexists _, _, _, _. split; [exact EZ|]. right.
    exists i, fs, er, i'. repeat (split; [reflexivity||assumption|]). right. split; [exact NZ|]. split; [reflexivity|]. split; [exact H2|].
    right. destruct RES as [(-> & NN & _ & WI)|(-> & NN & _ & AF)]; [left|right]; (split; [reflexivity|]; split; [lia|assumption]).
Qed.

(** ** resdetect_file *)
Lemma holds_owns w w1 w0 bs xs fs : owns w w1 xs -> holds w1 w0 bs fs -> holds w w0 (xs ++ bs) fs.
Proof.
  intros (P & _ & F) (P' & F'). split.
  - eapply Permutation_trans; [exact P|]. rewrite <- app_assoc. apply Permutation_app_head. exact P'.
  - rewrite F. exact F'.
Qed.
Lemma holds_destroy a w w0 bs fs : holds w w0 (an_blocks a ++ bs) fs ->
  exists w', resdet_destroy_analysis (Some a) w = Ok w' /\ holds w' w0 bs fs.
Proof.
  intros (P & F). set (wb := mkWorld (w_count w) (bs ++ w_live w0) (w_nfile w) (w_files w)).
  assert (O : owns w wb (an_blocks a ++ [])).
  { split; [|split; reflexivity]. cbn. rewrite app_nil_r, app_assoc. exact P. }
  destruct (destroy_ok a w wb [] O) as (w' & -> & (P' & _ & F') & _). exists w'. split; [reflexivity|]. split; [exact P'|].
  rewrite F'. exact F.
Qed.

Lemma filled_some l : filled (map Some l) = Ok l.
Proof. induction l as [|v l IH]; [reflexivity|]. cbn [map filled]. rewrite IH. reflexivity. Qed.

Lemma file_loop_ok sz E Y er im_end : relaxed Y -> (forall x, ext_spec (y_ext Y x) (sz x)) ->
  forall fs im, frames Y im fs er im_end -> image_ok sz im -> forall fuel image a w e a' w',
  (ctx_left Y (im_ctx im) < fuel)%nat -> zlen image = im_width im * im_height im ->
  analyze_frames E fs a w = Ok (e, a', w') ->
  exists im', file_loop fuel E Y im image a w = Ok (if e =? 0 then er else e, im', a', w') /\ same_image sz im im'.
Proof.
  intros R X. induction fs as [|f fs IH]; intros im F K fuel image a w e a' w' FU ZI EA;
    (destruct fuel as [|fuel]; [lia|]); cbn [file_loop]; set (wh := im_width im * im_height im) in *.
  all: assert (D := proj1 K); assert (WH : 1 <= wh) by (destruct D as (? & ? & ?); unfold wh; nia).
  all: unfold read_at; rewrite ZI; destruct (Z.ltb_spec wh 0); [lia|]; change (0 <? 0) with false; cbn [orb].
  all: change (skipn (Z.to_nat 0) image) with image; change (firstn (Z.to_nat 0) image) with (@nil (option f32)).
  all: inversion F as [? ? ? ? G|? ? ? ? ? ? G F2]; subst.
  all: destruct (G image) as (t2 & EQ & LT & FT); [unfold zlen in ZI; fold wh; lia|]; rewrite EQ; cbn [bind app].
  all: destruct (gives_same sz Y _ _ _ _ _ R X K G) as (S & OKE & LFT); cbn [negb].
  - cbn [analyze_frames] in EA. inversion EA; subst. exists im_end. split; [reflexivity|exact S].
  - destruct (FT eq_refl) as (LF & ->). fold wh in LF. fold wh.
    assert (SK : skipn (Z.to_nat wh) image = []) by (apply skipn_all2; unfold zlen in ZI; lia). rewrite SK, app_nil_r, filled_some. cbn [bind].
    cbn [analyze_frames] in EA. destruct (resdet_analyze_image E a (Some f) w) as [[[e1 a1] w1]|]; [|discriminate]. cbn [bind] in *.
    destruct (Z.eqb_spec e1 0) as [->|NZ]; cbn [negb] in *.
    + destruct S as (K1 & SB & SF & SW & SH).
      destruct (IH im1 F2 K1 fuel (map Some f) a1 w1 e a' w') as (im' & -> & S').
      { specialize (LFT eq_refl). lia. } { rewrite SW, SH. fold wh. unfold zlen. rewrite map_length. lia. } { exact EA. }
      exists im'. split; [reflexivity|]. eapply same_image_trans; [split; [exact K1|]; auto|exact S'].
    + inversion EA; subst. exists im1. destruct (Z.eqb_spec e 0); [contradiction|]. split; [reflexivity|exact S].
Qed.

Lemma leaks_frames Y im fs er im' : frames Y im fs er im' -> Forall (fun f => im_width im * im_height im <= zlen f) fs.
Proof.
  induction 1 as [|im f im1 fs e im' G F IH]; [constructor|].
  destruct (G (repeat None (Z.to_nat (im_width im * im_height im)))) as (u & EE & _ & FT).
  { rewrite repeat_length. lia. } destruct (FT eq_refl) as (LF & _).
  unfold resdet_read_image_frame in EE. apply bind_ok in EE. destruct EE as ([[[b2 e2] u2] c2] & _ & EE). inversion EE; subst. cbn in IH.
  constructor; [unfold zlen; lia|exact IH].
Qed.

Lemma resdetect_file_ok R E Y filename filetype q m p o w :
  env_ok E -> client_params (e_cfg E) p -> system_ok Y -> relaxed Y -> bad_wants q = false ->
  exists im width height ob e0 w1, resdet_open_image R E Y filename filetype true true w = Ok (im, width, height, ob, e0, w1) /\
  ((im = None /\ e0 <> RDEOK /\ resdetect_file R E Y filename filetype q m p o w = Ok (e0, clear_outs q o, w1) /\ holds w1 w [] []) \/
   (exists i fs er i', im = Some i /\ e0 = RDEOK /\ frames Y i fs er i' /\ (countable fs ->
      exists e o' wd w', by_hand_file E fs er width height q m p o w1 = Ok (e, o', wd) /\
        resdetect_file R E Y filename filetype q m p o w = Ok (e, o', w') /\
        (holds w' w (out_blocks q o') [] \/ (leaky_failure E width height w1 /\ exists b, holds w' w (b :: out_blocks q o') []))))).
Proof.
  intros EO CP S RX BW. assert (CF := eo_config _ EO). destruct (ext_sizes Y S) as (sz & X).
  destruct (open_by_ok sz R E Y filename (ByType filetype) true true w w [] [] CF S RX X (holds_refl w)) as ([[[[[im width] height] ob] e0] w1] & EQ & O).
  cbn [open_by] in EQ. exists im, width, height, ob, e0, w1. split; [exact EQ|]. unfold resdetect_file. rewrite BW, EQ. cbn [bind].
  destruct O as [(-> & i & -> & W & H & K & PM & _ & b & -> & O)|(NE & -> & -> & -> & -> & O)].
  2: { left. split; [reflexivity|]. split; [exact NE|]. destruct (Z.eqb_spec e0 0) as [->|_]; [elim NE; reflexivity|]. cbn [negb]. auto. }
  right. cbn [Z.eqb negb RDEOK]. assert (D := proj1 K). rewrite W, H in D. destruct D as (D1 & D2 & D3). unfold SIZE_MAX in D3.
  destruct (all_frames sz Y RX X (ctx_left Y (im_ctx i)) i K (Nat.le_refl _)) as (fs & er & i' & F & _ & _).
  pose proof (left_bound Y (im_ctx i)) as LB. exists i, fs, er, i'. split; [reflexivity|]. split; [reflexivity|]. split; [exact F|]. intros CT.
  assert (HH : holds w1 w (b :: image_blocks i) (image_files i)) by (rewrite !app_nil_r in O; exact O).
  assert (HC : client_ok E width height p) by (split; [exact EO|]; split; [nia|]; split; [nia|exact CP]).
  destruct (client_sizes _ _ _ _ HC) as (Hw & Hh). unfold by_hand_file.
  destruct (create_ok E m width height p w1 CF Hw Hh (client_valid _ _ _ _ HC)) as (ao & e & wd1 & EC & HCR).
  rewrite EC. cbn [bind].
  (* the end: free the buffer, destroy the analysis, close the image *)
  assert (FIN : forall wz im' (a : option analysis) bs, same_image sz i im' -> holds wz w (b :: match a with Some a => an_blocks a | None => [] end ++ image_blocks i ++ bs) (image_files i) ->
     exists wa wb wc, free_block b wz = Ok wa /\ resdet_destroy_analysis a wa = Ok wb /\ resdet_close_image (Some im') wb = Ok wc /\ holds wc w bs []).
  { intros wz im' a bs (K1 & SB & SF & _) HZ. destruct (holds_free _ _ _ _ _ HZ) as (wa & EA & HA). rewrite EA.
    assert (Q : exists wb, resdet_destroy_analysis a wa = Ok wb /\ holds wb w (image_blocks i ++ bs) (image_files i)).
    { destruct a as [a|]; [apply holds_destroy; exact HA|exists wa; split; [reflexivity|exact HA]]. }
    destruct Q as (wb & EB & HB). rewrite <- SB, <- SF in HB. rewrite <- (app_nil_r (image_files im')) in HB.
    destruct (close_image_ok sz im' wb w _ _ K1 HB) as (wc & ECL & HCL). exists wa, wb, wc. auto. }
  destruct ao as [a|].
  - destruct HCR as (-> & _ & _ & OW). cbn [Z.eqb negb RDEOK].
    assert (R0 : reaches E m width height p [] a) by (econstructor; exact EC).
    pose proof (leaks_frames _ _ _ _ _ F) as FB. rewrite W, H in FB.
    destruct (analyze_frames_ok E m width height p fs HC FB [] a wd1 R0) as (e & a1 & wd2 & EQ1 & O1 & AB & H').
    { apply (proj1 (countable_zlen _)) in CT. change (zlen []) with 0. lia. }
    rewrite EQ1. cbn [bind].
    destruct (file_loop_ok sz E Y er i' RX X fs i F K (Datatypes.S (frames_bound Y (im_ctx i))) (repeat None (Z.to_nat (width * height))) (Some a) wd1 e (Some a1) wd2) as (im' & -> & SI).
    { lia. } { rewrite zlen_repeat, W, H. nia. } { exact EQ1. }
    cbn [bind]. set (e2 := if e =? 0 then er else e).
    assert (O2 : owns wd2 w1 (an_blocks a1)) by (rewrite AB; exact (owns_trans _ _ _ [] _ O1 OW)).
    assert (Q : exists e3 o' wd3, (if e2 =? 0 then resdet_analysis_results E (Some a1) q o wd2 else Ok (e2, clear_outs q o, wd2)) = Ok (e3, o', wd3) /\
       owns wd3 wd2 (out_blocks q o')).
    { destruct (Z.eqb_spec e2 0) as [Z2|NZ2].
      - assert (Z0 : e = RDEOK).
        { unfold e2 in Z2. destruct (Z.eqb_spec e 0); [assumption|]. contradiction. }
        destruct H' as [(_ & R1 & V)|[(Y1 & _)|(Y1 & _)]]; [|subst; discriminate|subst; discriminate].
        cbn [app] in R1.
        destruct (history_results E m width height p fs a1 q o wd2 HC R1 (proj1 (countable_zlen _) CT)) as (e3 & o' & wd3 & EQ3 & HR).
        exists e3, o', wd3. split; [exact EQ3|].
        destruct HR as [(-> & _ & -> & ->)|[(-> & _ & _ & -> & ->)|[(-> & _ & _ & -> & O' & _)|(-> & _ & _ & bs' & FL & O')]]].
        + rewrite clear_blocks. apply owns_refl.
        + rewrite clear_blocks. apply owns_refl.
        + rewrite clear_blocks. exact O'.
        + rewrite (filled_blocks _ _ _ _ _ _ FL). exact O'.
      - eexists _, _, _. split; [reflexivity|]. rewrite clear_blocks. apply owns_refl. }
    destruct Q as (e3 & o' & wd3 & EQ3 & OB).
    assert (EQ3' : (if e2 =? 0 then resdet_analysis_results E (Some a1) q (clear_outs q o) wd2 else Ok (e2, clear_outs q o, wd2)) = Ok (e3, o', wd3)).
    { rewrite results_clear. exact EQ3. }
    rewrite EQ3, EQ3'. cbn [bind].
    assert (O3 : owns wd3 w1 (an_blocks a1 ++ out_blocks q o')).
    { eapply owns_perm; [eapply owns_trans; [exact OB|exact O2]|]. apply Permutation_app_comm. }
    destruct (destroy_ok _ _ _ _ O3) as (wd4 & EQ4 & O4 & _). rewrite EQ4. cbn [bind].
    destruct (FIN wd3 im' (Some a1) (out_blocks q o') SI) as (wa & wb & wc & EA & EB & ECC & HF).
    { eapply holds_perm; [exact (holds_owns _ _ _ _ _ _ O3 HH)|].
      rewrite <- app_assoc. eapply Permutation_trans; [apply Permutation_app_head; apply Permutation_app_comm|].
      cbn [app]. apply Permutation_sym. apply Permutation_middle. }
    rewrite EA. cbn [bind]. rewrite EB. cbn [bind]. rewrite ECC. cbn [bind].
    eexists _, _, _, _. split; [reflexivity|]. split; [reflexivity|]. left. exact HF.
  - destruct HCR as (CE & leak & OL & HL).
    assert (NZ : (e =? 0) = false). { apply Z.eqb_neq. intros ->. destruct CE as [(Q & _)|[(Q & _)|[(Q & _)|(Q & _)]]]; discriminate Q. }
    rewrite NZ. cbn [negb bind].
    destruct (FIN wd1 i None leak (same_image_refl sz i K)) as (wa & wb & wc & EA & EB & ECC & HF).
    { cbn [app]. eapply holds_perm; [exact (holds_owns _ _ _ _ _ _ OL HH)|].
      eapply Permutation_trans; [apply Permutation_app_comm|]. reflexivity. }
    rewrite EA. cbn [bind]. rewrite EB. cbn [bind]. rewrite ECC. cbn [bind].
    eexists _, _, _, _. split; [reflexivity|]. split; [reflexivity|]. rewrite clear_blocks.
    destruct HL as [->|((lb & ->) & L)]; [left; exact HF|right]. split; [apply leaks_leaky, L|]. exists lb. exact HF.
Qed.
