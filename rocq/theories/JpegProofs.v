(** The libjpeg reader. *)
From Coq Require Import Permutation.
From Verif Require Import Base BaseProofs Flt Spec Util UtilProofs Methods Analysis WorldProofs Stdio StdioProofs Pgm Pfm Y4m Image
  ImageHistory ImageSafe FrameProofs SpecImage SpecFormats SpecCli PgmFilm FormatProofs Library SpecLibrary LibraryProofs PngProofs.
Open Scope list_scope.
Open Scope Z_scope.

(** ** Lines *)
Definition lines_good (L : jpeg_lib) (d : list Z) (width height : Z) : Prop :=
  1 <= width <= 65535 /\ 1 <= height <= 65535 /\
  forall k, zlen (lines_before L d k) < height -> exists rows, jl_lines L d k = Lines rows /\
    1 <= zlen rows <= height - zlen (lines_before L d k) /\
    Forall (fun r => zlen r = width /\ Forall (fun c => 0 <= c < 256) r) rows.
Definition line_good (width : Z) (r : list Z) : Prop := zlen r = width /\ Forall (fun c => 0 <= c < 256) r.
Lemma lines_concat width rows : Forall (line_good width) rows -> zlen (concat rows) = zlen rows * width /\ Forall (fun c => 0 <= c < 256) (concat rows).
Proof.
  induction 1 as [|r rows (R1 & R2) _ (I1 & I2)]; [split; [reflexivity|constructor]|]. cbn [concat]. rewrite zlen_app, zlen_cons.
  split; [lia|]. apply Forall_app. auto.
Qed.
Lemma jpeg_scan_ok L c : lines_good L (jp_data c) (jp_width c) (jp_height c) ->
  forall fuel k r, let before := lines_before L (jp_data c) k in
  (Z.to_nat (jp_height c - zlen before) < fuel)%nat -> zlen before <= jp_height c -> Forall (line_good (jp_width c)) before ->
  zlen r = (jp_height c - zlen before) * jp_width c ->
  exists k', let rows := lines_before L (jp_data c) k' in
    jpeg_scan fuel L c k (zlen before) (map Some (concat before) ++ r) = Ok (true, map Some (concat rows)) /\
    zlen rows = jp_height c /\ Forall (line_good (jp_width c)) rows.
Proof.
  intros (W & H & G). induction fuel as [|fuel IH]; intros k r before F Z B R; [lia|].
  cbn [jpeg_scan]. destruct (zlen before >=? jp_height c) eqn:D.
  - exists k. cbn. assert (r = []) as ->; [|rewrite app_nil_r].
    { destruct r as [|x r]; [reflexivity|]. rewrite zlen_cons in R. pose proof (zlen_nonneg r). replace (jp_height c - zlen before) with 0 in R by lia. lia. }
    split; [reflexivity|]. split; [fold before; lia|exact B].
  - destruct (G k) as (rows & Q & Z1 & B1); [fold before; lia|]. fold before in Z1. rewrite Q.
    destruct (lines_concat _ _ B) as (C1 & _). destruct (lines_concat _ _ B1) as (C2 & _).
    rewrite <- C1, store_bytes_app by (rewrite C2, R; apply Z.mul_le_mono_nonneg_r; lia). cbn [bind].
    rewrite <- concat_app. replace (zlen before + zlen rows) with (zlen (lines_before L (jp_data c) (S k))) by (cbn [lines_before]; rewrite Q, zlen_app; reflexivity).
    assert (LB : before ++ rows = lines_before L (jp_data c) (S k)) by (cbn [lines_before]; rewrite Q; reflexivity).
    rewrite LB.
    destruct (IH (S k) (skipn (length (concat rows)) r)) as (k' & Q' & Q2 & Q3).
    + rewrite <- LB, zlen_app. lia.
    + rewrite <- LB, zlen_app. lia.
    + rewrite <- LB. apply Forall_app. auto.
    + rewrite <- LB, zlen_app. unfold zlen at 1. rewrite skipn_length. unfold zlen in *. rewrite Nat2Z.inj_sub; nia.
    + exists k'. auto.
Qed.

(** ** The reader *)
Definition jpeg_inv (L : jpeg_lib) (width height : Z) (N : nat) (c : jpeg_context) (w0 w : world) : Prop :=
  width = jp_width c /\ height = jp_height c /\ lines_good L (jp_data c) width height /\ N = (if jp_eof c then 0 else 1)%nat /\
  holds w w0 [jp_cinfo c; jp_blk c] (opt_list (jp_file c)).
Lemma jpeg_close_ok c w w0 : holds w w0 [jp_cinfo c; jp_blk c] (opt_list (jp_file c)) -> exists w', jpeg_close c w = Ok w' /\ holds w' w0 [] [].
Proof.
  intros H. unfold jpeg_close. destruct (holds_free _ _ _ _ _ H) as (w1 & -> & H1). cbn [bind]. rewrite <- (app_nil_r (opt_list (jp_file c))) in H1.
  destruct (holds_close_stream _ _ _ _ _ H1) as (w2 & -> & H2). cbn [bind]. apply holds_free. exact H2.
Qed.
Lemma jpeg_open_ok L E Y filename w0 : surroundings_ok E Y -> jpeg_ok L -> jpeg_quiet L Y filename ->
  exists c width height e w1, jpeg_open L E Y filename w0 = Ok (c, width, height, e, w1) /\ known_code e /\
  match c with
  | None => (e <> RDEOK \/ (width = 0 /\ height = 0)) /\ holds w1 w0 [] []
  | Some c => e = RDEOK /\ is_size width /\ is_size height /\ exists N, jpeg_inv L width height N c w0 w1
  end.
Proof.
  intros SU JK JQ. unfold jpeg_open.
  pose proof (holds_alloc (e_alloc E) w0 w0 [] [] (holds_refl w0)) as H1. destruct (alloc (e_alloc E) w0) as [[blk|] w1].
  2: { eexists _, _, _, _, _. split; [reflexivity|]. split; [apply known_rde; unfold RDENOMEM; lia|]. split; [left; discriminate|apply H1]. }
  pose proof (open_stream_gives E Y filename w1 w0 [blk] SU H1) as H2. destruct (open_stream Y filename w1) as [[(f & s)|errno] w2].
  2: { destruct H2 as (P & H2). destruct (holds_free _ _ _ _ _ H2) as (w3 & -> & H3). cbn [bind].
       eexists _, _, _, _, _. split; [reflexivity|]. split; [unfold known_code, RDENOIMG; lia|]. split; [left; unfold RDEOK; lia|exact H3]. }
  destruct H2 as (G & H2). apply holds_object in H2. destruct (library_object w2) as [cinfo w3]. cbn [fst snd] in H2.
  destruct (jl_header L (s_rest s)) as [(width & height)|] eqn:J.
  2: { destruct (jpeg_close_ok (mkJpeg blk f false cinfo true [] 0 0) w3 w0 H2) as (w4 & -> & H4). cbn [bind].
       eexists _, _, _, _, _. split; [reflexivity|]. split; [apply known_rde; unfold RDEINVAL; lia|]. split; [left; discriminate|exact H4]. }
  destruct (JK _ _ _ J) as (W & H & LN).
  eexists _, _, _, _, _. split; [reflexivity|]. split; [apply known_ok|]. split; [reflexivity|]. split; [unfold is_size, SIZE_MAX; lia|]. split; [unfold is_size, SIZE_MAX; lia|].
  eexists. split; [reflexivity|]. split; [reflexivity|]. split; [|split; [reflexivity|exact H2]].
  split; [exact W|]. split; [exact H|]. intros k K. cbn [jp_data] in *. destruct (jl_lines L (s_rest s) k) as [rows|] eqn:Q; [|destruct (JQ s width height k G J K Q)].
  exists rows. split; [reflexivity|]. apply LN; assumption.
Qed.
Definition jpeg_frame (rows : list (list Z)) : list f32 := map byte_float (concat rows).
Lemma jpeg_read_full L E c w buf : sane (jp_width c) (jp_height c) -> lines_good L (jp_data c) (jp_width c) (jp_height c) ->
  jp_width c * jp_height c <= zlen buf -> jp_eof c = false ->
  let c' := mkJpeg (jp_blk c) (jp_file c) true (jp_cinfo c) (jp_err c) (jp_data c) (jp_width c) (jp_height c) in
  (e_alloc E (w_count w) = false /\ jpeg_read L E c buf (jp_width c) (jp_height c) w = Ok (false, RDENOMEM, buf, c', snd (alloc (e_alloc E) w))) \/
  (exists k w', let rows := lines_before L (jp_data c) k in zlen rows = jp_height c /\ Forall (line_good (jp_width c)) rows /\
     w_live w' = w_live w /\ w_files w' = w_files w /\
     jpeg_read L E c buf (jp_width c) (jp_height c) w =
       Ok (true, RDEOK, map Some (jpeg_frame rows) ++ skipn (Z.to_nat (jp_width c * jp_height c)) buf, c', w')).
Proof.
  intros SN G B EF c'. unfold jpeg_read. rewrite EF. fold c'. unfold alloc.
  destruct (e_alloc E (w_count w)) eqn:A; [right|left; auto].
  destruct SN as (S1 & S2 & S3). unfold SIZE_MAX in S3. assert (Q32 : 0 <= jp_width c * jp_height c < 2^64) by nia.
  rewrite !wrap_small by exact Q32.
  destruct (jpeg_scan_ok L c' G (S (Z.to_nat (jp_height c))) 0%nat (repeat None (Z.to_nat (jp_width c * jp_height c)))) as (k & Q & ZR & GR).
  - cbn. lia.
  - cbn. lia.
  - constructor.
  - rewrite zlen_repeat. cbn. lia.
  - cbn [lines_before concat map app] in Q. change (zlen (@nil (list Z))) with 0 in Q. change (jp_height c') with (jp_height c) in *. change (jp_data c') with (jp_data c) in *. change (jp_width c') with (jp_width c) in *. rewrite Q. cbn [bind].
    set (rows := lines_before L (jp_data c) k) in *. destruct (lines_concat _ _ GR) as (ZC & BC). rewrite ZR in ZC.
    assert (SL : for_range 0 (jp_width c * jp_height c) (fun i image => v <- byte_value (map Some (concat rows)) i ;; set image i (Some v)) buf =
              Ok (map Some (map (fun i => byte_float (at_ 0 (concat rows) i)) (zrange 0 (jp_width c * jp_height c))) ++ skipn (Z.to_nat (jp_width c * jp_height c)) buf)).
    { apply store_loop; [lia|]. intros i im I _. rewrite byte_value_at by lia. reflexivity. }
    assert (FE : map (fun i => byte_float (at_ 0 (concat rows) i)) (zrange 0 (jp_width c * jp_height c)) = jpeg_frame rows).
    { unfold jpeg_frame. apply (list_ext_at f0).
      - rewrite !zlen_map, zlen_zrange by lia. lia.
      - intros i I. rewrite zlen_map, zlen_zrange in I by lia.
        rewrite (at_map 0 f0) by (rewrite zlen_zrange; lia). rewrite (at_map 0 f0) by lia. rewrite at_zrange by lia. f_equal; f_equal; lia. }
    rewrite SL, FE. cbn [bind]. unfold free_block. cbn [w_live remove1]. rewrite Nat.eqb_refl. cbn [bind].
    eexists k, _. cbn zeta. fold rows. split; [exact ZR|]. split; [exact GR|]. split; [|split; [|reflexivity]]; reflexivity.
Qed.

Lemma jpeg_read_ok L E width height N c w0 w buf : sane width height -> jpeg_inv L width height N c w0 w -> width * height <= zlen buf ->
  exists b e buf' c' w' N', jpeg_read L E c buf width height w = Ok (b, e, buf', c', w') /\
    served width height (IRead (Some buf)) (IFrame b e (Some buf')) /\ jpeg_inv L width height N' c' w0 w' /\
    ((if b : bool then 1 else 0) + N' <= N)%nat.
Proof.
  intros SN (-> & -> & G & -> & H) B. destruct (jp_eof c) eqn:EF.
  { unfold jpeg_read. rewrite EF. eexists _, _, _, _, _, 0%nat. split; [reflexivity|]. split; [cbn; split; [apply known_ok|]; split; [reflexivity|discriminate]|].
    split; [|lia]. split; [reflexivity|]. split; [reflexivity|]. rewrite EF. auto. }
  destruct (jpeg_read_full L E c w buf SN G B EF) as [(A & Q)|(k & w' & ZR & GR & LV & FL & Q)]; rewrite Q.
  - eexists _, _, _, _, _, 0%nat. split; [reflexivity|]. split; [cbn; split; [apply known_rde; unfold RDENOMEM; lia|]; split; [reflexivity|discriminate]|].
    split; [|lia]. split; [reflexivity|]. split; [reflexivity|]. split; [exact G|]. split; [reflexivity|].
    unfold alloc. rewrite A. exact H.
  - eexists _, _, _, _, _, 0%nat. split; [reflexivity|]. destruct (lines_concat _ _ GR) as (ZC & _). rewrite ZR in ZC.
    assert (ZF : zlen (jpeg_frame (lines_before L (jp_data c) k)) = jp_width c * jp_height c) by (unfold jpeg_frame; rewrite zlen_map, ZC; lia).
    split; [cbn; split; [apply known_ok|]; split|].
    + rewrite app_length, map_length, skipn_length. unfold zlen in ZF, B. lia.
    + intros _. split; [reflexivity|]. eexists. split; [exact ZF|reflexivity].
    + split; [|lia]. split; [reflexivity|]. split; [reflexivity|]. split; [exact G|]. split; [reflexivity|].
      destruct H as (H1 & H2). unfold holds. rewrite LV, FL. auto.
Qed.
Lemma jpeg_seek_ok L width height N c w0 w k : jpeg_inv L width height N c w0 w -> 0 <= k ->
  exists b e calls c' w' N', jpeg_seek c k w = Ok (b, e, calls, c', w') /\
    served width height (ISeek k) (ISought b e calls) /\ jpeg_inv L width height N' c' w0 w' /\ (N' <= N)%nat.
Proof.
  intros (-> & -> & G & -> & H) K. unfold jpeg_seek. pose proof (one_frame_served (jp_width c) (jp_height c) k (jp_eof c) K) as S.
  destruct (negb (k =? 0) && negb (jp_eof c)).
  - eexists _, _, _, _, _, 0%nat. split; [reflexivity|]. split; [exact S|]. split; [|lia].
    split; [reflexivity|]. split; [reflexivity|]. auto.
  - eexists _, _, _, _, _, _. split; [reflexivity|]. split; [exact S|]. split; [|apply Nat.le_refl].
    split; [reflexivity|]. split; [reflexivity|]. auto.
Qed.
Lemma jpeg_contract L E Y filename : surroundings_ok E Y -> jpeg_ok L -> jpeg_quiet L Y filename -> contract (libjpeg_reader L E Y) E filename.
Proof.
  intros SU JK JQ. apply (contract_ok (libjpeg_reader L E Y) E filename (jpeg_inv L)).
  - apply SU.
  - intros w0. apply jpeg_open_ok; assumption.
  - intros. eapply jpeg_read_ok; eassumption.
  - intros. eapply jpeg_seek_ok; eassumption.
  - intros width height N c w0 w (_ & _ & _ & _ & H). apply jpeg_close_ok. exact H.
Qed.

(** ** The frame of a file *)
Lemma lines_before_prefix L d k k' : (k <= k')%nat -> exists more, lines_before L d k' = lines_before L d k ++ more.
Proof.
  induction 1 as [|k' _ (more & IH)]; [exists []; rewrite app_nil_r; reflexivity|].
  cbn [lines_before]. rewrite IH, <- app_assoc. eexists. reflexivity.
Qed.
Lemma lines_before_same L d k k' : zlen (lines_before L d k) = zlen (lines_before L d k') -> lines_before L d k = lines_before L d k'.
Proof.
  intros Z. destruct (Nat.le_ge_cases k k') as [C|C]; destruct (lines_before_prefix L d _ _ C) as (more & Q); rewrite Q in *; rewrite zlen_app in Z;
    (destruct more as [|x more]; [rewrite app_nil_r; reflexivity|]); rewrite zlen_cons in Z; pose proof (zlen_nonneg more); lia.
Qed.
Lemma quotients_frame : forall cs vs, Forall (fun c => 0 <= c < 256) cs -> Forall2 (fun c v => quotient c 255 v) cs vs -> map byte_float cs = vs.
Proof.
  induction 2 as [|c v cs vs Q _ IH]; [reflexivity|]. inversion H; subst. cbn [map]. f_equal; [|auto].
  apply (quotient_unique c 255); [apply byte_float_quotient; assumption|exact Q].
Qed.
Definition jpeg_film_inv (L : jpeg_lib) (width height : Z) (rows : list (list Z)) (c : jpeg_context) (fs : list (list f32)) (w : world) : Prop :=
  jp_width c = width /\ jp_height c = height /\ lines_good L (jp_data c) width height /\
  fs = (if jp_eof c then [] else [jpeg_frame rows]) /\ exists k, lines_before L (jp_data c) k = rows.
Lemma jpeg_projects L E Y filename width height rows vs : surroundings_ok E Y -> jpeg_ok L -> memory_suffices E ->
  jpeg_file L Y filename width height rows -> jpeg_quiet L Y filename -> Forall2 (fun c v => quotient c 255 v) (concat rows) vs ->
  projects (libjpeg_reader L E Y) E filename width height [vs].
Proof.
  intros SU JK MS ((s0 & G0) & NO & ZR & FILE) JQ PX. destruct (FILE s0 G0) as (J0 & K0 & L0). pose proof (JK _ _ _ J0) as (W & H & _).
  apply (projects_ok (libjpeg_reader L E Y) E filename width height [vs] (jpeg_film_inv L width height rows)).
  - apply SU.
  - lia.
  - intros w0. destruct (jpeg_open_ok L E Y filename w0 SU JK JQ) as (c & width' & height' & e & w1 & O & _ & M).
    cbn [rd_open libjpeg_reader].
    assert (OK : exists blk f cinfo w1' s, jpeg_open L E Y filename w0 = Ok (Some (mkJpeg blk f false cinfo false (s_rest s) width height), width, height, RDEOK, w1') /\ may_give Y filename s).
    { unfold jpeg_open. unfold alloc at 1. rewrite MS.
      destruct (open_stream_never_fails Y filename (mkWorld (S (w_count w0)) (w_count w0 :: w_live w0) (w_nfile w0) (w_files w0)) NO) as (f & s & w2 & -> & G).
      cbn [library_object]. destruct (FILE s G) as (-> & _). eexists _, _, _, _, _. split; [reflexivity|exact G]. }
    destruct OK as (blk & f & cinfo & w1' & s & O' & G). rewrite O' in O. inversion O; subst c width' height' e w1'. clear O.
    destruct M as (_ & _ & _ & N & M). eexists _, w1. split; [exact O'|]. split.
    + split; [reflexivity|]. split; [reflexivity|]. destruct M as (_ & _ & LG & _). split; [exact LG|]. split; [|exact (proj2 (FILE s G))].
      cbn [jp_eof]. f_equal. symmetry. unfold jpeg_frame. apply quotients_frame; [|exact PX].
      destruct LG as (_ & _ & LG). cbn [jp_data] in LG. destruct (proj2 (FILE s G)) as (k & LK).
      assert (GR : forall k, zlen (lines_before L (s_rest s) k) <= height -> Forall (line_good width) (lines_before L (s_rest s) k)).
      { clear -LG. induction k as [|k IH]; intros Z; [constructor|]. cbn [lines_before] in *. rewrite zlen_app in Z. 
        destruct (jl_lines L (s_rest s) k) as [rows|] eqn:Q; [|rewrite app_nil_r in *; apply IH; cbn in Z; lia].
        pose proof (zlen_nonneg rows). apply Forall_app. split; [apply IH; lia|].
        destruct rows as [|r rows]; [constructor|]. rewrite zlen_cons in Z. pose proof (zlen_nonneg rows).
        destruct (LG k) as (rows' & Q' & _ & GR); [lia|]. rewrite Q in Q'. inversion Q'; subst. exact GR. }
      rewrite <- LK. apply (lines_concat width). apply GR. rewrite LK. lia.
    + destruct M as (_ & _ & _ & _ & M). destruct (jpeg_close_ok _ _ _ M) as (w2 & C & _). exists w2. exact C.
  - intros SN c fs w buf (CW & CH & CG & -> & k & CK) B. cbn [rd_read libjpeg_reader]. assert (ZH : zlen rows = jp_height c) by congruence.
    rewrite <- CW, <- CH in SN, CG, B |- *. destruct (jp_eof c) eqn:EF.
    { unfold jpeg_read. rewrite EF. eexists _, _, _, _, _, _. split; [reflexivity|]. split; [reflexivity|]. split; [reflexivity|]. split; [reflexivity|]. rewrite EF. eauto. }
    destruct (jpeg_read_full L E c w buf SN CG B EF) as [(A & Q)|(k' & w' & ZR' & GR & _ & _ & Q)]; [rewrite MS in A; discriminate|]. rewrite Q.
    assert (KE : lines_before L (jp_data c) k' = rows) by (rewrite <- CK; apply lines_before_same; rewrite CK, ZH; exact ZR'). rewrite KE in *.
    eexists _, _, _, _, _, _. split; [reflexivity|]. destruct (lines_concat _ _ GR) as (ZC & _).
    assert (LV : length (jpeg_frame rows) = Z.to_nat (jp_width c * jp_height c)) by (unfold jpeg_frame; rewrite map_length; unfold zlen in *; nia).
    split; [cbn [shown]; rewrite LV; reflexivity|]. split; [reflexivity|]. split; [reflexivity|]. split; [exact CG|]. split; [reflexivity|]. exists k. exact CK.
  - intros SN c fs w k (CW & CH & CG & -> & CR) K. cbn [rd_seek libjpeg_reader]. unfold jpeg_seek.
    rewrite (shown_seek_one (jpeg_frame rows) (jp_eof c) k K).
    destruct (negb (k =? 0) && negb (jp_eof c)) eqn:Q; eexists _, _, _, _, _, _; (split; [reflexivity|]); (split; [reflexivity|]).
    + apply andb_true_iff in Q. destruct Q as (Q1 & Q2). rewrite Q1, orb_true_r. split; [exact CW|]. split; [exact CH|]. auto.
    + split; [exact CW|]. split; [exact CH|]. split; [exact CG|]. split; [|exact CR].
      destruct (jp_eof c); [reflexivity|]. destruct (k =? 0); [reflexivity|discriminate].
Qed.
