(** The FFmpeg reader. *)
From Coq Require Import Permutation.
From Verif Require Import Base BaseProofs Flt Spec Util UtilProofs Methods Analysis WorldProofs Stdio StdioProofs Pgm Pfm Y4m Image
  ImageHistory ImageSafe FrameProofs SpecImage SpecFormats SpecCli Library SpecLibrary LibraryProofs.
Open Scope list_scope.
Open Scope Z_scope.

(** ** What libav's functions keep *)
Definition ff_good (L : ff_lib) (size : fl_state L -> Z * Z) : Prop :=
    (forall n f e, fl_open L n f = inr e -> - INT_MAX <= e < 0) /\
    (forall s, - INT_MAX <= fl_stream_info L s /\ - INT_MAX <= fl_best_stream L s /\ - INT_MAX <= fl_sws_init L s /\
       - INT_MAX <= fl_open2 L s <= 0) /\
    (forall n f s, fl_open L n f = inl s -> is_size (fst (fl_size L s)) /\ is_size (snd (fl_size L s)) /\ size s = fl_size L s) /\
    (forall e, fl_errno L e = true -> e < 0) /\
    (forall s e s', fl_receive L s = (e, s') -> - INT_MAX <= e <= 0 /\ size s' = size s /\
       (fl_left L s' <= fl_left L s)%nat /\ (e = 0 -> (fl_left L s' < fl_left L s)%nat)) /\
    (forall s e i s', fl_packet L s = (e, i, s') -> size s' = size s /\
       (fl_left L s' <= fl_left L s)%nat /\ (e = 0 -> (fl_left L s' < fl_left L s)%nat)) /\
    (forall s b e s', fl_send L s b = (e, s') -> - INT_MAX <= e <= 0 /\ size s' = size s /\
       (fl_left L s' <= fl_left L s)%nat /\ (e = 0 -> b = false -> (fl_left L s' < fl_left L s)%nat)) /\
    (forall s e rows s', fl_scale L s = (e, rows, s') -> - INT_MAX <= e /\ size s' = size s /\
       (fl_left L s' <= fl_left L s)%nat /\
       (0 <= e -> zlen rows = snd (size s) /\ Forall (fun r => fst (size s) <= zlen r) rows)).
Lemma ff_good_ok L : ff_ok L <-> exists size, ff_good L size. Proof. reflexivity. Qed.

Lemma rderror_known L size averr : ff_good L size -> - INT_MAX <= averr -> known_code (rderror_from_averror L averr) /\
  (averr <> 0 -> rderror_from_averror L averr <> RDEOK).
Proof.
  intros (_ & _ & _ & GE & _) B. unfold rderror_from_averror, AVUNERROR. destruct (Z.eqb_spec averr 0) as [->|D]; [split; [apply known_ok|contradiction]|].
  destruct (fl_errno L averr) eqn:Q.
  - specialize (GE _ Q). unfold known_code, INT_MAX, RDENOIMG, RDEOK in *. lia.
  - split; [apply known_rde; unfold RDEINVAL; lia|]. discriminate.
Qed.
Lemma ff_next_packet_ok L size index : ff_good L size -> forall fuel s, (fl_left L s < fuel)%nat ->
  exists averr s', ff_next_packet fuel L index s = Ok (averr, s') /\ size s' = size s /\ (fl_left L s' <= fl_left L s)%nat /\
    (averr = 0 -> (fl_left L s' < fl_left L s)%nat).
Proof.
  intros G. induction fuel as [|fuel IH]; intros s F; [lia|]. cbn [ff_next_packet]. destruct (fl_packet L s) as [[averr i] s1] eqn:P.
  destruct G as (_ & _ & _ & _ & _ & GP & _). destruct (GP _ _ _ _ P) as (P1 & P2 & P3).
  destruct (Z.eqb_spec averr 0) as [->|D]; cbn [andb].
  - destruct (i =? index); cbn [negb].
    + exists 0, s1. auto.
    + specialize (P3 eq_refl). destruct (IH s1) as (averr & s' & -> & Q1 & Q2 & Q3); [lia|]. exists averr, s'. split; [reflexivity|].
      split; [congruence|]. split; [lia|]. intros. lia.
  - exists averr, s1. split; [reflexivity|]. auto.
Qed.
Lemma ff_next_frame_ok L size index : ff_good L size -> forall fuel s, (fl_left L s < fuel)%nat ->
  exists averr s', ff_next_frame fuel L index s = Ok (averr, s') /\ - INT_MAX <= averr <= 0 /\ size s' = size s /\ (fl_left L s' <= fl_left L s)%nat /\
    (averr = 0 -> (fl_left L s' < fl_left L s)%nat).
Proof.
  intros G. induction fuel as [|fuel IH]; intros s F; [lia|]. cbn [ff_next_frame]. destruct (fl_receive L s) as [averr s1] eqn:P.
  pose proof G as (_ & _ & _ & _ & GR & _ & GS & _). destruct (GR _ _ _ P) as (R1 & R2 & R3 & R4).
  destruct (averr =? AVERROR_EAGAIN); cbn [negb]; [|exists averr, s1; auto].
  destruct (ff_next_packet_ok L size index G (S (fl_left L s1)) s1) as (e & s2 & -> & Q1 & Q2 & Q3); [lia|]. cbn [bind].
  destruct (fl_send L s2 (e =? 0)) as [e' s3] eqn:SE. destruct (GS _ _ _ _ SE) as (S1 & S2 & S3 & S4).
  destruct (Z.eqb_spec e' 0) as [->|D]; cbn [negb].
  - assert (LT : (fl_left L s3 < fl_left L s)%nat).
    { destruct (Z.eqb_spec e 0) as [->|D]; [specialize (Q3 eq_refl); lia|specialize (S4 eq_refl eq_refl); lia]. }
    destruct (IH s3) as (a & s' & -> & A1 & A2 & A3 & A4); [lia|]. exists a, s'. split; [reflexivity|]. split; [exact A1|].
    split; [congruence|]. split; [lia|]. intros. lia.
  - exists e', s3. split; [reflexivity|]. split; [exact S1|]. split; [congruence|]. split; [lia|]. intros. contradiction.
Qed.
Lemma ff_read_frame_ok L size c : ff_good L size ->
  exists averr s', ff_read_frame L c = Ok (averr, ff_with c s') /\ - INT_MAX <= averr <= 0 /\ size s' = size (ff_state c) /\
    (fl_left L s' <= fl_left L (ff_state c))%nat /\ (averr = 0 -> (fl_left L s' < fl_left L (ff_state c))%nat).
Proof.
  intros G. unfold ff_read_frame. destruct (ff_next_frame_ok L size (ff_index c) G (S (fl_left L (ff_state c))) (ff_state c)) as (a & s' & -> & Q); [lia|].
  cbn [bind]. exists a, s'. auto.
Qed.

(** ** Copying rows *)
Lemma zlen_rows width : 0 <= width -> forall rows : list (list f32), Forall (fun r => width <= zlen r) rows ->
  zlen (concat (map (firstn (Z.to_nat width)) rows)) = zlen rows * width.
Proof.
  intros W. induction 1 as [|r rows R _ IH]; [reflexivity|]. cbn [map concat]. rewrite zlen_app, zlen_cons, IH.
  unfold zlen in *. rewrite firstn_length. lia.
Qed.
Lemma copy_rows (rows : list (list f32)) width height buf : sane width height -> zlen rows = height -> Forall (fun r => width <= zlen r) rows ->
  width * height <= zlen buf ->
  for_range 0 height (fun y image => row <- get rows y ;;
    if zlen row <? width then Undef OutOfBounds else store image (wrap (y * width)) (firstn (Z.to_nat width) row)) buf =
  Ok (splice buf 0 (concat (map (firstn (Z.to_nat width)) rows))).
Proof.
  intros (S1 & S2 & S3) ZR FR B. unfold SIZE_MAX in S3.
  destruct (for_range_inv (fun y image => image = splice buf 0 (concat (map (firstn (Z.to_nat width)) (firstn (Z.to_nat y) rows))))
    (fun y image => row <- get rows y ;;
    if zlen row <? width then Undef OutOfBounds else store image (wrap (y * width)) (firstn (Z.to_nat width) row)) 0 height buf) as (s & E & Q).
  - lia.
  - reflexivity.
  - intros y image Y ->. rewrite (get_at []) by lia. cbn [bind].
    set (row := at_ [] rows y). assert (WR : width <= zlen row).
    { rewrite Forall_forall in FR. apply FR. unfold row, at_. apply nth_In. unfold zlen in ZR. lia. }
    destruct (Z.ltb_spec (zlen row) width); [lia|].
    set (l := concat (map (firstn (Z.to_nat width)) (firstn (Z.to_nat y) rows))).
    assert (ZL : zlen l = y * width).
    { unfold l. rewrite zlen_rows; [|lia|].
      - f_equal. unfold zlen in *. rewrite firstn_length. lia.
      - rewrite <- (firstn_skipn (Z.to_nat y) rows) in FR. apply Forall_app in FR. apply FR. }
    assert (ZN : zlen (firstn (Z.to_nat width) row) = width) by (unfold zlen in *; rewrite firstn_length; lia).
    assert (YB : y * width + width <= width * height) by nia.
    rewrite wrap_small by nia. rewrite store_splice by (rewrite ?splice_zlen; lia). eexists. split; [reflexivity|].
    rewrite <- ZL. change (zlen l) with (0 + zlen l) at 1. rewrite splice_splice by lia. f_equal.
    replace (Z.to_nat (y + 1)) with (S (Z.to_nat y)) by lia.
    assert (FS : firstn (S (Z.to_nat y)) rows = firstn (Z.to_nat y) rows ++ [row]).
    { unfold row, at_. assert (LT : (Z.to_nat y < length rows)%nat) by (unfold zlen in ZR; lia). clear -LT. revert LT. generalize (Z.to_nat y) as n.
      induction rows as [|r rows IH]; intros [|n] LT; cbn in LT; [lia|lia|reflexivity|]. cbn [firstn nth app]. f_equal. apply IH. lia. }
    rewrite FS, map_app, concat_app. cbn [map concat]. rewrite app_nil_r. reflexivity.
  - rewrite E. f_equal. rewrite Q. do 3 f_equal. apply firstn_all2. unfold zlen in ZR. lia.
Qed.

(** ** The reader *)
Lemma ff_close_ok L (c : ff_context L) w w0 :
  holds w w0 (opt_list (ff_codec c) ++ opt_list (ff_frame c) ++ opt_list (ff_swsframe c) ++ opt_list (ff_packet c) ++ opt_list (ff_sws c) ++ opt_list (ff_fmt c) ++ [ff_blk c]) [] ->
  exists w', ff_close c w = Ok w' /\ holds w' w0 [] [].
Proof.
  intros H. unfold ff_close.
  destruct (holds_free_opt _ _ _ _ _ H) as (w1 & -> & H1). cbn [bind].
  destruct (holds_free_opt _ _ _ _ _ H1) as (w2 & -> & H2). cbn [bind].
  destruct (holds_free_opt _ _ _ _ _ H2) as (w3 & -> & H3). cbn [bind].
  destruct (holds_free_opt _ _ _ _ _ H3) as (w4 & -> & H4). cbn [bind].
  destruct (holds_free_opt _ _ _ _ _ H4) as (w5 & -> & H5). cbn [bind].
  destruct (holds_free_opt _ _ _ _ _ H5) as (w6 & -> & H6). cbn [bind].
  apply holds_free. exact H6.
Qed.
Definition ff_blocks {L} (c : ff_context L) : list nat :=
  opt_list (ff_codec c) ++ opt_list (ff_frame c) ++ opt_list (ff_swsframe c) ++ opt_list (ff_packet c) ++ opt_list (ff_sws c) ++ opt_list (ff_fmt c) ++ [ff_blk c].
Definition ff_inv (L : ff_lib) (size : fl_state L -> Z * Z) (width height : Z) (N : nat) (c : ff_context L) (w0 w : world) : Prop :=
  size (ff_state c) = (width, height) /\ N = fl_left L (ff_state c) /\ holds w w0 (ff_blocks c) [].
Ltac perm := unfold ff_blocks; apply (Permutation_count_occ Nat.eq_dec); intros ?x;
  cbn [opt_list app ff_codec ff_frame ff_swsframe ff_packet ff_sws ff_fmt ff_blk count_occ]; repeat destruct Nat.eq_dec; lia.
Lemma ff_open_ok L size E filename w0 : ff_good L size ->
  exists c width height e w1, ff_open L E filename w0 = Ok (c, width, height, e, w1) /\ known_code e /\
  match c with
  | None => (e <> RDEOK \/ (width = 0 /\ height = 0)) /\ holds w1 w0 [] []
  | Some c => e = RDEOK /\ is_size width /\ is_size height /\ exists N, ff_inv L size width height N c w0 w1
  end.
Proof.
  intros G. unfold ff_open.
  pose proof (holds_alloc (e_alloc E) w0 w0 [] [] (holds_refl w0)) as H1. destruct (alloc (e_alloc E) w0) as [[blk|] w1].
  2: { eexists _, _, _, _, _. split; [reflexivity|]. split; [apply known_rde; unfold RDENOMEM; lia|]. split; [left; discriminate|apply H1]. }
  cbv zeta.
  set (fail := fun (c : ff_context L) (averr e : Z) (w : world) => w <- ff_close c w ;;
    Ok (@None (ff_context L), 0, 0, if negb (averr =? 0) then rderror_from_averror L averr else e, w)).
  assert (FAIL : forall c averr e w, holds w w0 (ff_blocks c) [] -> - INT_MAX <= averr -> 0 <= e <= 7 -> (averr <> 0 \/ e <> RDEOK) ->
    exists c' width height e' w1, fail c averr e w = Ok (c', width, height, e', w1) /\ known_code e' /\
    match c' with
    | None => (e' <> RDEOK \/ (width = 0 /\ height = 0)) /\ holds w1 w0 [] []
    | Some c => e' = RDEOK /\ is_size width /\ is_size height /\ exists N, ff_inv L size width height N c w0 w1
    end).
  { intros c averr e w H A EB NZ. unfold fail. destruct (ff_close_ok L c w w0 H) as (w2 & -> & H2). cbn [bind].
    destruct (rderror_known L size averr G A) as (R1 & R2).
    eexists _, _, _, _, _. split; [reflexivity|]. destruct (Z.eqb_spec averr 0) as [->|D]; cbn [negb].
    - split; [apply known_rde; exact EB|]. split; [right; auto|exact H2].
    - split; [exact R1|]. split; [left; auto|exact H2]. }
  unfold fail in FAIL. clear fail. pose proof G as (GO & GB & GZ & _).
  set (name := if String.eqb filename "-" then "pipe:"%string else filename). clearbody name.
  destruct (fl_open L (w_count w1) name) as [s|averr] eqn:O.
  2: { specialize (GO _ _ _ O). apply FAIL; [exact H1|lia|unfold RDEOK; lia|left; lia]. }
  specialize (GB s). destruct GB as (B1 & B2 & B3 & B4). specialize (GZ _ _ _ O). destruct GZ as (Z1 & Z2 & Z3).
  apply holds_object in H1. destruct (library_object w1) as [fmt w2]. cbn [fst snd] in H1.
  destruct (Z.ltb_spec (fl_stream_info L s) 0); [apply FAIL; [exact H1|lia|unfold RDEOK; lia|left; lia]|].
  destruct (Z.ltb_spec (fl_best_stream L s) 0); [apply FAIL; [exact H1|lia|unfold RDEOK; lia|left; lia]|].
  pose proof (holds_alloc (e_alloc E) w2 w0 _ _ H1) as H2. destruct (alloc (e_alloc E) w2) as [[codec|] w3].
  2: { apply FAIL; [apply H2|lia|unfold RDENOMEM; lia|right; discriminate]. }
  destruct (fl_parameters L s <? 0); cbn [Z.eqb negb]; [apply (FAIL _ 1 RDEOK); [exact H2|unfold INT_MAX; lia|unfold RDEOK; lia|left; lia]|].
  destruct (Z.eqb (fl_open2 L s) 0) eqn:O2; cbn [negb].
  2: { pose proof (fun c => FAIL c (fl_open2 L s) RDEOK w3) as F. rewrite O2 in F. apply F; [exact H2|lia|unfold RDEOK; lia|left; lia]. }
  pose proof (holds_alloc (e_alloc E) w3 w0 _ _ H2) as H3. destruct (alloc (e_alloc E) w3) as [[sws|] w4].
  2: { apply (FAIL _ 0 RDENOMEM); [eapply holds_perm; [exact (proj1 H3)|perm]|unfold INT_MAX; lia|unfold RDENOMEM; lia|right; discriminate]. }
  pose proof (holds_alloc (e_alloc E) w4 w0 _ _ H3) as H4. destruct (alloc (e_alloc E) w4) as [[frame|] w5].
  2: { apply (FAIL _ 0 RDENOMEM); [|unfold INT_MAX; lia|unfold RDENOMEM; lia|right; discriminate]. eapply holds_perm; [exact (proj1 H4)|perm]. }
  pose proof (holds_alloc (e_alloc E) w5 w0 _ _ H4) as H5. destruct (alloc (e_alloc E) w5) as [[swsframe|] w6].
  2: { apply (FAIL _ 0 RDENOMEM); [|unfold INT_MAX; lia|unfold RDENOMEM; lia|right; discriminate]. eapply holds_perm; [exact (proj1 H5)|perm]. }
  pose proof (holds_alloc (e_alloc E) w6 w0 _ _ H5) as H6. destruct (alloc (e_alloc E) w6) as [[packet|] w7].
  2: { apply (FAIL _ 0 RDENOMEM); [|unfold INT_MAX; lia|unfold RDENOMEM; lia|right; discriminate]. eapply holds_perm; [exact (proj1 H6)|perm]. }
  assert (H7 : holds w7 w0 (ff_blocks (mkFf blk (Some fmt) (Some codec) (Some sws) (Some swsframe) (Some frame) (Some packet) (fl_best_stream L s) s)) []).
  { eapply holds_perm; [exact H6|perm]. }
  destruct (Z.ltb_spec (fl_sws_init L s) 0); [apply FAIL; [exact H7|lia|unfold RDEOK; lia|left; lia]|].
  destruct (fl_size L s) as (width & height).
  eexists _, _, _, _, _. split; [reflexivity|]. split; [apply known_ok|]. split; [reflexivity|]. split; [exact Z1|]. split; [exact Z2|].
  eexists. split; [exact Z3|]. split; [reflexivity|exact H7].
Qed.

Lemma ff_failed_known L size averr : ff_good L size -> - INT_MAX <= averr -> known_code (if negb (averr =? AVERROR_EOF) then rderror_from_averror L averr else RDEOK).
Proof. intros G A. destruct (averr =? AVERROR_EOF); [apply known_ok|]. apply (rderror_known L size averr G A). Qed.
Lemma ff_read_ok L size width height N c w0 w buf : ff_good L size -> sane width height -> ff_inv L size width height N c w0 w ->
  width * height <= zlen buf ->
  exists b e buf' c' w' N', ff_read L c buf width height w = Ok (b, e, buf', c', w') /\
    served width height (IRead (Some buf)) (IFrame b e (Some buf')) /\ ff_inv L size width height N' c' w0 w' /\
    ((if b : bool then 1 else 0) + N' <= N)%nat.
Proof.
  intros G SN (SZ & -> & H) B. unfold ff_read. destruct (ff_read_frame_ok L size c G) as (averr & s1 & -> & A1 & A2 & A3 & A4). cbn [bind].
  destruct (Z.eqb_spec averr 0) as [->|D]; cbn [negb].
  - specialize (A4 eq_refl). cbn [ff_state ff_with]. destruct (fl_scale L s1) as [[e rows] s2] eqn:SC.
    pose proof G as (_ & _ & _ & _ & _ & _ & _ & GS). destruct (GS _ _ _ _ SC) as (C1 & C2 & C3 & C4).
    assert (I2 : forall c', ff_state c' = s2 -> ff_blocks c' = ff_blocks c -> ff_inv L size width height (fl_left L s2) c' w0 w).
    { intros c' Q1 Q2. unfold ff_inv. rewrite Q1, Q2. split; [congruence|]. auto. }
    destruct (Z.ltb_spec e 0).
    + eexists _, _, _, _, _, _. split; [reflexivity|]. split; [cbn [served]; split; [apply (ff_failed_known L size e G C1)|]; split; [reflexivity|discriminate]|].
      split; [apply I2; reflexivity|]. cbn [ff_state ff_with]. lia.
    + destruct C4 as (C4 & C5); [lia|]. rewrite A2, SZ in C4, C5. cbn [fst snd] in C4, C5.
      rewrite copy_rows by assumption. cbn [bind]. rewrite splice_0.
      assert (ZF : zlen (concat (map (firstn (Z.to_nat width)) rows)) = width * height).
      { destruct SN as (S1 & S2 & _). rewrite zlen_rows by (assumption || lia). rewrite C4. lia. }
      eexists _, _, _, _, _, _. split; [reflexivity|]. split.
      * cbn [served]. split; [apply known_ok|]. split; [rewrite app_length, map_length, skipn_length; unfold zlen in ZF, B; lia|].
        intros _. split; [reflexivity|]. eexists. split; [exact ZF|]. f_equal. f_equal. unfold zlen in ZF. lia.
      * split; [apply I2; reflexivity|]. cbn [ff_state ff_with]. lia.
  - eexists _, _, _, _, _, _. split; [reflexivity|].
    split; [cbn [served]; split; [apply (ff_failed_known L size averr G); lia|]; split; [reflexivity|discriminate]|].
    split; [split; [cbn [ff_state ff_with]; congruence|]; split; [reflexivity|exact H]|]. cbn [ff_state ff_with]. lia.
Qed.
Lemma ff_skip_ok L size : ff_good L size -> forall n i calls c, exists averr m c',
  ff_skip L n i calls c = Ok (averr, calls ++ zrange (i + 1) (i + 1 + Z.of_nat m), c') /\ (m <= n)%nat /\ (averr = 0 -> m = n) /\
  - INT_MAX <= averr <= 0 /\ (fl_left L (ff_state c') <= fl_left L (ff_state c))%nat /\ size (ff_state c') = size (ff_state c) /\ ff_blocks c' = ff_blocks c.
Proof.
  intros G. induction n as [|n IH]; intros i calls c; cbn [ff_skip].
  { exists 0, 0%nat, c. rewrite zrange_empty, app_nil_r by lia. unfold INT_MAX. split; [reflexivity|]. split; [lia|]. split; [reflexivity|]. split; [lia|]. auto. }
  destruct (ff_read_frame_ok L size c G) as (averr & s1 & -> & A1 & A2 & A3 & A4). cbn [bind].
  destruct (Z.eqb_spec averr 0) as [->|D]; cbn [negb].
  - destruct (IH (i + 1) (calls ++ [i + 1]) (ff_with c s1)) as (b & m & c' & -> & B & T & AB & LF & E1 & E2).
    exists b, (S m), c'. split; [|split; [lia|split; [intros X; rewrite (T X); reflexivity|split; [exact AB|split; [|split]]]]].
    + rewrite (zrange_cons (i + 1)) by lia. rewrite <- app_assoc. cbn [app]. do 6 f_equal. lia.
    + cbn [ff_state ff_with] in LF. lia.
    + cbn [ff_state ff_with] in E1. congruence.
    + rewrite E2. reflexivity.
  - exists averr, 0%nat, (ff_with c s1). rewrite zrange_empty, app_nil_r by lia. split; [reflexivity|]. split; [lia|]. split; [contradiction|]. auto.
Qed.
Lemma ff_seek_ok L size width height N c w0 w k : ff_good L size -> ff_inv L size width height N c w0 w -> 0 <= k ->
  exists b e calls c' w' N', ff_seek L c k w = Ok (b, e, calls, c', w') /\
    served width height (ISeek k) (ISought b e calls) /\ ff_inv L size width height N' c' w0 w' /\ (N' <= N)%nat.
Proof.
  intros G (SZ & -> & H) K. unfold ff_seek.
  destruct (ff_skip_ok L size G (Z.to_nat k) 0 [] c) as (averr & m & c' & -> & B & T & AB & LF & E1 & E2). cbn [bind].
  eexists _, _, _, _, _, _. split; [reflexivity|]. split.
  - cbn [served]. split; [|split].
    + destruct (averr =? 0); cbn [negb andb]; [apply known_ok|]. apply (ff_failed_known L size averr G); lia.
    + intros X. rewrite X. reflexivity.
    + exists (Z.of_nat m). split; [lia|]. split; [cbn [app]; f_equal; lia|]. intros X. rewrite T by lia. lia.
  - split; [|exact LF]. split; [congruence|]. split; [reflexivity|]. rewrite E2. exact H.
Qed.
Lemma ff_contract L E filename : config_ok (e_cfg E) = true -> ff_ok L -> contract (ffmpeg_reader L E) E filename.
Proof.
  intros CF (size & G). apply (contract_ok (ffmpeg_reader L E) E filename (ff_inv L size)).
  - exact CF.
  - intros w0. apply ff_open_ok; assumption.
  - intros. eapply ff_read_ok; eassumption.
  - intros. eapply ff_seek_ok; eassumption.
  - intros width height N c w0 w (_ & _ & H). apply ff_close_ok. exact H.
Qed.

(** ** Films *)
Lemma ff_packet_film L size width height read_end dec index : ff_good L size -> decodes L width height read_end dec -> read_end <> 0 ->
  forall fuel s, (fl_left L s < fuel)%nat -> exists averr s', ff_next_packet fuel L index s = Ok (averr, s') /\ (fl_left L s' <= fl_left L s)%nat /\
    (averr = 0 -> (fl_left L s' < fl_left L s)%nat) /\
    dc_ready (dec s') = dc_ready (dec s) /\ dc_held (dec s') = dc_held (dec s) /\ dc_drained (dec s') = dc_drained (dec s) /\
    let stream d := concat (map snd (filter (fun p => fst p =? index) (dc_packets d))) in
    ((averr = 0 /\ stream (dec s) = dc_packet (dec s') ++ stream (dec s')) \/
     (averr <> 0 /\ dc_packets (dec s') = [] /\ stream (dec s) = [])).
Proof.
  intros G D RE. induction fuel as [|fuel IH]; intros s F; [lia|]. cbn [ff_next_packet].
  pose proof G as (_ & _ & _ & _ & _ & GP & _). destruct D as (_ & DP & _). specialize (DP s).
  destruct (dc_packets (dec s)) as [|(i & fs) ps] eqn:P.
  - destruct DP as (i & s1 & Q & DE). rewrite Q. destruct (GP _ _ _ _ Q) as (P1 & P2 & P3).
    destruct (Z.eqb_spec read_end 0) as [->|_]; [contradiction|]. cbn [andb].
    exists read_end, s1. rewrite DE. split; [reflexivity|]. split; [exact P2|]. split; [exact P3|]. split; [reflexivity|]. split; [reflexivity|]. split; [reflexivity|].
    cbv zeta. right. rewrite P. auto.
  - destruct DP as (s1 & Q & DE). rewrite Q. destruct (GP _ _ _ _ Q) as (P1 & P2 & P3). specialize (P3 eq_refl). cbn [Z.eqb andb].
    destruct (i =? index) eqn:I; cbn [negb].
    + exists 0, s1. split; [reflexivity|]. split; [exact P2|]. split; [auto|]. rewrite DE. cbn. split; [reflexivity|]. split; [reflexivity|]. split; [reflexivity|].
      left. split; [reflexivity|]. rewrite I. reflexivity.
    + destruct (IH s1) as (averr & s' & -> & Q2 & Q3 & Q4 & Q5 & Q6 & Q7); [lia|]. rewrite DE in Q4, Q5, Q6, Q7. cbn [dc_packets dc_ready dc_held dc_drained] in *.
      exists averr, s'. split; [reflexivity|]. split; [lia|]. split; [intros; lia|]. split; [exact Q4|]. split; [exact Q5|]. split; [exact Q6|].
      cbv zeta. cbn [filter fst]. rewrite I. exact Q7.
Qed.
Lemma ff_frame_film L size width height read_end dec index : ff_good L size -> decodes L width height read_end dec -> read_end <> 0 ->
  forall fuel s, (fl_left L s < fuel)%nat -> exists averr s', ff_next_frame fuel L index s = Ok (averr, s') /\
    match to_come index (dec s) with
    | [] => averr = AVERROR_EOF /\ to_come index (dec s') = []
    | f :: fs => averr = 0 /\ to_come index (dec s') = fs /\
        exists rows s'', fl_scale L s' = (0, rows, s'') /\ rows_of width height rows f /\ dec s'' = dec s'
    end.
Proof.
  intros G D RE. induction fuel as [|fuel IH]; intros s F; [lia|]. cbn [ff_next_frame].
  pose proof G as (_ & _ & _ & _ & GR & _ & GS & _). pose proof D as (DR & _ & DS & DD). destruct (DR s) as (s1 & DE & DM).
  destruct (dc_ready (dec s)) as [|f fs] eqn:RD.
  - destruct (GR _ _ _ DM) as (R1 & R2 & R3 & R4). rewrite DM.
    destruct (dc_drained (dec s)) eqn:DN.
    + cbn [Z.eqb negb]. change (negb (AVERROR_EOF =? AVERROR_EAGAIN)) with true. cbn iota. exists AVERROR_EOF, s1. split; [reflexivity|].
      unfold to_come. rewrite DE, RD, DN. cbn. auto.
    + change (negb (AVERROR_EAGAIN =? AVERROR_EAGAIN)) with false. cbn iota.
      destruct (ff_packet_film L size width height read_end dec index G D RE (S (fl_left L s1)) s1) as (averr & s2 & -> & Q2 & Q3 & Q4 & Q5 & Q6 & Q7); [lia|].
      cbn [bind]. rewrite DE in Q4, Q5, Q6, Q7. cbn [dc_packets dc_ready dc_held dc_drained tl] in *.
      destruct Q7 as [(-> & Q7)|(NZ & QP & Q7)].
      * destruct (DS s2 Q6) as (s3 & SE & DE3). change (0 =? 0) with true. rewrite SE. cbn [Z.eqb negb]. destruct (GS _ _ _ _ SE) as (_ & _ & S3 & _).
        specialize (Q3 eq_refl). destruct (IH s3) as (a & s' & -> & M); [lia|]. exists a, s'. split; [reflexivity|].
        assert (TC : to_come index (dec s3) = to_come index (dec s)).
        { unfold to_come. rewrite DE3, RD, DN. cbn [dc_ready dc_drained dc_packets dc_held app]. rewrite Q4, Q5, Q7. cbn [app]. rewrite <- app_assoc. reflexivity. }
        rewrite <- TC. exact M.
      * destruct (DD s2 Q6) as (s3 & SE & DE3). destruct (Z.eqb_spec averr 0) as [|_]; [contradiction|]. rewrite SE. cbn [Z.eqb negb]. destruct (GS _ _ _ _ SE) as (_ & _ & S3 & S4).
        specialize (S4 eq_refl eq_refl). destruct (IH s3) as (a & s' & -> & M); [lia|]. exists a, s'. split; [reflexivity|].
        assert (TC : to_come index (dec s3) = to_come index (dec s)).
        { unfold to_come. rewrite DE3, RD, DN. cbn [dc_ready dc_drained dc_packets dc_held app]. rewrite Q4, Q5, Q7. cbn [app]. rewrite app_nil_r. reflexivity. }
        rewrite <- TC. exact M.
  - destruct DM as (DM & rows & s2 & SC & RO & DE2). rewrite DM. change (negb (0 =? AVERROR_EAGAIN)) with true. cbn iota.
    exists 0, s1. split; [reflexivity|]. unfold to_come at 1. rewrite RD. cbn [app]. split; [reflexivity|]. split; [|eauto 6].
    unfold to_come. rewrite DE. reflexivity.
Qed.
Lemma ff_skip_film L size width height read_end dec index : ff_good L size -> decodes L width height read_end dec -> read_end <> 0 ->
  forall n i calls c fs, ff_index c = index -> to_come index (dec (ff_state c)) = fs -> exists averr c',
  ff_skip L n i calls c = Ok (averr, calls ++ zrange (i + 1) (i + 1 + Z.min (Z.of_nat n) (zlen fs)), c') /\
  averr = (if Z.of_nat n <=? zlen fs then 0 else AVERROR_EOF) /\ ff_index c' = index /\ to_come index (dec (ff_state c')) = skipn n fs.
Proof.
  intros G D RE. induction n as [|n IH]; intros i calls c fs CI TC; cbn [ff_skip].
  { exists 0, c. pose proof (zlen_nonneg fs). rewrite zrange_empty, app_nil_r by lia. split; [reflexivity|]. destruct (Z.leb_spec (Z.of_nat 0) (zlen fs)); [auto|lia]. }
  unfold ff_read_frame. rewrite CI.
  destruct (ff_frame_film L size width height read_end dec index G D RE (S (fl_left L (ff_state c))) (ff_state c)) as (averr & s' & -> & M); [lia|].
  cbn [bind]. rewrite TC in M. destruct fs as [|f fs].
  - destruct M as (-> & M). change (negb (AVERROR_EOF =? 0)) with true. cbn iota. change (zlen (@nil (list f32))) with 0.
    exists AVERROR_EOF, (ff_with c s'). rewrite zrange_empty, app_nil_r by lia. destruct (Z.leb_spec (Z.of_nat (S n)) 0); [lia|]. auto.
  - destruct M as (-> & M & _). cbn [Z.eqb negb]. rewrite zlen_cons. pose proof (zlen_nonneg fs).
    destruct (IH (i + 1) (calls ++ [i + 1]) (ff_with c s') fs CI M) as (a & c' & -> & AE & CI' & TC').
    exists a, c'. split; [|split; [|auto]].
    + rewrite (zrange_cons (i + 1)) by lia. rewrite <- app_assoc. cbn [app]. do 6 f_equal. lia.
    + rewrite AE. destruct (Z.leb_spec (Z.of_nat n) (zlen fs)); destruct (Z.leb_spec (Z.of_nat (S n)) (zlen fs + 1)); try lia; reflexivity.
Qed.
Lemma ff_projects L E filename index width height read_end dec fs : config_ok (e_cfg E) = true -> ff_ok L -> memory_suffices E ->
  1 <= width -> 1 <= height -> decodes L width height read_end dec -> read_end <> 0 ->
  ff_opens L filename index (fun s => fl_size L s = (width, height) /\ to_come index (dec s) = fs) ->
  projects (ffmpeg_reader L E) E filename width height fs.
Proof.
  intros CF (size & G) MS W H D RE OP.
  apply (projects_ok (ffmpeg_reader L E) E filename width height fs (fun c fs w => ff_index c = index /\ to_come index (dec (ff_state c)) = fs)).
  - exact CF.
  - lia.
  - intros w0. cbn [rd_open rd_close ffmpeg_reader].
    destruct (ff_open_ok L size E filename w0 G) as (c & width' & height' & e & w1 & O & _ & M).
    assert (OK : exists c w1, ff_open L E filename w0 = Ok (Some c, width, height, RDEOK, w1) /\ ff_index c = index /\ to_come index (dec (ff_state c)) = fs).
    { unfold ff_open. unfold alloc at 1. rewrite MS. cbv zeta. fold (ff_name filename).
      match goal with |- context [fl_open L ?n (ff_name filename)] => destruct (OP n) as (s & -> & O1 & O2 & O3 & O4 & O5 & O6 & O7 & O8) end.
      cbn [library_object]. destruct (Z.ltb_spec (fl_stream_info L s) 0); [lia|]. rewrite O2. destruct (Z.ltb_spec index 0); [lia|].
      unfold alloc. rewrite !MS. destruct (Z.ltb_spec (fl_parameters L s) 0); [lia|]. cbn [Z.eqb negb]. rewrite O5. cbn [Z.eqb negb].
      destruct (Z.ltb_spec (fl_sws_init L s) 0); [lia|]. rewrite O7. eexists _, _. split; [reflexivity|]. auto. }
    destruct OK as (c1 & w1' & O' & CI & TC). rewrite O' in O. inversion O; subst c width' height' e w1'. destruct M as (_ & _ & _ & N & _ & _ & M).
    exists c1, w1. split; [exact O'|]. split; [auto|]. destruct (ff_close_ok _ _ _ _ M) as (w2 & C & _). exists w2. exact C.
  - intros SN c fs0 w buf (CI & TC) B. cbn [rd_read ffmpeg_reader]. unfold ff_read, ff_read_frame. rewrite CI.
    destruct (ff_frame_film L size width height read_end dec index G D RE (S (fl_left L (ff_state c))) (ff_state c)) as (averr & s' & -> & M); [lia|].
    cbn [bind]. rewrite TC in M. destruct fs0 as [|f fs0].
    + destruct M as (-> & M). change (negb (AVERROR_EOF =? 0)) with true. cbn iota. eexists _, _, _, _, _, _. split; [reflexivity|]. split; [reflexivity|]. auto.
    + destruct M as (-> & M & rows & s2 & SC & (R1 & R2 & R3) & DE). cbn [Z.eqb negb]. cbn [ff_state ff_with]. rewrite SC. cbn [Z.ltb].
      rewrite copy_rows by assumption. cbn [bind]. rewrite R3, splice_0. eexists _, _, _, _, _, _. split; [reflexivity|]. split; [reflexivity|].
      cbn [ff_index ff_state ff_with]. rewrite DE. auto.
  - intros SN c fs0 w k (CI & TC) K. cbn [rd_seek ffmpeg_reader]. unfold ff_seek.
    destruct (ff_skip_film L size width height read_end dec index G D RE (Z.to_nat k) 0 [] c fs0 CI TC) as (averr & c' & -> & AE & CI' & TC').
    cbn [bind]. eexists _, _, _, _, _, _. split; [reflexivity|]. rewrite Z2Nat.id in * by exact K. split; [|split; [exact CI'|exact TC']].
    cbn [shown app]. rewrite AE. replace (0 + 1 + Z.min k (zlen fs0)) with (Z.min k (zlen fs0) + 1) by lia. destruct (k <=? zlen fs0); reflexivity.
Qed.

(** ** Errors of opening *)
Lemma ff_open_error L E filename e : ff_ok L -> memory_suffices E -> ff_fails L filename e ->
  forall w0, exists w1, opened_by (ffmpeg_reader L E) E filename w0 = Ok (None, 0, 0, (if fl_errno L e then e else RDEINVAL), w1) /\ holds w1 w0 [] [].
Proof.
  intros (size & G) MS (NEG & FA) w0.
  destruct (ff_open_ok L size E filename w0 G) as (c & width & height & e' & w1 & O & _ & M).
  assert (RE : rderror_from_averror L e = (if fl_errno L e then e else RDEINVAL)).
  { unfold rderror_from_averror, AVUNERROR. destruct (Z.eqb_spec e 0); [lia|]. destruct (fl_errno L e); [lia|reflexivity]. }
  assert (NZ : negb (e =? 0) = true) by (destruct (Z.eqb_spec e 0); [lia|reflexivity]).
  assert (NR : (if fl_errno L e then e else RDEINVAL) <> RDEOK) by (destruct (fl_errno L e); [unfold RDEOK; lia|discriminate]).
  assert (Q : match ff_open L E filename w0 with Ok (c, width, height, e', _) => c = None /\ width = 0 /\ height = 0 /\ e' = (if fl_errno L e then e else RDEINVAL) | _ => True end).
  { unfold ff_open. unfold alloc at 1. rewrite MS. cbv zeta. fold (ff_name filename).
    match goal with |- context [fl_open L ?n (ff_name filename)] => destruct (FA n) as [->|(s & -> & FB)] end.
    { rewrite NZ. destruct (ff_close _ _); cbn [bind]; auto. }
    cbn [library_object]. destruct FB as [FB|(F1 & FB)].
    { rewrite FB. destruct (Z.ltb_spec e 0); [|lia]. rewrite NZ. destruct (ff_close _ _); cbn [bind]; auto. }
    destruct (Z.ltb_spec (fl_stream_info L s) 0); [lia|]. destruct FB as [FB|(F2 & F3 & FB)].
    { rewrite FB. destruct (Z.ltb_spec e 0); [|lia]. rewrite NZ. destruct (ff_close _ _); cbn [bind]; auto. }
    destruct (Z.ltb_spec (fl_best_stream L s) 0); [lia|].
    unfold alloc. rewrite !MS. destruct (Z.ltb_spec (fl_parameters L s) 0); [lia|]. cbn [Z.eqb negb]. destruct FB as [FB|(F4 & FB)].
    { rewrite FB, NZ. destruct (ff_close _ _); cbn [bind]; auto. }
    rewrite F4. cbn [Z.eqb negb]. rewrite FB. destruct (Z.ltb_spec e 0); [|lia]. rewrite NZ. destruct (ff_close _ _); cbn [bind]; auto. }
  rewrite O in Q. destruct Q as (-> & -> & -> & ->). destruct M as (_ & M).
  unfold opened_by. cbn [rd_open ffmpeg_reader]. rewrite O. cbn [bind].
  destruct (Z.eqb_spec (if fl_errno L e then e else RDEINVAL) 0) as [Z|Z]; [contradiction|]. cbn [negb]. eexists. split; [reflexivity|exact M].
Qed.
