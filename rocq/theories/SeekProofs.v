(** Reads and seeks on any input. *)
From Verif Require Import Base BaseProofs Flt Util Methods Analysis Spec WorldProofs UtilProofs
  Stdio StdioProofs Pgm Pfm Y4m Image ImageHistory ImageSafe FrameProofs ImageApi Relax SpecImage SelectProofs SpecFormats ScanProofs FilmProofs PgmFilm PfmFilm Y4mFilm.
Open Scope list_scope.
Open Scope Z_scope.

(** ** Images clients hold *)
Lemma weak_ok {A} (m m' : res A) a : weaker m m' -> m = Ok a -> m' = Ok a.
Proof. intros [Q|[Q|Q]] H; rewrite Q in H; congruence. Qed.
Lemma reached_ok E Y i : config_ok (e_cfg E) = true -> system_ok Y -> reached E Y i -> exists sz, (forall x, ext_spec (y_ext Y x) (sz x)) /\ image_ok sz i.
Proof.
  intros CF SY (R & f & o & ptrs & want & w & i0 & width & height & buf & e & w1 & cs & rs & w2 & O & C & D).
  apply (weak_ok _ _ _ (weak_open_by R E Y f o ptrs want w)) in O. apply (weak_ok _ _ _ (weak_calls E Y cs (Some i0) w1)) in D.
  destruct (ext_sizes Y SY) as (sz & X). exists sz. split; [exact X|].
  destruct (open_by_ok sz R E (relax_system Y) f o ptrs want w w [] [] CF SY eq_refl X (holds_refl w)) as (r & O' & OO). rewrite O in O'. inversion O'; subst r.
  cbn [open_outcome] in OO. destruct OO as [(_ & i1 & Q & W1 & H1 & K & _)|(_ & Q & _)]; [|discriminate]. inversion Q; subst i1. subst width height.
  destruct (image_calls_ok sz E (relax_system Y) eq_refl X cs i0 w1 w1 [] [] K C (holds_refl w1)) as (rs' & i' & w' & D' & S & _). rewrite D in D'. inversion D'; subst. apply S.
Qed.

(** ** Progress of seeks *)
Lemma pfm_skip_calls H w h size buf : forall n i calls c b e calls' c', pfm_skip n i H w h size buf calls c = Ok (b, e, calls', c') ->
  exists m : nat, (m <= n)%nat /\ calls' = calls ++ zrange (i + 1) (i + 1 + Z.of_nat m) /\ (b = true <-> m = n).
Proof.
  induction n as [|n IH]; intros i calls c b e calls' c'; cbn [pfm_skip].
  { intros Q. inversion Q; subst. exists 0%nat. cbn [Z.of_nat]. rewrite Z.add_0_r, zrange_none, app_nil_r. split; [lia|]. split; [reflexivity|tauto]. }
  destruct (pfm_next_header H c w h) as [[[b1 e1] c1]|]; [|discriminate]. cbn [bind].
  assert (STOP : forall e0 c0, Ok (false, e0, calls, c0) = Ok (b, e, calls', c') -> exists m : nat, (m <= S n)%nat /\ calls' = calls ++ zrange (i + 1) (i + 1 + Z.of_nat m) /\ (b = true <-> m = S n)).
  { intros e0 c0 Q. inversion Q; subst. exists 0%nat. cbn [Z.of_nat]. rewrite Z.add_0_r, zrange_none, app_nil_r. split; [lia|]. split; [reflexivity|split; discriminate]. }
  destruct b1; cbn [negb]; [|apply STOP]. destruct (resdet_fskip (pf_s c1) size buf) as [[e2 s2]|]; [|discriminate]. cbn [bind].
  destruct (e2 =? 0); cbn [negb]; [|apply STOP]. intros Q. destruct (IH _ _ _ _ _ _ _ Q) as (m & M & -> & B). exists (S m). split; [lia|].
  split; [rewrite <- app_assoc; f_equal; cbn [app]; symmetry; apply zrange_step|]. rewrite B. lia.
Qed.
Lemma y4m_skip_calls : forall n i calls c b e calls' c', y4m_skip n i calls c = Ok (b, e, calls', c') ->
  exists m : nat, (m <= n)%nat /\ calls' = calls ++ zrange (i + 1) (i + 1 + Z.of_nat m) /\ (b = true <-> m = n).
Proof.
  induction n as [|n IH]; intros i calls c b e calls' c'; cbn [y4m_skip].
  { intros Q. inversion Q; subst. exists 0%nat. cbn [Z.of_nat]. rewrite Z.add_0_r, zrange_none, app_nil_r. split; [lia|]. split; [reflexivity|tauto]. }
  destruct (y4m_frame_header (ym_s c)) as [[b1 e1] s1].
  assert (STOP : forall e0 c0, Ok (false, e0, calls, c0) = Ok (b, e, calls', c') -> exists m : nat, (m <= S n)%nat /\ calls' = calls ++ zrange (i + 1) (i + 1 + Z.of_nat m) /\ (b = true <-> m = S n)).
  { intros e0 c0 Q. inversion Q; subst. exists 0%nat. cbn [Z.of_nat]. rewrite Z.add_0_r, zrange_none, app_nil_r. split; [lia|]. split; [reflexivity|split; discriminate]. }
  destruct b1; cbn [negb]; [|apply STOP]. destruct (skip_buf c) as [sb|]; [|discriminate]. cbn [bind].
  destruct (resdet_fskip s1 (ym_y c) sb) as [[e2 s2]|]; [|discriminate]. cbn [bind]. destruct (e2 =? 0); cbn [negb]; [|apply STOP].
  destruct (resdet_fskip s2 (ym_uv c) sb) as [[e3 s3]|]; [|discriminate]. cbn [bind]. destruct (e3 =? 0); cbn [negb]; [|apply STOP].
  intros Q. destruct (IH _ _ _ _ _ _ _ Q) as (m & M & -> & B). exists (S m). split; [lia|].
  split; [rewrite <- app_assoc; f_equal; cbn [app]; symmetry; apply zrange_step|]. rewrite B. lia.
Qed.
Lemma seek_progress E Y i k wd b e calls i' wd' : bytes_ahead i <> None -> 0 <= k ->
  resdet_seek_frame E Y (Some i) k wd = Ok (b, e, calls, i', wd') ->
  exists n, 0 <= n <= k /\ calls = zrange 1 (n + 1) /\ (b = true -> n = k).
Proof.
  intros NA K. unfold resdet_seek_frame. destruct (im_ctx i) as [c|c|c|x c] eqn:C; cbn [reader_seek].
  - unfold pgm_seek. intros Q. destruct (Z.eqb_spec k 0) as [->|NK]; cbn [negb andb orb] in Q.
    + cbn [bind] in Q. inversion Q; subst. exists 0. split; [lia|]. split; [reflexivity|auto].
    + destruct (pg_eof c) eqn:EF; cbn [negb andb orb bind] in Q; inversion Q; subst.
      * exists 0. split; [lia|]. split; [reflexivity|discriminate].
      * exists 1. split; [lia|]. split; [reflexivity|]. destruct (Z.gtb_spec k 1); [discriminate|lia].
  - unfold pfm_seek. cbv zeta. set (size := wrap _).
    destruct (if size <=? LONG_MAX then match fseek_cur 0 (pf_s c) with (None, s) => (true, _) | (Some _, s) => (false, _) end else (false, c)) as [sk c1].
    destruct (if sk then (None, wd) else alloc (e_alloc E) wd) as [buf w1].
    destruct (negb sk && match buf with None => true | _ => false end).
    { cbn [bind]. intros Q. inversion Q; subst. exists 0. split; [lia|]. split; [reflexivity|discriminate]. }
    destruct (pfm_skip (Z.to_nat k) 0 (y_host Y) (im_width i) (im_height i) size (option_map (fun _ => size) buf) [] c1) as [[[[b1 e1] calls1] c2]|] eqn:PS; [|discriminate].
    cbn [bind]. destruct (free_opt buf w1); [|discriminate]. cbn [bind]. intros Q. inversion Q; subst.
    destruct (pfm_skip_calls _ _ _ _ _ _ _ _ _ _ _ _ _ PS) as (m & M & -> & B). exists (Z.of_nat m). split; [lia|]. split; [cbn [app]; f_equal; lia|]. intros Hb. apply B in Hb. lia.
  - unfold y4m_seek. destruct (y4m_skip (Z.to_nat k) 0 [] c) as [[[[b1 e1] calls1] c2]|] eqn:PS; [|discriminate]. cbn [bind]. intros Q. inversion Q; subst.
    destruct (y4m_skip_calls _ _ _ _ _ _ _ _ PS) as (m & M & -> & B). exists (Z.of_nat m). split; [lia|]. split; [cbn [app]; f_equal; lia|]. intros Hb. apply B in Hb. lia.
  - unfold bytes_ahead in NA. rewrite C in NA. elim NA. reflexivity.
Qed.
(** a seek by nothing does nothing, for PGM and Y4M *)
Lemma seek_nothing E Y i wd : (match im_ctx i with CPgm _ | CY4m _ => True | _ => False end) ->
  resdet_seek_frame E Y (Some i) 0 wd = Ok (true, RDEOK, [], Some i, wd).
Proof.
  intros N. unfold resdet_seek_frame. destruct i as [blk ctx w h]. cbn [im_ctx im_blk im_width im_height] in *. destruct ctx as [c|c|c|x c]; try contradiction; reflexivity.
Qed.

(** ** Reads need the samples *)
Lemma later_used s s' : later s s' -> exists used, s_rest s = used ++ s_rest s'.
Proof. intros (_ & _ & _ & k & ->). exists (firstn k (s_rest s)). symmetry. apply firstn_skipn. Qed.
Lemma steady_is {C} n (read : list (option f32) -> res (bool * Z * list (option f32) * C)) b e vs c image b' e' image' c' :
  steady n read b e vs c -> n <= zlen image -> read image = Ok (b', e', image', c') -> b' = b /\ e' = e /\ c' = c.
Proof. intros (_ & F) L Q. destruct (F image L) as (im & R & _). rewrite Q in R. inversion R. auto. Qed.
Lemma skipn_used n (l : list Z) : (n <= length l)%nat -> exists used, l = used ++ skipn n l /\ length used = n.
Proof. intros H. exists (firstn n l). split; [symmetry; apply firstn_skipn|]. rewrite firstn_length. lia. Qed.

Lemma read_consumes E Y i buf b e buf' i' l : config_ok (e_cfg E) = true -> system_ok Y -> reached E Y i ->
  image_call_ok (im_width i) (im_height i) (IRead (Some buf)) -> bytes_ahead i = Some l ->
  resdet_read_image_frame Y (Some i) (Some buf) = Ok (b, e, buf', i') ->
  exists i1, i' = Some i1 /\ im_width i1 = im_width i /\ im_height i1 = im_height i /\
  (b = true -> exists used l', l = used ++ l' /\ bytes_ahead i1 = Some l' /\ im_width i * im_height i * bytes_per_pixel i1 <= zlen used) /\
  (b = false -> e = RDEOK -> finished i).
Proof.
  intros CF SY RE CO AH RD. destruct (reached_ok _ _ _ CF SY RE) as (sz & X & D & K). clear RE X.
  apply (weak_ok _ _ _ (weak_read_frame Y (Some i) (Some buf))) in RD. set (Y' := relax_system Y) in *.
  assert (HR : h_strict (y_host Y') = false) by reflexivity. clearbody Y'.
  unfold image_call_ok in CO. fold (zlen buf) in CO. assert (WH : 0 <= im_width i * im_height i) by (destruct D as (? & ? & ?); nia).
  unfold resdet_read_image_frame in RD. unfold bytes_ahead, finished, bytes_ahead, bytes_per_pixel in *.
  destruct (im_ctx i) as [c|c|c|x c] eqn:C; cbn [reader_read ctx_ok] in RD, K; [| | |discriminate].
  - inversion AH; subst l. clear AH. destruct (pgm_read c buf (im_width i) (im_height i)) as [[[[b1 e1] im1] c1]|] eqn:R; [|discriminate]. cbn [bind] in RD. inversion RD; subst. clear RD.
    eexists. split; [reflexivity|]. split; [reflexivity|]. split; [reflexivity|]. cbn [im_ctx].
    pose proof (pgm_read_full c _ _ D) as F. cbv zeta in F. destruct (pg_eof c) eqn:EF.
    { destruct (steady_is _ _ _ _ _ _ _ _ _ _ _ F CO R) as (-> & -> & ->). split; [discriminate|reflexivity]. }
    destruct (Nat.leb_spec (Z.to_nat (im_width i * im_height i)) (length (s_rest (pg_s c)))) as [N|N];
      destruct (steady_is _ _ _ _ _ _ _ _ _ _ _ F CO R) as (-> & -> & ->); (split; [|intros; discriminate]); [|discriminate].
    intros _. destruct (skipn_used _ _ N) as (u & U & LU). cbn [pg_s s_rest with_rest]. exists u. eexists. split; [exact U|]. split; [reflexivity|]. unfold zlen. lia.
  - inversion AH; subst l. clear AH. destruct (pfm_read (y_host Y') c buf (im_width i) (im_height i)) as [[[[b1 e1] im1] c1]|] eqn:R; [|discriminate]. cbn [bind] in RD. inversion RD; subst. clear RD.
    eexists. split; [reflexivity|]. split; [reflexivity|]. split; [reflexivity|]. cbn [im_ctx].
    destruct (pfm_next_header_ok _ c (im_width i) (im_height i) HR K) as (b2 & e2 & c2 & EH & (_ & _ & _ & L) & _).
    pose proof (pfm_read_full _ c _ _ _ _ _ D EH) as F. cbv zeta in F. destruct b2; cbn [negb] in F.
    2: { destruct (steady_is _ _ _ _ _ _ _ _ _ _ _ F CO R) as (-> & -> & ->). split; [discriminate|]. intros _ ->.
         unfold pfm_next_header in EH. destruct (pf_consumed c); [discriminate|]. unfold fgetc in EH. destruct (s_rest (pf_s c)) as [|p r]; [reflexivity|exfalso].
         destruct (negb (p =? 80)); [discriminate|]. destruct (fscanf _ [Ch] _) as [[[n vs] s]|]; [|discriminate]. cbn [bind] in EH.
         destruct (negb (n =? 1)); [discriminate|]. destruct vs as [|[| |format|] [|]]; try discriminate. destruct (negb (is_format format)); [discriminate|].
         destruct (pfm_rest _ s) as [[h s1]|]; [|discriminate]. cbn [bind] in EH. destruct h as [[[nw nh] sc]|]; [|discriminate]. destruct (_ || _); discriminate. }
    destruct (Nat.leb_spec (pfm_size (im_width i) (im_height i) (pf_format c2)) (length (s_rest (pf_s c2)))) as [N|N];
      destruct (steady_is _ _ _ _ _ _ _ _ _ _ _ F CO R) as (-> & -> & ->); (split; [|intros; discriminate]); [|discriminate].
    intros _. destruct (skipn_used _ _ N) as (u & U & LU). destruct (later_used _ _ L) as (u' & U'). cbn [pf_s pf_format pfm_put s_rest with_rest]. exists (u' ++ u). eexists.
    split; [rewrite <- app_assoc, U', <- U; reflexivity|]. split; [reflexivity|].
    unfold pfm_size, pfm_bytes in LU. unfold zlen. rewrite app_length, LU. destruct D as (D1 & D2 & D3).
    destruct (pf_format c2 =? 102); rewrite !Nat2Z.inj_add, !Nat2Z.inj_mul, !Z2Nat.id by lia; change (Z.of_nat 4) with 4; change (Z.of_nat 12) with 12; nia.
  - inversion AH; subst l. clear AH. destruct (y4m_read (y_host Y') c buf (im_width i) (im_height i)) as [[[[b1 e1] im1] c1]|] eqn:R; [|discriminate]. cbn [bind] in RD. inversion RD; subst. clear RD.
    eexists. split; [reflexivity|]. split; [reflexivity|]. split; [reflexivity|]. cbn [im_ctx].
    destruct (y4m_frame_header (ym_s c)) as [[b2 e2] s2] eqn:EH. pose proof K as (KS & KD & KY & KUV & _).
    destruct (y4m_frame_header_ok _ _ _ _ KS EH) as (L & _).
    destruct (y4m_read_full (y_host Y') c _ _ _ _ _ D K EH) as (sb & SB & F). cbv zeta in F. destruct b2; cbn [negb] in F.
    2: { destruct (steady_is _ _ _ _ _ _ _ _ _ _ _ F CO R) as (-> & -> & ->). split; [discriminate|]. intros _ ->.
         unfold y4m_frame_header, fread in EH. destruct (zlen (s_rest (ym_s c)) <? 5) eqn:G5.
         - destruct (Z.ltb_spec (zlen (s_rest (ym_s c))) 5); [|discriminate]. destruct (s_rest (ym_s c)) as [|? ?]; [reflexivity|].
           rewrite zlen_cons in EH. destruct (Z.eqb_spec (zlen l + 1) 0); [unfold zlen in *; lia|]. discriminate.
         - exfalso. assert (L5 : zlen (firstn (Z.to_nat 5) (s_rest (ym_s c))) = 5).
           { apply Z.ltb_ge in G5. unfold zlen in *. rewrite firstn_length. lia. }
           rewrite L5 in EH. change (5 <? 5) with false in EH. cbv iota in EH.
           destruct (list_eq_dec _ _ _); cbn [negb] in EH; [|discriminate]. destruct (after_line _); discriminate. }
    destruct (Nat.leb_spec (Z.to_nat (ym_y c)) (length (s_rest s2))) as [N|N].
    + destruct F as (e3 & s3 & FS & F). destruct (steady_is _ _ _ _ _ _ _ _ _ _ _ F CO R) as (-> & -> & ->). split.
      2: { intros Q ->. discriminate. }
      intros _. destruct (skipn_used _ _ N) as (u & U & LU). destruct (later_used _ _ L) as (u' & U').
      destruct (skip_buf_ok _ _ _ K) as (sb' & ESB & SBO). rewrite SB in ESB. inversion ESB; subst sb'.
      assert (L3 : exists u3, skipn (Z.to_nat (ym_y c)) (s_rest s2) = u3 ++ s_rest s3).
      { pose proof (later_ok _ _ L) as K2. assert (KW : stream_ok (with_rest s2 (skipn (Z.to_nat (ym_y c)) (s_rest s2)))).
        { exact (later_ok _ _ (later_with_rest s2 _ K2)). }
        destruct (fskip_ok _ (ym_uv c) sb KW KUV) as (e4 & s4 & FS' & L4). { apply SBO; [right; reflexivity|exact KUV]. }
        rewrite FS in FS'. inversion FS'; subst. apply (later_used _ _ L4). }
      destruct L3 as (u3 & U3). exists (u' ++ u ++ u3). eexists. split; [|split; [reflexivity|]].
      * rewrite U', U, U3, <- !app_assoc. reflexivity.
      * cbn [ym_depth with_stream]. rewrite <- bytes_sample by exact KD. unfold bytes_per in KY. unfold zlen. rewrite !app_length, LU, !Nat2Z.inj_add. lia.
    + destruct (steady_is _ _ _ _ _ _ _ _ _ _ _ F CO R) as (-> & -> & ->). split; [discriminate|intros; discriminate].
Qed.
