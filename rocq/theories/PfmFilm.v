(** PFM files. *)
From Coq Require Import Reals Lra.
From Flocq Require Import Core IEEE754.Binary IEEE754.Bits.
From Verif Require Import Base BaseProofs Flt FltProofs FilterProofs Util Methods Analysis Spec WorldProofs UtilProofs
  Stdio StdioProofs Pgm Pfm Y4m Image ImageHistory ImageSafe FrameProofs Relax SpecImage SelectProofs SpecFormats ScanProofs FilmProofs PgmFilm.
Open Scope list_scope.
Open Scope Z_scope.

(** ** Sample bytes *)
Lemma bits_range (v : f32) : 0 <= bits_of_b32 v < 2^32.
Proof. apply (bits_of_binary_float_range 23 8); reflexivity. Qed.
Lemma bits_back (v : f32) : b32_of_bits (bits_of_b32 v) = v.
Proof. apply (binary_float_of_bits_of_binary_float 23 8). Qed.
Lemma float_bytes_length little v : length (float_bytes little v) = 4%nat.
Proof. destruct little; reflexivity. Qed.
Lemma float_of_float_bytes H little v :
  float_of_bytes H (if Bool.eqb little (h_little H) then float_bytes little v else rev (float_bytes little v)) = v.
Proof.
  unfold float_of_bytes, float_bytes. pose proof (bits_range v) as B. transitivity (b32_of_bits (bits_of_b32 v)); [|apply bits_back]. f_equal.
  set (z := bits_of_b32 v) in *.
  assert (Q : fold_right (fun c v => c + 256 * v) 0 [z mod 256; z / 2 ^ 8 mod 256; z / 2 ^ 16 mod 256; z / 2 ^ 24 mod 256] = z).
  { cbn [fold_right].
    change (2^8) with 256. change (2^16) with (256 * 256). change (2^24) with (256 * 256 * 256).
    rewrite <- !Z.div_div by lia.
    pose proof (Z.div_mod z 256 ltac:(lia)). pose proof (Z.div_mod (z / 256) 256 ltac:(lia)).
    pose proof (Z.div_mod (z / 256 / 256) 256 ltac:(lia)). pose proof (Z.div_mod (z / 256 / 256 / 256) 256 ltac:(lia)).
    assert (z / 256 / 256 / 256 / 256 = 0); [|lia].
    rewrite !Z.div_div by lia. apply Z.div_small. exact B. }
  destruct little, (h_little H); cbn [Bool.eqb]; rewrite ?rev_involutive; exact Q.
Qed.

(** [scale] announces the byte order [little] *)
Definition announces (little : bool) (scale : f32) : Prop :=
  is_finite 24 128 scale = true /\ (little = true <-> (B2R 24 128 scale < 0)%R).
Lemma host_order_is H little scale : announces little scale -> host_order H scale = Bool.eqb little (h_little H).
Proof.
  intros (F & S). unfold host_order. f_equal. destruct (f32_of_Z_exact 0 ltac:(lia)) as (F0 & _ & V0).
  pose proof (flt_spec scale (f32_of_Z 0) F F0) as T. rewrite V0 in T. fold (rf scale) in S.
  destruct (flt scale (f32_of_Z 0)), little; try reflexivity.
  - destruct T as (T & _), S as (_ & S). symmetry. apply S. apply T. reflexivity.
  - destruct T as (_ & T), S as (S & _). apply T. apply S. reflexivity.
Qed.
Lemma gray_value_bytes H little scale v : announces little scale -> gray_value H scale (float_bytes little v) = v.
Proof. intros A. unfold gray_value. rewrite (host_order_is H little scale A). apply float_of_float_bytes. Qed.
Lemma pixel_value H little colour scale v l : announces little scale -> pixel_bytes little colour v l ->
  pfm_value H scale (pfm_letter colour) l = v /\ length l = pfm_bytes (pfm_letter colour).
Proof.
  intros A P. destruct P as [v|r g b]; unfold pfm_value, pfm_bytes; cbn [pfm_letter]; change (102 =? 102) with true; change (70 =? 102) with false; cbv iota.
  - split; [apply gray_value_bytes; exact A|apply float_bytes_length].
  - split; [|rewrite !app_length, !float_bytes_length; reflexivity]. unfold rgb_value, mean3.
    pose proof (float_bytes_length little r) as Lr. pose proof (float_bytes_length little g) as Lg. pose proof (float_bytes_length little b) as Lb.
    assert (Q1 : firstn 4 (float_bytes little r ++ float_bytes little g ++ float_bytes little b) = float_bytes little r) by (rewrite <- Lr; apply firstn_app_len).
    assert (Q2 : skipn 4 (float_bytes little r ++ float_bytes little g ++ float_bytes little b) = float_bytes little g ++ float_bytes little b) by (rewrite <- Lr; apply skipn_app_len).
    assert (Q3 : firstn 4 (float_bytes little g ++ float_bytes little b) = float_bytes little g) by (rewrite <- Lg; apply firstn_app_len).
    assert (Q4 : skipn 8 (float_bytes little r ++ float_bytes little g ++ float_bytes little b) = float_bytes little b).
    { rewrite app_assoc. replace 8%nat with (length (float_bytes little r ++ float_bytes little g)) by (rewrite app_length, Lr, Lg; reflexivity). apply skipn_app_len. }
    rewrite Q1, Q2, Q3, Q4. rewrite <- Lb, firstn_all. rewrite !(gray_value_bytes H little scale _ A). reflexivity.
Qed.

Section Planes.
  Variables (px : list Z -> f32) (k : nat).
  Lemma pixels_text : forall row ls l, Forall2 (fun v b => px b = v /\ length b = k) row ls ->
    pixels px k (length row) (concat ls ++ l) = row /\ length (concat ls) = (length row * k)%nat.
  Proof.
    intros row ls l F. revert l. induction F as [|v b row ls (V & L) _ IH]; intros l; [split; reflexivity|]. cbn [length pixels concat].
    rewrite <- app_assoc.
    assert (F1 : firstn k (b ++ concat ls ++ l) = b) by (rewrite <- L; apply firstn_app_len).
    assert (F2 : skipn k (b ++ concat ls ++ l) = concat ls ++ l) by (rewrite <- L; apply skipn_app_len).
    rewrite F1, F2. split.
    - f_equal; [exact V|]. apply IH.
    - rewrite app_length. rewrite (proj2 (IH [])). lia.
  Qed.
  Lemma lines_text w : forall rows ls l, Forall2 (fun row b => length row = w /\ exists bs, Forall2 (fun v b => px b = v /\ length b = k) row bs /\ b = concat bs) rows ls ->
    lines px k w (length rows) (concat ls ++ l) = rows /\ length (concat ls) = (length rows * (w * k))%nat.
  Proof.
    intros rows ls l F. revert l. induction F as [|row b rows ls (W & bs & B & ->) _ IH]; intros l; [split; reflexivity|]. cbn [length lines concat].
    rewrite <- app_assoc. destruct (pixels_text row bs (concat ls ++ l) B) as (P1 & P2). rewrite W in *. split.
    - f_equal; [exact P1|]. rewrite <- P2, skipn_app_len. apply IH.
    - rewrite app_length, P2. rewrite (proj2 (IH [])). lia.
  Qed.
End Planes.
Lemma Forall2_rev {A B} (P : A -> B -> Prop) l l' : Forall2 P l l' -> Forall2 P (rev l) (rev l').
Proof. induction 1; [constructor|]. cbn [rev]. apply Forall2_app; [assumption|]. constructor; [assumption|constructor]. Qed.

Lemma plane_text H little colour scale w h vs data l : announces little scale -> plane_bytes little colour w h vs data -> 0 <= w -> 0 <= h ->
  plane (pfm_value H scale (pfm_letter colour)) (pfm_bytes (pfm_letter colour)) (Z.to_nat w) (Z.to_nat h) (data ++ l) = vs /\
  length data = pfm_size w h (pfm_letter colour).
Proof.
  intros A (rows & ls & LR & LW & -> & F & ->) W H0.
  assert (F' : Forall2 (fun row b => length row = Z.to_nat w /\ exists bs, Forall2 (fun v b => pfm_value H scale (pfm_letter colour) b = v /\ length b = pfm_bytes (pfm_letter colour)) row bs /\ b = concat bs) rows ls).
  { clear LR. induction F as [|row b rows ls (bs & B & ->) _ IH]; [constructor|]. inversion_clear LW as [|? ? L1 L2]. constructor; [|exact (IH L2)].
    split; [unfold zlen in L1; lia|]. exists bs. split; [|reflexivity]. clear -A B. induction B; constructor; [|assumption]. apply pixel_value with (little := little); assumption. }
  apply Forall2_rev in F'. destruct (lines_text _ _ _ _ _ l F') as (L1 & L2). rewrite rev_length in *. unfold zlen in LR.
  replace (Z.to_nat h) with (length rows) by lia. unfold plane. rewrite L1, rev_involutive. split; [reflexivity|].
  unfold pfm_size. rewrite L2. f_equal. lia.
Qed.

(** ** The state of the reader *)
Record pfm_state (H : host) (kind : option bool) (br sk : bool) (w h : Z) (c : pfm_context) : Prop := {
  ps_seek : s_seekable (pf_s c) = sk;
  ps_broken : s_broken (pf_s c) = br;
  ps_eof : br = true -> s_eof (pf_s c) = false;
  ps_ok : stream_ok (pf_s c);
  ps_kind : forall k, kind = Some k -> pf_format c = pfm_letter k
}.
(** a frame header comes next *)
Definition pfm_between (H : host) (kind : option bool) (br sk : bool) (w h : Z) (t : list Z) (c : pfm_context) (fs : list (list f32)) : Prop :=
  pfm_state H kind br sk w h c /\ pf_consumed c = false /\ pfm_frames H kind w h t fs (s_rest (pf_s c)).
(** the samples come next *)
Definition pfm_inside (H : host) (kind : option bool) (br sk : bool) (w h : Z) (t : list Z) (c : pfm_context) (fs : list (list f32)) : Prop :=
  pfm_state H kind br sk w h c /\
  exists little colour vs fs' data l, fs = vs :: fs' /\ announces little (pf_scale c) /\ pf_format c = pfm_letter colour /\
    plane_bytes little colour w h vs data /\ s_rest (pf_s c) = data ++ l /\ pfm_frames H kind w h t fs' l.
Definition pfm_at (H : host) (kind : option bool) (br sk : bool) (w h : Z) (t : list Z) (c : pfm_context) (fs : list (list f32)) : Prop :=
  pfm_between H kind br sk w h t c fs \/ (pfm_inside H kind br sk w h t c fs /\ pf_consumed c = true).

Lemma later_ok_rest s l l' : s_rest s = l ++ l' -> stream_ok s -> stream_ok (with_rest s l').
Proof.
  intros R (A & B & C). unfold stream_ok, with_rest. cbn [s_rest s_pos s_seekable]. rewrite R in *. rewrite zlen_app in *.
  pose proof (zlen_nonneg l). pose proof (zlen_nonneg l'). apply Forall_app in A. split; [apply A|]. split; [lia|]. intros S. specialize (C S). lia.
Qed.

Lemma pfm_next_inside H kind br sk w h t c vs fs : sane w h -> pfm_at H kind br sk w h t c (vs :: fs) ->
  exists c1, pfm_next_header H c w h = Ok (true, RDEOK, c1) /\ pfm_inside H kind br sk w h t c1 (vs :: fs).
Proof.
  intros D [(S & U & F)|(I & U)].
  - inversion F as [|colour vs0 fs0 l l' K (little & head & data & HD & PB & ->) F' Q1 Q2]; subst vs0 fs0.
    assert (D' : w <= SIZE_MAX /\ h <= SIZE_MAX) by (destruct D as (? & ? & ?); nia).
    symmetry in Q2. rewrite <- app_assoc in Q2. destruct (pfm_next_text H c w h little colour head (data ++ l') U Q2 HD) as (v & V1 & V2 & EQ); [apply D'|apply D'|].
    eexists. split; [exact EQ|]. destruct S as [S0 S1 S2 S3 S4]. split.
    + constructor; cbn [pf_s pf_format]; [exact S0|exact S1|exact S2|apply (later_ok_rest _ head); assumption|]. intros k0 Q. rewrite (K k0 Q). reflexivity.
    + exists little, colour, vs, fs, data, l'. split; [reflexivity|]. split; [split; assumption|]. split; [reflexivity|]. split; [exact PB|]. split; [reflexivity|exact F'].
  - exists c. split; [|exact I]. unfold pfm_next_header. rewrite U. reflexivity.
Qed.
Lemma pfm_next_end H kind br sk w h c : pfm_at H kind br sk w h [] c [] ->
  exists c1, pfm_next_header H c w h = Ok (false, if br then RDEINVAL else RDEOK, c1) /\ pfm_between H kind br sk w h [] c1 [].
Proof.
  intros [(S & U & F)|((_ & little & colour & vs & fs & data & l & Q & _) & _)]; [|discriminate].
  assert (Q : s_rest (pf_s c) = []) by (inversion F; reflexivity). destruct S as [S0 S1 S2 S3 S4]. unfold pfm_next_header. rewrite U. unfold fgetc. rewrite Q. eexists. split.
  - assert (FE : feof (at_end (pf_s c)) = negb br).
    { unfold feof, at_end. cbn [s_eof]. rewrite S1. destruct br; [rewrite S2 by reflexivity; reflexivity|reflexivity]. }
    rewrite FE. destruct br; reflexivity.
  - split; [|split; [reflexivity|constructor]]. constructor; cbn [pf_s pf_format]; [exact S0|exact S1| |apply (later_ok (pf_s c)); apply later_at_end; exact S3|exact S4].
    intros X. unfold at_end. cbn [s_eof]. rewrite S1, (S2 X), X. reflexivity.
Qed.

(** after the samples *)
Lemma pfm_past H kind br sk w h t c vs fs s : sane w h -> pfm_inside H kind br sk w h t c (vs :: fs) ->
  s_rest s = skipn (pfm_size w h (pf_format c)) (s_rest (pf_s c)) -> s_seekable s = sk -> s_broken s = br -> (br = true -> s_eof s = false) -> stream_ok s ->
  pfm_between H kind br sk w h t (mkPfm (pf_blk c) (pf_file c) s (pf_scale c) (pf_format c) false) fs.
Proof.
  intros D ([S0 S1 S2 S3 S4] & little & colour & vs' & fs' & data & l & Q & A & F & PB & R & FR) RS B0 B1 B2 B3. inversion Q; subst vs' fs'.
  destruct (plane_text H little colour (pf_scale c) w h vs data l A PB) as (_ & L); [destruct D; lia|destruct D as (? & ? & ?); lia|].
  split; [constructor; cbn [pf_s pf_format]; assumption|]. split; [reflexivity|]. cbn [pf_s]. rewrite RS, R, F, <- L, skipn_app_len. exact FR.
Qed.
Lemma reader_steady_pfm Y c w h b e vs c' : steady (w * h) (fun image => pfm_read (y_host Y) c image w h) b e vs c' ->
  steady (w * h) (fun image => reader_read Y (CPfm c) image w h) b e vs (CPfm c').
Proof.
  intros (L & S). split; [exact L|]. intros image Z. destruct (S image Z) as (im & Q & R). exists im. cbn [reader_read]. rewrite Q. cbn [bind]. auto.
Qed.

Definition pfm_inv (H : host) (kind : option bool) (br sk : bool) (w h : Z) (t : list Z) (i : rdimage) (fs : list (list f32)) : Prop :=
  im_width i = w /\ im_height i = h /\ sane w h /\ exists c, im_ctx i = CPfm c /\ pfm_at H kind br sk w h t c fs.
Lemma pfm_inv_size H kind br sk w h t i fs : pfm_inv H kind br sk w h t i fs -> im_width i = w /\ im_height i = h.
Proof. intros (A & B & _). auto. Qed.
Lemma pfm_read_text Y kind br sk w h t c vs fs blk : sane w h -> pfm_at (y_host Y) kind br sk w h t c (vs :: fs) ->
  exists c', gives Y (mkImage blk (CPfm c) w h) true RDEOK vs (mkImage blk (CPfm c') w h) /\ pfm_between (y_host Y) kind br sk w h t c' fs.
Proof.
  intros D AT. destruct (pfm_next_inside _ _ _ _ _ _ _ _ _ _ D AT) as (c1 & NH & IN).
  pose proof (pfm_read_full (y_host Y) c w h true RDEOK c1 D NH) as F. cbv zeta in F. cbn [negb] in F.
  pose proof IN as ([S0 S1 S2 S3 S4] & little & colour & vs' & fs' & data & l & Q & A & FM & PB & R & FR). inversion Q; subst vs' fs'.
  destruct (plane_text (y_host Y) little colour (pf_scale c1) w h vs data l A PB) as (P & L); [destruct D; lia|destruct D as (? & ? & ?); lia|].
  assert (N : (pfm_size w h (pf_format c1) <=? length (s_rest (pf_s c1)))%nat = true) by (apply Nat.leb_le; rewrite R, FM, app_length; lia).
  rewrite N in F. rewrite R, FM, P in F. rewrite <- FM, <- R in F.
  eexists. split; [apply steady_gives, reader_steady_pfm; exact F|].
  apply (pfm_past _ _ _ _ _ _ _ _ vs); try assumption; try reflexivity.
  apply (later_ok_rest _ data); [|exact S3]. rewrite R at 1. f_equal. rewrite FM, <- L, R, skipn_app_len. reflexivity.
Qed.
Lemma pfm_inv_read Y kind br sk w h t i f fs : pfm_inv (y_host Y) kind br sk w h t i (f :: fs) -> exists i', gives Y i true RDEOK f i' /\ pfm_inv (y_host Y) kind br sk w h t i' fs.
Proof.
  intros (A & B & D & c & C & AT). destruct i as [blk ctx w0 h0]. cbn [im_width im_height im_ctx] in *. subst w0 h0 ctx.
  destruct (pfm_read_text Y kind br sk w h t c f fs blk D AT) as (c' & G & BT). eexists. split; [exact G|].
  split; [reflexivity|]. split; [reflexivity|]. split; [exact D|]. eexists. split; [reflexivity|]. left. exact BT.
Qed.
Lemma pfm_inv_end Y kind br sk w h i : pfm_inv (y_host Y) kind br sk w h [] i [] -> exists i', pfm_inv (y_host Y) kind br sk w h [] i' [] /\
  forall buf, w * h <= zlen buf -> resdet_read_image_frame Y (Some i) (Some buf) = Ok (false, if br then RDEINVAL else RDEOK, Some buf, Some i').
Proof.
  intros (A & B & D & c & C & AT). destruct i as [blk ctx w0 h0]. cbn [im_width im_height im_ctx] in *. subst w0 h0 ctx.
  destruct (pfm_next_end _ _ _ _ _ _ _ AT) as (c1 & NH & BT). exists (mkImage blk (CPfm c1) w h). split.
  - split; [reflexivity|]. split; [reflexivity|]. split; [exact D|]. eexists. split; [reflexivity|]. left. exact BT.
  - intros buf _. cbn [resdet_read_image_frame im_ctx reader_read im_width im_height im_blk]. unfold pfm_read. rewrite NH. reflexivity.
Qed.

(** ** Seeking *)
Lemma zrange_more a b : a <= b -> zrange a (b + 1) = zrange a b ++ [b].
Proof. intros. rewrite zrange_snoc by lia. reflexivity. Qed.
Lemma zrange_from a b : a < b -> zrange a b = a :: zrange (a + 1) b.
Proof.
  intros L. unfold zrange. replace (Z.to_nat (b - a)) with (Datatypes.S (Z.to_nat (b - (a + 1)))) by lia. reflexivity.
Qed.
Lemma zrange_none a : zrange a a = [].
Proof. unfold zrange. rewrite Z.sub_diag. reflexivity. Qed.
Definition en_of (br : bool) : Z := if br then RDEINVAL else RDEOK.
(** skipping the samples of a frame *)
Lemma fskip_frame s size buf (n : nat) : stream_ok s -> size = Z.of_nat n -> (n <= length (s_rest s))%nat ->
  (buf = None /\ s_seekable s = true \/ exists b, buf = Some b /\ size <= b) ->
  exists s', resdet_fskip s size buf = Ok (RDEOK, s') /\ s_rest s' = skipn n (s_rest s) /\ s_broken s' = s_broken s /\
    (s_eof s = false -> s_eof s' = false) /\ stream_ok s' /\ s_seekable s' = s_seekable s /\
    s_pos s' + zlen (s_rest s') = s_pos s + zlen (s_rest s).
Proof.
  intros (K1 & K2 & K3) -> N B. unfold resdet_fskip. destruct B as [(-> & SK)|(b & -> & SB)].
  - specialize (K3 SK). assert (zlen (s_rest s) = Z.of_nat (length (s_rest s))) by reflexivity.
    destruct (Z.gtb_spec (Z.of_nat n) LONG_MAX); [lia|]. unfold fseek_cur. rewrite SK. cbn [negb].
    destruct (Z.gtb_spec (s_pos s + Z.of_nat n) LONG_MAX); [lia|]. rewrite Nat2Z.id. eexists. split; [reflexivity|].
    cbn [s_rest s_broken s_eof s_seekable]. split; [reflexivity|]. split; [reflexivity|]. split; [reflexivity|]. split; [|split; [reflexivity|cbn [s_rest s_pos]; unfold zlen; rewrite skipn_length; lia]].
    split; [|split]; cbn [s_rest s_pos s_seekable].
    + rewrite <- (firstn_skipn n (s_rest s)) in K1. apply Forall_app in K1. apply K1.
    + lia.
    + intros _. unfold zlen. rewrite skipn_length. lia.
  - destruct (Z.gtb_spec (Z.of_nat n) b); [lia|]. unfold fread. destruct (Z.ltb_spec (zlen (s_rest s)) (Z.of_nat n)) as [Q|_]; [unfold zlen in Q; lia|].
    rewrite Nat2Z.id. replace (zlen (firstn n (s_rest s))) with (Z.of_nat n) by (unfold zlen; rewrite firstn_length; lia). rewrite Z.eqb_refl.
    eexists. split; [reflexivity|]. split; [reflexivity|]. split; [reflexivity|]. split; [tauto|]. split; [|split; [reflexivity|cbn [with_rest s_rest s_pos]; lia]].
    apply (later_ok_rest s (firstn n (s_rest s))); [symmetry; apply firstn_skipn|split; auto].
Qed.

Lemma pfm_skip_text H k br sk w h size buf : sane w h -> size = Z.of_nat (pfm_size w h (pfm_letter k)) -> forall n i calls c fs,
  pfm_at H (Some k) br sk w h [] c fs -> (buf = None /\ sk = true \/ buf = Some size) ->
  exists c', pfm_skip n i H w h size buf calls c =
    Ok ((n <=? length fs)%nat, (if (n <=? length fs)%nat then RDEOK else en_of br), calls ++ zrange (i + 1) (i + 1 + Z.of_nat (Nat.min n (length fs))), c') /\
    pfm_at H (Some k) br sk w h [] c' (skipn n fs) /\ (n <> O -> pfm_between H (Some k) br sk w h [] c' (skipn n fs)).
Proof.
  intros D SZ. induction n as [|n IH]; intros i calls c fs AT BF.
  - exists c. cbn [pfm_skip Nat.min Z.of_nat Nat.leb skipn]. rewrite Z.add_0_r. rewrite zrange_none, app_nil_r. split; [reflexivity|]. split; [exact AT|]. intros X. elim X. reflexivity.
  - cbn [pfm_skip]. destruct fs as [|vs fs].
    + destruct (pfm_next_end _ _ _ _ _ _ _ AT) as (c1 & NH & BT). rewrite NH. cbn [bind negb length Nat.min Z.of_nat Nat.leb]. rewrite Z.add_0_r.
      rewrite zrange_none, app_nil_r. exists c1. split; [reflexivity|]. rewrite skipn_nil. split; [left; exact BT|auto].
    + destruct (pfm_next_inside _ _ _ _ _ _ _ _ _ _ D AT) as (c1 & NH & IN). rewrite NH. cbn [bind negb].
      pose proof IN as ([S0 S1 S2 S3 S4] & little & colour & vs' & fs' & data & l & Q & A & FM & PB & R & FR). inversion Q; subst vs' fs'.
      destruct (plane_text H little colour (pf_scale c1) w h vs data l A PB) as (_ & L); [destruct D; lia|destruct D as (? & ? & ?); lia|].
      assert (FK : pf_format c1 = pfm_letter k) by (apply S4; reflexivity).
      assert (SL : colour = k) by (rewrite FM in FK; destruct colour, k; try reflexivity; discriminate). subst colour.
      destruct (fskip_frame (pf_s c1) size buf (pfm_size w h (pfm_letter k)) S3 SZ) as (s' & EF & R' & B' & E' & K' & SK' & _).
      { rewrite R, app_length. lia. } { destruct BF as [(-> & BF)| ->]; [left; split; [reflexivity|congruence]|right; exists size; split; [reflexivity|lia]]. }
      rewrite EF. cbn [bind]. change (negb (RDEOK =? 0)) with false. cbv iota.
      assert (BT : pfm_between H (Some k) br sk w h [] (mkPfm (pf_blk c1) (pf_file c1) s' (pf_scale c1) (pf_format c1) false) fs).
      { apply (pfm_past _ _ _ _ _ _ _ _ vs); try assumption; try congruence. intros X. apply E'. apply S2. exact X. }
      destruct (IH (i + 1) (calls ++ [i + 1]) _ fs (or_introl BT)) as (c' & E2 & A2 & A3).
      { exact BF. }
      rewrite E2. exists c'. split.
      * cbn [length Nat.leb Nat.min]. f_equal. f_equal. f_equal. rewrite <- app_assoc. f_equal.
        rewrite (zrange_from (i + 1)) by lia. cbn [app]. f_equal. f_equal. lia.
      * cbn [skipn]. split; [exact A2|]. intros _. destruct n as [|n]; [|apply A3; discriminate].
        cbn [pfm_skip] in E2. inversion E2; subst c'. exact BT.
Qed.

Lemma pfm_at_rewound H kind br sk w h c fs : sk = true -> pfm_at H kind br sk w h [] c fs ->
  pfm_at H kind br sk w h [] (mkPfm (pf_blk c) (pf_file c) (mkStream (skipn 0 (s_rest (pf_s c))) (s_pos (pf_s c) + 0) false (s_broken (pf_s c)) true) (pf_scale c) (pf_format c) (pf_consumed c)) fs.
Proof.
  intros SK AT.
  assert (ST : pfm_state H kind br sk w h c -> pfm_state H kind br sk w h (mkPfm (pf_blk c) (pf_file c) (mkStream (skipn 0 (s_rest (pf_s c))) (s_pos (pf_s c) + 0) false (s_broken (pf_s c)) true) (pf_scale c) (pf_format c) (pf_consumed c))).
  { intros [S0 S1 S2 (K1 & K2 & K3) S4]. constructor; cbn [pf_s pf_format s_seekable s_broken s_eof]; auto.
    split; [exact K1|]. cbn [s_pos s_rest s_seekable skipn]. rewrite Z.add_0_r. split; [exact K2|]. intros _. apply K3. congruence. }
  destruct AT as [(S & U & F)|((S & I) & U)].
  - left. split; [apply ST; exact S|]. split; [exact U|exact F].
  - right. split; [|exact U]. split; [apply ST; exact S|]. exact I.
Qed.

Lemma pfm_seek_text E Y k br sk w h c fs off wd : sane w h -> w * h * 12 <= SIZE_MAX ->
  (sk = true /\ Z.of_nat (pfm_size w h (pfm_letter k)) <= LONG_MAX \/ forall n, e_alloc E n = true) ->
  pfm_at (y_host Y) (Some k) br sk w h [] c fs -> (pf_consumed c = false \/ off <> 0) -> 0 <= off ->
  exists c' wd', pfm_seek E Y c off w h wd =
    Ok (off <=? zlen fs, if off <=? zlen fs then RDEOK else en_of br, zrange 1 (Z.min off (zlen fs) + 1), c', wd') /\
    pfm_between (y_host Y) (Some k) br sk w h [] c' (skipn (Z.to_nat off) fs).
Proof.
  intros D BG AL AT NZ OFF. unfold pfm_seek.
  assert (FK : pf_format c = pfm_letter k).
  { destruct AT as [([_ _ _ _ S4] & _)|(([_ _ _ _ S4] & _) & _)]; apply S4; reflexivity. }
  set (sz := wrap ((if pf_format c =? 70 then wrap (wrap (w * h) * 3) else wrap (w * h)) * 4)).
  assert (SZ : sz = Z.of_nat (pfm_size w h (pfm_letter k))).
  { unfold sz. rewrite (dims_wrap _ _ D), FK. destruct D as (D1 & D2 & D3). unfold SIZE_MAX in *. unfold pfm_size, pfm_bytes.
    destruct k; cbn [pfm_letter]; change (70 =? 70) with true; change (102 =? 70) with false; change (70 =? 102) with false; change (102 =? 102) with true; cbv iota;
      rewrite ?(wrap_small (w * h * 3)) by nia; rewrite wrap_small by nia; rewrite !Nat2Z.inj_mul, !Z2Nat.id by lia; cbn [Z.of_nat Pos.of_succ_nat Pos.succ]; ring. }
  assert (FIN : forall buf wd1 wd2 c1, (buf = None /\ sk = true \/ exists b, buf = Some b) ->
     free_opt buf wd1 = Ok wd2 -> pfm_at (y_host Y) (Some k) br sk w h [] c1 fs -> (pf_consumed c1 = false \/ off <> 0) ->
     exists c' wd', ('(ret, e, calls, c) <- pfm_skip (Z.to_nat off) 0 (y_host Y) w h sz (option_map (fun _ => sz) buf) [] c1 ;;
        w <- free_opt buf wd1 ;;
        Ok (ret, e, calls, mkPfm (pf_blk c) (pf_file c) (pf_s c) (pf_scale c) (pf_format c) false, w)) =
       Ok (off <=? zlen fs, if off <=? zlen fs then RDEOK else en_of br, zrange 1 (Z.min off (zlen fs) + 1), c', wd') /\
       pfm_between (y_host Y) (Some k) br sk w h [] c' (skipn (Z.to_nat off) fs)).
  { intros buf wd1 wd2 c1 BF EF AT1 NZ1.
    destruct (pfm_skip_text (y_host Y) k br sk w h sz (option_map (fun _ => sz) buf) D SZ (Z.to_nat off) 0 [] c1 fs AT1) as (c' & E1 & A1 & A2).
    { destruct BF as [(-> & BF)|(b & ->)]; [left; split; [reflexivity|exact BF]|right; reflexivity]. }
    rewrite E1. cbn [bind]. rewrite EF. cbn [bind].
    assert (N1 : (Z.to_nat off <=? length fs)%nat = (off <=? zlen fs)) by (unfold zlen; apply eq_true_iff_eq; rewrite Nat.leb_le, Z.leb_le; lia).
    rewrite N1. replace (0 + 1 + Z.of_nat (Nat.min (Z.to_nat off) (length fs))) with (Z.min off (zlen fs) + 1) by (unfold zlen; lia).
    cbn [app]. eexists _, _. split; [reflexivity|].
    assert (BT : pfm_between (y_host Y) (Some k) br sk w h [] c' (skipn (Z.to_nat off) fs)).
    { destruct (Z.eq_dec off 0) as [Q|Q]; [|apply A2; lia]. subst off. destruct NZ1 as [NZ1|NZ1]; [|elim NZ1; reflexivity].
      cbn [Z.to_nat pfm_skip] in E1. inversion E1; subst c'. destruct A1 as [A1|(_ & A1)]; [exact A1|congruence]. }
    destruct BT as ([S0 S1 S2 S3 S4] & U & F). split; [constructor; assumption|]. split; [reflexivity|exact F]. }
  assert (AP : (forall n, e_alloc E n = true) -> forall c1, pfm_at (y_host Y) (Some k) br sk w h [] c1 fs -> (pf_consumed c1 = false \/ off <> 0) ->
     exists c' wd', (let '(buf, wd) := alloc (e_alloc E) wd in
        if negb false && (match buf with None => true | _ => false end) then Ok (false, RDENOMEM, [], c1, wd)
        else '(ret, e, calls, c) <- pfm_skip (Z.to_nat off) 0 (y_host Y) w h sz (option_map (fun _ => sz) buf) [] c1 ;;
        w <- free_opt buf wd ;;
        Ok (ret, e, calls, mkPfm (pf_blk c) (pf_file c) (pf_s c) (pf_scale c) (pf_format c) false, w)) =
       Ok (off <=? zlen fs, if off <=? zlen fs then RDEOK else en_of br, zrange 1 (Z.min off (zlen fs) + 1), c', wd') /\
       pfm_between (y_host Y) (Some k) br sk w h [] c' (skipn (Z.to_nat off) fs)).
  { intros AA c1 AT1 NZ1. pose proof (holds_alloc (e_alloc E) wd wd [] [] (holds_refl wd)) as HA.
    destruct (alloc (e_alloc E) wd) as [[b|] wd1]; [|destruct HA as (_ & HA); rewrite AA in HA; discriminate].
    cbn [negb andb]. destruct (holds_free _ _ _ _ _ HA) as (wd2 & EF & _).
    apply (FIN (Some b) wd1 wd2 c1); [right; eauto|exact EF|exact AT1|exact NZ1]. }
  assert (SKc : s_seekable (pf_s c) = sk) by (destruct AT as [([S0 _ _ _ _] & _)|(([S0 _ _ _ _] & _) & _)]; exact S0).
  assert (PK : sk = true -> s_pos (pf_s c) + 0 <= LONG_MAX).
  { intros X. assert (K : stream_ok (pf_s c)) by (destruct AT as [([_ _ _ K _] & _)|(([_ _ _ K _] & _) & _)]; exact K).
    destruct K as (_ & _ & K). specialize (K ltac:(congruence)). pose proof (zlen_nonneg (s_rest (pf_s c))). lia. }
  destruct (Z.leb_spec sz LONG_MAX) as [SL|SL].
  - unfold fseek_cur. rewrite SKc. destruct sk; cbn [negb].
    + specialize (PK eq_refl). destruct (Z.gtb_spec (s_pos (pf_s c) + 0) LONG_MAX) as [X|_]; [lia|]. cbn [negb andb].
      apply (FIN None wd wd); [left; auto|reflexivity|apply pfm_at_rewound; [reflexivity|exact AT]|exact NZ].
    + destruct AL as [(X & _)|AL]; [discriminate|]. apply AP; [exact AL| |exact NZ].
      destruct AT as [(S & U & F)|((S & IN) & U)]; [left; split|right; split; [split|exact U]].
      * destruct S; constructor; assumption.
      * split; [exact U|exact F].
      * destruct S; constructor; assumption.
      * exact IN.
  - destruct AL as [(_ & X)|AL]; [lia|]. apply AP; [exact AL|exact AT|exact NZ].
Qed.

(** ** The claim *)
Lemma pfm_open_text E Y f s little colour w h head l wd : delivers Y f s -> s_rest s = head ++ l -> pfm_head (y_host Y) little colour w h head ->
  w <= SIZE_MAX -> h <= SIZE_MAX ->
  (exists w2, pfm_open E Y f wd = Ok (None, 0, 0, RDENOMEM, w2) /\ exists k, e_alloc E k = false) \/
  (exists blk fl v w2, announces little v /\ pfm_open E Y f wd = Ok (Some (mkPfm blk fl (with_rest s l) v (pfm_letter colour) true), w, h, RDEOK, w2)).
Proof.
  intros D R HD W H. unfold pfm_open, alloc. destruct (e_alloc E (w_count wd)) eqn:A; [|left; eauto].
  right. match goal with |- context [open_stream Y f ?x] => destruct (delivered Y f s x D) as (fl & w2 & ->) end.
  destruct (pfm_header_text (y_host Y) s little colour w h head l R HD W H) as (v & V1 & V2 & ->). cbn [bind].
  eexists _, _, v, _. split; [split; assumption|reflexivity].
Qed.

Definition pfm_between_inv (H : host) (k br sk : bool) (w h : Z) (i : rdimage) (fs : list (list f32)) : Prop :=
  im_width i = w /\ im_height i = h /\ sane w h /\ exists c, im_ctx i = CPfm c /\ pfm_between H (Some k) br sk w h [] c fs.

Lemma pfm_film R E Y f want wd s w h fs :
  config_ok (e_cfg E) = true -> system_ok Y -> r_pfm R = true -> delivers Y f s ->
  forall kind, pfm_frames (y_host Y) kind w h [] fs (s_rest s) -> fs <> [] -> 1 <= w <= SIZE_MAX -> 1 <= h <= SIZE_MAX ->
  opens_as E w h (within E w h 1) (fun i => (exists i', frames Y i fs (end_of s) i') /\
      (kind <> None -> w * h * 12 <= SIZE_MAX -> (s_seekable s = true \/ forall n, e_alloc E n = true) ->
       forall cs, Forall (proper w h) cs -> moves cs -> screens E Y (end_of s) i fs cs))
    (resdet_open_image_with_reader R E Y (Some f) (Some "PFM"%string) true want wd).
Proof.
  intros CF SY RP DL kind FR NE W H. destruct fs as [|vs fs]; [elim NE; reflexivity|]. clear NE.
  remember (s_rest s) as whole eqn:RS. inversion FR as [|colour vs0 fs0 lf l' KK (little & head & data & HD & PB & ->) FR' Q1 Q2]; subst vs0 fs0.
  rewrite RS in Q2. symmetry in Q2. rewrite <- app_assoc in Q2. clear RS.
  apply (open_native E R Y f want wd RPfm w h); try assumption; try lia; try exact I; try tauto.
  { unfold resdet_image_readers, when. rewrite RP. apply in_or_app. right. left. reflexivity. }
  intros w1. cbn [reader_open]. destruct (pfm_open_text E Y f s little colour w h head (data ++ l') w1 DL Q2 HD) as [(w2 & -> & A)|(blk & fl & v & w2 & A & ->)]; try lia; cbn [map_open bind option_map].
  { eexists _, _, _, _, _. split; [reflexivity|]. left. auto. }
  eexists _, _, _, _, _. split; [reflexivity|]. right. right. split; [reflexivity|]. split; [reflexivity|]. split; [reflexivity|]. split; [tauto|].
  intros ctx Q sz b (D & _). inversion Q; subst ctx. clear Q. cbn [im_width im_height] in D.
  set (c := mkPfm blk fl (with_rest s (data ++ l')) v (pfm_letter colour) true).
  destruct DL as (D1 & D2 & _).
  assert (AT : pfm_at (y_host Y) kind (s_broken s) (s_seekable s) w h [] c (vs :: fs)).
  { right. split; [|reflexivity]. split.
    - constructor; unfold c; cbn [pf_s pf_format with_rest s_seekable s_broken s_eof]; try reflexivity; [intros _; exact D1| |].
      + apply (later_ok_rest _ head); assumption.
      + intros k Q. rewrite (KK k Q). reflexivity.
    - exists little, colour, vs, fs, data, l'. split; [reflexivity|]. split; [exact A|]. split; [reflexivity|]. split; [exact PB|]. split; [reflexivity|exact FR']. }
  split.
  - apply (film_frames Y (end_of s) w h (pfm_inv (y_host Y) kind (s_broken s) (s_seekable s) w h [])).
    + apply pfm_inv_size.
    + apply pfm_inv_read.
    + apply pfm_inv_end.
    + split; [reflexivity|]. split; [reflexivity|]. split; [exact D|]. eexists. split; [reflexivity|]. exact AT.
  - intros KD BG AL cs PC MV. destruct kind as [k|]; [|elim KD; reflexivity]. clear KD. assert (colour = k) by (apply KK; reflexivity). subst colour. clear KK.
    assert (AL' : s_seekable s = true /\ Z.of_nat (pfm_size w h (pfm_letter k)) <= LONG_MAX \/ forall n, e_alloc E n = true).
    { destruct AL as [AL|AL]; [left; split; [exact AL|]|right; exact AL]. destruct D2 as (_ & P0 & D2). specialize (D2 AL). rewrite Q2, !zlen_app in D2.
      destruct (plane_text (y_host Y) little k v w h vs data [] A PB) as (_ & L); [lia|lia|]. rewrite <- L.
      pose proof (zlen_nonneg head). pose proof (zlen_nonneg l'). fold (zlen data). lia. }
    assert (SCR : forall cs fs i, pfm_between_inv (y_host Y) k (s_broken s) (s_seekable s) w h i fs -> Forall (proper w h) cs -> screens E Y (end_of s) i fs cs).
    { intros cs0 fs0 i0. apply film_screens.
      - intros i1 f1 (X1 & X2 & _). auto.
      - intros i1 f1 fs1 (X1 & X2 & X3 & c1 & X4 & X5). destruct i1 as [b1 ctx1 w0 h0]. cbn [im_width im_height im_ctx] in *. subst w0 h0 ctx1.
        destruct (pfm_read_text Y (Some k) _ _ w h [] c1 f1 fs1 b1 D (or_introl X5)) as (c2 & G & BT). eexists. split; [exact G|].
        split; [reflexivity|]. split; [reflexivity|]. split; [exact D|]. exists c2. split; [reflexivity|exact BT].
      - intros i1 (X1 & X2 & X3 & c1 & X4 & X5). destruct i1 as [b1 ctx1 w0 h0]. cbn [im_width im_height im_ctx] in *. subst w0 h0 ctx1.
        destruct (pfm_next_end _ _ _ _ _ _ _ (or_introl X5)) as (c2 & NH & BT). exists (mkImage b1 (CPfm c2) w h). split.
        + split; [reflexivity|]. split; [reflexivity|]. split; [exact D|]. exists c2. split; [reflexivity|exact BT].
        + intros buf _. cbn [resdet_read_image_frame im_ctx reader_read im_width im_height im_blk]. unfold pfm_read. rewrite NH. reflexivity.
      - intros i1 fs1 off wd1 (X1 & X2 & X3 & c1 & X4 & X5) OF. destruct i1 as [b1 ctx1 w0 h0]. cbn [im_width im_height im_ctx] in *. subst w0 h0 ctx1.
        destruct (pfm_seek_text E Y k _ _ w h c1 fs1 off wd1 D BG AL' (or_introl X5)) as (c2 & wd2 & ES & BT); [left; apply X5|exact OF|].
        cbn [resdet_seek_frame im_ctx reader_seek im_width im_height im_blk]. rewrite ES. cbn [bind]. eexists _, _. split; [reflexivity|].
        split; [reflexivity|]. split; [reflexivity|]. split; [exact D|]. exists c2. split; [reflexivity|exact BT]. }
    destruct cs as [|c0 cs]; [intros wd1; exists (Some (mkImage b (CPfm c) w h)), wd1; reflexivity|]. inversion_clear PC as [|? ? (P1 & P2) PC'].
    intros wd1. cbn [do_image_calls screening]. destruct c0 as [[buf|]|off]; cbn [moves] in MV; [|contradiction|].
    + destruct (pfm_read_text Y (Some k) _ _ w h [] c vs fs b D AT) as (c2 & G & BT). destruct (G buf P1) as (buf' & Q & L & F).
      destruct (F eq_refl) as (Lf & ->). cbn [do_image_call]. rewrite Q. cbn [bind shown].
      destruct (SCR cs fs (mkImage b (CPfm c2) w h)) with (wd := wd1) as (i3 & wd3 & E3); [|exact PC'|].
      { split; [reflexivity|]. split; [reflexivity|]. split; [exact D|]. exists c2. split; [reflexivity|exact BT]. }
      rewrite E3. cbn [bind im_width im_height] in *. rewrite <- Lf, Nat2Z.id. eexists _, _. reflexivity.
    + destruct (pfm_seek_text E Y k _ _ w h c (vs :: fs) off wd1 D BG AL' AT) as (c2 & wd2 & ES & BT); [right; exact MV|apply P2; reflexivity|].
      cbn [do_image_call resdet_seek_frame im_ctx reader_seek im_width im_height im_blk]. rewrite ES. cbn [bind shown].
      destruct (SCR cs (skipn (Z.to_nat off) (vs :: fs)) (mkImage b (CPfm c2) w h)) with (wd := wd2) as (i3 & wd3 & E3); [|exact PC'|].
      { split; [reflexivity|]. split; [reflexivity|]. split; [exact D|]. exists c2. split; [reflexivity|exact BT]. }
      rewrite E3. cbn [bind]. eexists _, _. reflexivity.
Qed.

(** ** Files that end inside the samples of a frame *)
Definition pixel_size (colour : bool) : Z := if colour then 12 else 4.
Lemma pfm_cut R E Y f want wd s w h fs little colour head part :
  config_ok (e_cfg E) = true -> system_ok Y -> r_pfm R = true -> delivers Y f s ->
  pfm_frames (y_host Y) None w h (head ++ part) fs (s_rest s) -> pfm_head (y_host Y) little colour w h head ->
  zlen part < w * h * pixel_size colour -> 1 <= w <= SIZE_MAX -> 1 <= h <= SIZE_MAX ->
  opens_as E w h (within E w h 1) (fun i => exists i', frames Y i fs RDEINVAL i')
    (resdet_open_image_with_reader R E Y (Some f) (Some "PFM"%string) true want wd).
Proof.
  intros CF SY RP DL FR HD SH W H.
  set (Inv := fun i fs => exists blk c, i = mkImage blk (CPfm c) w h /\ sane w h /\
    (pfm_at (y_host Y) None (s_broken s) (s_seekable s) w h (head ++ part) c fs \/
     (fs = [] /\ pf_consumed c = true /\ pf_format c = pfm_letter colour /\ s_rest (pf_s c) = part))).
  assert (FI : forall fs i, Inv i fs -> exists i', frames Y i fs RDEINVAL i').
  { apply frames_until.
    - intros i f0 fs0 (blk & c & -> & D & [AT|(Q & _)]); [|discriminate].
      destruct (pfm_read_text Y None _ _ w h _ c f0 fs0 blk D AT) as (c' & G & BT). eexists. split; [exact G|].
      exists blk, c'. split; [reflexivity|]. split; [exact D|]. left. left. exact BT.
    - intros i (blk & c & -> & D & AT).
      assert (X : exists c1, pfm_next_header (y_host Y) c w h = Ok (true, RDEOK, c1) /\ pf_format c1 = pfm_letter colour /\ s_rest (pf_s c1) = part).
      { destruct AT as [[(S & U & F)|((_ & ? & ? & ? & ? & ? & ? & Q & _) & _)]|(_ & U & F & RR)]; [|discriminate|].
        - assert (Q : s_rest (pf_s c) = head ++ part) by (inversion F; congruence). destruct (pfm_next_text (y_host Y) c w h little colour head part U Q HD) as (v & _ & _ & ->); [lia|lia|].
          eexists. split; [reflexivity|]. split; reflexivity.
        - exists c. unfold pfm_next_header. rewrite U. auto. }
      destruct X as (c1 & NH & F1 & R1). pose proof (pfm_read_full (y_host Y) c w h true RDEOK c1 D NH) as F. cbv zeta in F. cbn [negb] in F.
      assert (N : (pfm_size w h (pf_format c1) <=? length (s_rest (pf_s c1)))%nat = false).
      { apply Nat.leb_gt. rewrite F1, R1. unfold pfm_size, pfm_bytes. unfold zlen in SH. clear -SH W H.
        apply Nat2Z.inj_lt. rewrite !Nat2Z.inj_mul, !Z2Nat.id by lia. destruct colour; cbn [pixel_size pfm_letter] in *;
          [change (70 =? 102) with false|change (102 =? 102) with true]; cbv iota; cbn [Z.of_nat Pos.of_succ_nat Pos.succ]; lia. }
      rewrite N in F. eexists _, _. apply steady_gives, reader_steady_pfm. exact F. }
  apply (open_native E R Y f want wd RPfm w h); try assumption; try lia; try exact I; try tauto.
  { unfold resdet_image_readers, when. rewrite RP. apply in_or_app. right. left. reflexivity. }
  intros w1. cbn [reader_open].
  assert (X : exists little0 colour0 head0 l0, pfm_head (y_host Y) little0 colour0 w h head0 /\ s_rest s = head0 ++ l0 /\
     forall blk0 blk fl v, sane w h -> announces little0 v -> Inv (mkImage blk0 (CPfm (mkPfm blk fl (with_rest s l0) v (pfm_letter colour0) true)) w h) fs).
  { inversion FR as [Q1 Q2|colour0 vs fs0 lf l' KK (little0 & head0 & data & HD0 & PB & ->) FR' Q1 Q2].
    - exists little, colour, head, part. split; [exact HD|]. split; [reflexivity|]. intros blk0 blk fl v D A.
      eexists _, _. split; [reflexivity|]. split; [exact D|]. right. auto.
    - exists little0, colour0, head0, (data ++ l'). rewrite <- app_assoc in Q2. split; [exact HD0|]. split; [rewrite <- app_assoc; reflexivity|]. intros blk0 blk fl v D A.
      eexists _, _. split; [reflexivity|]. split; [exact D|]. left. right. split; [|reflexivity]. split.
      + destruct DL as (D1 & D2 & _). constructor; cbn [pf_s pf_format with_rest s_seekable s_broken s_eof]; try reflexivity; [intros _; exact D1| |discriminate].
        apply (later_ok_rest _ head0); [|exact D2]. symmetry. exact Q2.
      + exists little0, colour0, vs, fs0, data, l'. split; [reflexivity|]. split; [exact A|]. split; [reflexivity|]. split; [exact PB|]. split; [reflexivity|exact FR']. }
  destruct X as (little0 & colour0 & head0 & l0 & HD0 & Q & IV).
  destruct (pfm_open_text E Y f s little0 colour0 w h head0 l0 w1 DL Q HD0) as [(w2 & -> & A)|(blk & fl & v & w2 & A & ->)]; try lia; cbn [map_open bind option_map].
  { eexists _, _, _, _, _. split; [reflexivity|]. left. auto. }
  eexists _, _, _, _, _. split; [reflexivity|]. right. right. split; [reflexivity|]. split; [reflexivity|]. split; [reflexivity|]. split; [tauto|].
  intros ctx Qc sz b (D & _). inversion Qc; subst ctx. cbn [im_width im_height] in D. apply FI. apply IV; assumption.
Qed.
