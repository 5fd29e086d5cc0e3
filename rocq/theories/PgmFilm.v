(** PGM files. *)
From Coq Require Import Reals Lra.
From Flocq Require Import Core IEEE754.Binary IEEE754.Bits.
From Verif Require Import Base BaseProofs Flt FltProofs FilterProofs Util Methods Analysis Spec WorldProofs UtilProofs
  Stdio StdioProofs Pgm Pfm Y4m Image ImageHistory ImageSafe FrameProofs Relax SpecImage SelectProofs SpecFormats ScanProofs FilmProofs.
Open Scope list_scope.
Open Scope Z_scope.

Lemma quotient_div a b : 0 <= a < 2^24 -> 1 <= b < 2^24 -> quotient a b (fdiv (f32_of_Z a) (f32_of_Z b)).
Proof.
  intros A B.
  assert (B0 : (0 < IZR b)%R) by (apply IZR_lt; lia).
  destruct (fdiv_val (f32_of_Z a) (f32_of_Z b) (IZR a) (IZR b)) as (F & SG & V).
  - apply f32_of_Z_exact. exact A.
  - apply f32_of_Z_exact. lia.
  - exact B0.
  - apply Rle_trans with (IZR a).
    + apply Rmult_le_reg_r with (IZR b); [exact B0|]. unfold Rdiv. rewrite Rmult_assoc, Rinv_l, Rmult_1_r by lra.
      rewrite <- (Rmult_1_r (IZR a)) at 1. apply Rmult_le_compat_l; [apply IZR_le; lia|apply IZR_le; lia].
    + apply Rle_trans with (IZR (2^24)); [apply IZR_le; lia|]. change (IZR (2^24)) with (IZR (Zpower radix2 24)). rewrite IZR_Zpower by lia. apply bpow_le. lia.
  - split; [exact F|]. split; [exact SG|exact V].
Qed.

(** the stream behind the name *)
Lemma delivered Y f s w : delivers Y f s -> exists h w', open_stream Y f w = (inl (h, s), w').
Proof.
  intros (_ & _ & A & B). unfold open_stream. destruct (String.eqb_spec f "-") as [Q|Q].
  - rewrite (A Q). eauto.
  - rewrite (B Q). destruct (open_file w). eauto.
Qed.

Lemma pgm_open_text E Y f s w h m head l wd : delivers Y f s -> s_rest s = head ++ l -> pgm_head w h m head ->
  w <= SIZE_MAX -> h <= SIZE_MAX -> m <= 255 ->
  (exists w2, pgm_open E Y f wd = Ok (None, 0, 0, RDENOMEM, w2) /\ exists k, e_alloc E k = false) \/
  (exists blk fl w2, pgm_open E Y f wd = Ok (Some (mkPgm blk fl (with_rest s l) false m), w, h, RDEOK, w2)).
Proof.
  intros D R HD W H M. unfold pgm_open, alloc. destruct (e_alloc E (w_count wd)) eqn:A; [|left; eauto].
  right. match goal with |- context [open_stream Y f ?x] => destruct (delivered Y f s x D) as (fl & w2 & ->) end.
  rewrite (pgm_header_text (y_host Y) s w h m head l R HD W H M). cbn [bind]. eauto.
Qed.

(** the frame still to come, if any *)
Definition pgm_inv (w h : Z) (vs : list f32) (i : rdimage) (fs : list (list f32)) : Prop :=
  im_width i = w /\ im_height i = h /\ sane w h /\ exists c, im_ctx i = CPgm c /\
  ((pg_eof c = true /\ fs = []) \/
   (pg_eof c = false /\ fs = [vs] /\ (Z.to_nat (w * h) <= length (s_rest (pg_s c)))%nat /\
    vs = map (pgm_value (pg_depth c)) (firstn (Z.to_nat (w * h)) (s_rest (pg_s c))))).
Lemma reader_steady_pgm Y c w h b e vs c' : steady (w * h) (fun image => pgm_read c image w h) b e vs c' ->
  steady (w * h) (fun image => reader_read Y (CPgm c) image w h) b e vs (CPgm c').
Proof.
  intros (L & S). split; [exact L|]. intros image Z. destruct (S image Z) as (im & Q & R). exists im. cbn [reader_read]. rewrite Q. cbn [bind]. auto.
Qed.

Lemma pgm_inv_size w h vs i fs : pgm_inv w h vs i fs -> im_width i = w /\ im_height i = h.
Proof. intros (A & B & _). auto. Qed.
Lemma pgm_inv_read Y w h vs i f fs : pgm_inv w h vs i (f :: fs) -> exists i', gives Y i true RDEOK f i' /\ pgm_inv w h vs i' fs.
Proof.
  intros (A & B & D & c & C & [(_ & Q)|(EF & Q & L & V)]); [discriminate|]. inversion Q; subst f fs. clear Q.
  destruct i as [blk ctx w0 h0]. cbn [im_width im_height im_ctx] in *. subst w0 h0 ctx.
  pose proof (pgm_read_full c w h D) as F. cbv zeta in F. rewrite EF in F. apply Nat.leb_le in L. rewrite L in F. rewrite <- V in F.
  eexists. split; [apply steady_gives; apply reader_steady_pgm; exact F|].
  split; [reflexivity|]. split; [reflexivity|]. split; [exact D|]. eexists. split; [reflexivity|]. left. auto.
Qed.
Lemma pgm_inv_end Y w h vs i : pgm_inv w h vs i [] -> exists i', pgm_inv w h vs i' [] /\
  forall buf, w * h <= zlen buf -> resdet_read_image_frame Y (Some i) (Some buf) = Ok (false, RDEOK, Some buf, Some i').
Proof.
  intros I. exists i. split; [exact I|]. destruct I as (A & B & D & c & C & [(EF & _)|(_ & Q & _)]); [|discriminate].
  intros buf _. destruct i as [blk ctx w0 h0]. cbn [im_width im_height im_ctx resdet_read_image_frame im_blk] in *. subst.
  cbn [reader_read]. unfold pgm_read. rewrite EF. reflexivity.
Qed.
Lemma pgm_inv_seek E Y w h vs i fs k wd : pgm_inv w h vs i fs -> 0 <= k -> exists i' wd',
  resdet_seek_frame E Y (Some i) k wd = Ok (k <=? zlen fs, if k <=? zlen fs then RDEOK else RDEOK, zrange 1 (Z.min k (zlen fs) + 1), Some i', wd') /\
  pgm_inv w h vs i' (skipn (Z.to_nat k) fs).
Proof.
  intros (A & B & D & c & C & S) K. destruct i as [blk ctx w0 h0]. cbn [im_width im_height im_ctx] in *. subst w0 h0 ctx.
  cbn [resdet_seek_frame im_ctx reader_seek im_width im_height im_blk]. unfold pgm_seek.
  assert (ST : forall b : bool, (if b then RDEOK else RDEOK) = RDEOK) by (intros []; reflexivity). rewrite ST.
  destruct S as [(EF & ->)|(EF & -> & L & V)]; rewrite EF; cbn [negb andb orb].
  - rewrite andb_false_r. cbn [bind]. rewrite orb_false_r. change (zlen (@nil (list f32))) with 0.
    replace (Z.min k 0 + 1) with 1 by lia. replace (k <=? 0) with (k =? 0) by lia.
    eexists _, _. split; [reflexivity|]. rewrite skipn_nil. split; [reflexivity|]. split; [reflexivity|]. split; [exact D|].
    eexists. split; [reflexivity|]. left. auto.
  - rewrite andb_true_r. change (zlen [vs]) with 1. destruct (Z.eqb_spec k 0) as [->|NK].
    + cbn [negb orb bind]. eexists _, _. split; [reflexivity|]. split; [reflexivity|]. split; [reflexivity|]. split; [exact D|].
      eexists. split; [reflexivity|]. right. auto.
    + cbn [negb orb bind]. replace (Z.min k 1 + 1) with 2 by lia. replace (k <=? 1) with (negb (k >? 1)) by lia.
      eexists _, _. split; [reflexivity|].
      replace (skipn (Z.to_nat k) [vs]) with (@nil (list f32)) by (destruct (Z.to_nat k) as [|n] eqn:N; [lia|cbn; rewrite skipn_nil; reflexivity]).
      split; [reflexivity|]. split; [reflexivity|]. split; [exact D|]. eexists. split; [reflexivity|]. left. auto.
Qed.

Lemma firstn_exact {A} (l l' : list A) n : zlen l = n -> firstn (Z.to_nat n) (l ++ l') = l.
Proof. intros Q. replace (Z.to_nat n) with (length l) by (unfold zlen in Q; lia). apply firstn_app_len. Qed.

Lemma pgm_film R E Y f want wd s w h m head samples tail :
  config_ok (e_cfg E) = true -> system_ok Y -> r_pgm R = true -> delivers Y f s -> s_rest s = head ++ samples ++ tail ->
  pgm_head w h m head -> 1 <= w <= SIZE_MAX -> 1 <= h <= SIZE_MAX -> 1 <= m <= 255 -> zlen samples = w * h ->
  exists vs, Forall2 (fun c v => quotient c m v) samples vs /\
  opens_as E w h (within E w h 1) (fun i => (exists i', frames Y i [vs] RDEOK i') /\ (forall cs, Forall (proper w h) cs -> screens E Y RDEOK i [vs] cs))
    (resdet_open_image_with_reader R E Y (Some f) (Some "PGM"%string) true want wd).
Proof.
  intros CF SY RP DL RS HD W H M LS. exists (map (pgm_value m) samples). split.
  - assert (BY : Forall byte_ok samples).
    { destruct DL as (_ & (B & _) & _). rewrite RS in B. apply Forall_app in B. destruct B as (_ & B). apply Forall_app in B. apply B. }
    clear -BY M. induction BY as [|c l C _ IH]; constructor; [|exact IH]. apply quotient_div; unfold byte_ok in C; lia.
  - apply (open_native E R Y f want wd RPgm w h); try assumption; try lia; try exact I.
    + unfold resdet_image_readers, when. rewrite RP. left. reflexivity.
    + tauto.
    + intros w1. cbn [reader_open]. destruct (pgm_open_text E Y f s w h m head (samples ++ tail) w1 DL RS HD) as [(w2 & -> & A)|(blk & fl & w2 & ->)]; try lia; cbn [map_open bind option_map].
      * eexists _, _, _, _, _. split; [reflexivity|]. left. auto.
      * eexists _, _, _, _, _. split; [reflexivity|]. right. right. split; [reflexivity|]. split; [reflexivity|]. split; [reflexivity|]. split; [tauto|].
        intros ctx Q sz b (D & _). inversion Q; subst ctx. cbn [im_width im_height] in D.
        assert (IV : pgm_inv w h (map (pgm_value m) samples) (mkImage b (CPgm (mkPgm blk fl (with_rest s (samples ++ tail)) false m)) w h) [map (pgm_value m) samples]).
        { split; [reflexivity|]. split; [reflexivity|]. split; [exact D|]. eexists. split; [reflexivity|]. right. cbn [pg_eof pg_s s_rest with_rest pg_depth].
          split; [reflexivity|]. split; [reflexivity|]. split; [rewrite app_length; unfold zlen in LS; lia|]. rewrite (firstn_exact _ _ _ LS). reflexivity. }
        split.
        -- exact (film_frames Y RDEOK w h _ (pgm_inv_size w h _) (pgm_inv_read Y w h _) (pgm_inv_end Y w h _) _ _ IV).
        -- intros cs PC. exact (film_screens E Y RDEOK w h _ (pgm_inv_size w h _) (pgm_inv_read Y w h _) (pgm_inv_end Y w h _) (pgm_inv_seek E Y w h _) cs _ _ IV PC).
Qed.

(** too few samples *)
Lemma pgm_short R E Y f want wd s w h m head samples :
  config_ok (e_cfg E) = true -> system_ok Y -> r_pgm R = true -> delivers Y f s -> s_rest s = head ++ samples ->
  pgm_head w h m head -> 1 <= w <= SIZE_MAX -> 1 <= h <= SIZE_MAX -> 1 <= m <= 255 -> zlen samples < w * h ->
  opens_as E w h (within E w h 1) (fun i => exists i', frames Y i [] RDEINVAL i')
    (resdet_open_image_with_reader R E Y (Some f) (Some "PGM"%string) true want wd).
Proof.
  intros CF SY RP DL RS HD W H M LS. apply (open_native E R Y f want wd RPgm w h); try assumption; try lia; try exact I.
  - unfold resdet_image_readers, when. rewrite RP. left. reflexivity.
  - tauto.
  - intros w1. cbn [reader_open]. destruct (pgm_open_text E Y f s w h m head samples w1 DL RS HD) as [(w2 & -> & A)|(blk & fl & w2 & ->)]; try lia; cbn [map_open bind option_map].
    + eexists _, _, _, _, _. split; [reflexivity|]. left. auto.
    + eexists _, _, _, _, _. split; [reflexivity|]. right. right. split; [reflexivity|]. split; [reflexivity|]. split; [reflexivity|]. split; [tauto|].
      intros ctx Q sz b (D & _). inversion Q; subst ctx. cbn [im_width im_height] in D.
      pose proof (pgm_read_full (mkPgm blk fl (with_rest s samples) false m) w h D) as F. cbv zeta in F. cbn [pg_eof pg_s s_rest with_rest pg_depth] in F.
      assert (L : (Z.to_nat (w * h) <=? length samples)%nat = false) by (apply Nat.leb_gt; unfold zlen in LS; lia). rewrite L in F.
      eexists. eapply frames_none. apply steady_gives. apply reader_steady_pgm. exact F.
Qed.
