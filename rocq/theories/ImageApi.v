(** The image API: safety, ownership, frames, whole files. *)
From Coq Require Import Permutation.
From Verif Require Import Base BaseProofs Flt Spec Util Methods Analysis History SpecReport WorldProofs UtilProofs AnalysisProofs
  ResultsProofs ClientProofs ProgramProofs Stdio StdioProofs Pgm Pfm Y4m Image ImageHistory SpecImage ImageSafe FrameProofs.
Open Scope list_scope.
Open Scope Z_scope.

(** ** Frames *)
(** what bounds the frames to come: lowered by each frame read *)
Definition ctx_left (Y : system) (c : context) : nat :=
  match c with
  | CPgm c => if pg_eof c then 0 else 1
  | CPfm c => (if pf_consumed c then 1 else 0) + length (s_rest (pf_s c))
  | CY4m c => length (s_rest (ym_s c))
  | CExt x c => x_frames (y_ext Y x) c
  end.
Lemma left_bound Y c : (ctx_left Y c <= frames_bound Y c)%nat.
Proof. destruct c as [c|c|c|x c]; cbn; [destruct (pg_eof c)|destruct (pf_consumed c)| |]; lia. Qed.

Lemma read_frame_ok sz Y im : relaxed Y -> (forall x, ext_spec (y_ext Y x) (sz x)) -> image_ok sz im ->
  exists b e f im', gives Y im b e f im' /\ same_image sz im im' /\ (b = true -> e = RDEOK) /\
    (b = true -> (ctx_left Y (im_ctx im') < ctx_left Y (im_ctx im))%nat).
Proof.
  intros R X (D & C). destruct im as [blk ctx width height]. cbn [im_ctx im_width im_height im_blk] in *.
  destruct (reader_read_steady sz Y ctx width height R X D C) as (b & e & vs & ctx' & V & ST).
  assert (G : gives Y (mkImage blk ctx width height) b e vs (mkImage blk ctx' width height)).
  { intros buf L. cbn in L. destruct (ST buf) as (im & E1 & Z1 & F1); [unfold zlen; lia|]. exists im.
    unfold resdet_read_image_frame. cbn [im_ctx im_width im_height im_blk]. rewrite E1. cbn [bind]. split; [reflexivity|].
    split; [unfold zlen in Z1; lia|]. intros Hb. split; [specialize (V Hb); unfold zlen in V; exact V|apply F1; exact Hb]. }
  exists b, e, vs, (mkImage blk ctx' width height). split; [exact G|].
  set (buf := repeat (@None f32) (Z.to_nat (width * height))).
  assert (ZB : width * height <= zlen buf) by (unfold zlen, buf; rewrite repeat_length; lia).
  destruct (ST buf ZB) as (im & E1 & Z1 & _). clear ST G V.
  unfold same_image, image_ok, image_blocks, image_files. cbn [im_ctx im_width im_height im_blk].
  destruct ctx as [c|c|c|x c]; cbn [reader_read ctx_ok] in *.
  - destruct (pgm_read_ok c buf width height C D ZB) as (b1 & e1 & im1 & c1 & E2 & K1 & _ & OKE & B1 & F1 & _). rewrite E2 in E1.
    cbn [bind] in E1. inversion E1; subst. cbn [ctx_ok ctx_blocks ctx_files ctx_left]. rewrite B1, F1.
    split; [split; [split; [exact D|exact K1]|auto]|]. split; [exact OKE|]. intros ->.
    revert E2. unfold pgm_read. destruct (pg_eof c); [discriminate|]. intros Q. apply bind_ok in Q. destruct Q as ([[b2 im2] s2] & _ & Q). destruct b2; inversion Q; subst; cbn; lia.
  - destruct (pfm_read_ok (y_host Y) c buf width height R C D ZB) as (b1 & e1 & im1 & c1 & E2 & (K1 & B1 & F1 & L1) & _ & OKE & T). rewrite E2 in E1.
    cbn [bind] in E1. inversion E1; subst. cbn [ctx_ok ctx_blocks ctx_files ctx_left]. rewrite B1, F1.
    split; [split; [split; [exact D|exact K1]|auto]|]. split; [exact OKE|]. intros ->. destruct (T eq_refl) as (T1 & T2). rewrite T1.
    destruct (pf_consumed c); [|specialize (T2 eq_refl); lia]. apply later_len in L1. lia.
  - destruct (y4m_read_ok (y_host Y) c buf width height C D ZB) as (b1 & e1 & im1 & c1 & E2 & (K1 & B1 & F1 & BB & L1) & _ & OKE & T). rewrite E2 in E1.
    cbn [bind] in E1. inversion E1; subst. cbn [ctx_ok ctx_blocks ctx_files ctx_left].
    split; [split; [split; [exact D|exact K1]|]|]. { unfold y4m_blocks. rewrite B1, F1, BB. auto. } split; [exact OKE|exact T].
  - destruct (X x) as (_ & _ & X3 & _). destruct (x_read (y_ext Y x) c) as [[[b1 e1] l] c'] eqn:Q.
    destruct (X3 _ _ _ _ _ Q) as (A & B & T). destruct (store buf 0 l) as [im1|]; [|discriminate]. cbn [bind] in E1. inversion E1; subst.
    cbn [ctx_ok ctx_blocks ctx_files ctx_left]. split; [split; [split; [exact D|congruence]|auto]|].
    split; intros Hb; apply T; exact Hb.
Qed.

Lemma all_frames sz Y : relaxed Y -> (forall x, ext_spec (y_ext Y x) (sz x)) -> forall n im, image_ok sz im ->
  (ctx_left Y (im_ctx im) <= n)%nat ->
  exists fs e im', frames Y im fs e im' /\ same_image sz im im' /\ (length fs <= n)%nat.
Proof.
  intros R X. induction n as [|n IH]; intros im K L;
    destruct (read_frame_ok sz Y im R X K) as (b & e & f & im1 & G & S & OKE & LT); destruct b.
  - specialize (LT eq_refl). lia.
  - exists [], e, im1. split; [apply frames_none with f; exact G|]. split; [exact S|cbn; lia].
  - rewrite (OKE eq_refl) in G. destruct (IH im1 (proj1 S)) as (fs & e2 & im2 & F & S2 & L2); [specialize (LT eq_refl); lia|].
    exists (f :: fs), e2, im2. split; [eapply frames_one; eassumption|]. split; [eapply same_image_trans; eassumption|cbn; lia].
  - exists [], e, im1. split; [apply frames_none with f; exact G|]. split; [exact S|cbn; lia].
Qed.

(** ** Seeking *)
Lemma reader_seek_ok sz E Y ctx offset width height w w0 bs fs : relaxed Y -> (forall x, ext_spec (y_ext Y x) (sz x)) ->
  sane width height -> ctx_ok sz width height ctx -> holds w w0 bs fs ->
  exists b e calls ctx' w', reader_seek E Y ctx offset width height w = Ok (b, e, calls, ctx', w') /\
    ctx_ok sz width height ctx' /\ ctx_blocks ctx' = ctx_blocks ctx /\ ctx_files ctx' = ctx_files ctx /\ holds w' w0 bs fs.
Proof.
  intros R X D C HW. destruct ctx as [c|c|c|x c]; cbn [reader_seek ctx_ok] in *.
  - unfold pgm_seek. destruct (_ && _); (eexists _, _, _, _, _; split; [reflexivity|]; split; [exact C|]; auto).
  - destruct (pfm_seek_ok E Y c offset width height w w0 bs fs R C HW) as (b & e & calls & c' & w' & -> & (K & B & F & _) & _ & H').
    cbn [bind]. eexists _, _, _, _, _. split; [reflexivity|]. split; [exact K|]. cbn. rewrite B, F. auto.
  - destruct (y4m_skip_ok width height D (Z.to_nat offset) 0 [] c C) as (b & e & calls & c' & Q & (K & B & F & BB & _) & _).
    unfold y4m_seek. rewrite Q. cbn [bind]. eexists _, _, _, _, _. split; [reflexivity|]. split; [exact K|]. cbn. unfold y4m_blocks. rewrite B, F, BB. auto.
  - destruct (X x) as (_ & _ & _ & X4). destruct (x_seek (y_ext Y x) c offset) as [[[b e] calls] c'] eqn:Q.
    eexists _, _, _, _, _. split; [reflexivity|]. split; [cbn; rewrite (X4 _ _ _ _ _ _ Q); exact C|]. auto.
Qed.

Lemma close_image_ok sz im w w0 bs fs : image_ok sz im -> holds w w0 (image_blocks im ++ bs) (image_files im ++ fs) ->
  exists w', resdet_close_image (Some im) w = Ok w' /\ holds w' w0 bs fs.
Proof.
  intros _ H. unfold image_blocks, image_files in H. rewrite <- app_assoc in H. unfold resdet_close_image.
  destruct (reader_close_ok _ _ _ _ _ H) as (w1 & -> & H1). cbn [bind]. apply holds_free. exact H1.
Qed.

(** ** Client programs *)
Lemma image_calls_ok sz E Y : relaxed Y -> (forall x, ext_spec (y_ext Y x) (sz x)) -> forall cs im w w0 bs fs,
  image_ok sz im -> Forall (image_call_ok (im_width im) (im_height im)) cs -> holds w w0 bs fs ->
  exists rs im' w', do_image_calls E Y cs (Some im) w = Ok (rs, Some im', w') /\ same_image sz im im' /\ holds w' w0 bs fs /\
    Forall2 image_reply_ok cs rs.
Proof.
  intros R X. induction cs as [|c cs IH]; intros im w w0 bs fs K F H.
  { eexists _, _, _. split; [reflexivity|]. split; [apply same_image_refl; exact K|]. split; [exact H|constructor]. }
  inversion F as [|? ? F1 F2]; subst. cbn [do_image_calls].
  assert (Q : exists r im1 w1, do_image_call E Y c (Some im) w = Ok (r, Some im1, w1) /\ same_image sz im im1 /\ holds w1 w0 bs fs /\ image_reply_ok c r).
  { destruct c as [[buf|]|k]; cbn [do_image_call].
    - destruct (read_frame_ok sz Y im R X K) as (b & e & f & im1 & G & S & OKE & _). cbn in F1.
      destruct (G buf F1) as (buf' & -> & L & _). cbn [bind]. eexists _, _, _. split; [reflexivity|]. split; [exact S|]. split; [exact H|].
      split; [exact OKE|]. cbn. rewrite L. reflexivity.
    - cbn. eexists _, _, _. split; [reflexivity|]. split; [apply same_image_refl; exact K|]. split; [exact H|]. split; [discriminate|reflexivity].
    - unfold resdet_seek_frame. destruct K as (D & C). destruct (reader_seek_ok sz E Y (im_ctx im) k _ _ w w0 bs fs R X D C H) as (b & e & calls & ctx & w1 & -> & C1 & B1 & FF & H1).
      cbn [bind]. eexists _, _, _. split; [reflexivity|]. split; [|split; [exact H1|exact I]].
      split; [split; [exact D|exact C1]|]. unfold image_blocks, image_files. cbn. rewrite B1, FF. auto. }
  destruct Q as (r & im1 & w1 & -> & S1 & H1 & RO). cbn [bind].
  destruct (IH im1 w1 w0 bs fs (proj1 S1)) as (rs & im2 & w2 & -> & S2 & H2 & RS).
  { destruct S1 as (_ & _ & _ & -> & ->). exact F2. } { exact H1. }
  cbn [bind]. eexists _, _, _. split; [reflexivity|]. split; [eapply same_image_trans; eassumption|]. split; [exact H2|]. constructor; assumption.
Qed.
Lemma null_calls_ok E Y : forall cs w,
  exists rs, do_image_calls E Y cs None w = Ok (rs, None, w) /\ Forall2 image_reply_ok cs rs.
Proof.
  induction cs as [|c cs IH]; intros w; [exists []; split; [reflexivity|constructor]|].
  cbn [do_image_calls]. destruct (IH w) as (rs & Q & F).
  assert (R : exists r, do_image_call E Y c None w = Ok (r, None, w) /\ image_reply_ok c r).
  { destruct c as [[buf|]|k]; (eexists; split; [reflexivity|]); [split; [discriminate|reflexivity]|split; [discriminate|reflexivity]|exact I]. }
  destruct R as (r & -> & RO). cbn [bind]. rewrite Q. cbn [bind]. eexists. split; [reflexivity|]. constructor; assumption.
Qed.

Lemma image_program_ok R E Y filename o ptrs want w : config_ok (e_cfg E) = true -> system_ok Y -> relaxed Y ->
  exists im width height buf e w1, open_by R E Y filename o ptrs want w = Ok (im, width, height, buf, e, w1) /\
  forall cs, Forall (image_call_ok width height) cs ->
  exists rs w', image_program R E Y filename o ptrs want cs w = Ok ((im, width, height, buf, e, w1), rs, w') /\
    holds w' w (buffer_blocks buf) [] /\ Forall2 image_reply_ok cs rs.
Proof.
  intros CF S RX. destruct (ext_sizes Y S) as (sz & X).
  destruct (open_by_ok sz R E Y filename o ptrs want w w [] [] CF S RX X (holds_refl w)) as ([[[[[im width] height] buf] e] w1] & EQ & O).
  exists im, width, height, buf, e, w1. split; [exact EQ|]. intros cs F. unfold image_program. rewrite EQ. cbn [bind].
  destruct O as [(_ & i & -> & W & H & K & _ & _ & O)|(_ & -> & -> & -> & -> & O)].
  - subst. assert (HH : holds w1 w (image_blocks i ++ buffer_blocks buf) (image_files i ++ [])).
    { destruct want.
      - destruct O as (b & -> & O). rewrite app_nil_r in O. eapply holds_perm; [exact O|]. cbn. apply Permutation_cons_append.
      - destruct O as (-> & O). exact O. }
    destruct (image_calls_ok sz E Y RX X cs i w1 w _ _ K F HH) as (rs & im' & w2 & -> & S2 & H2 & RS). cbn [bind].
    assert (H3 : holds w2 w (image_blocks im' ++ buffer_blocks buf) (image_files im' ++ [])) by (destruct S2 as (_ & -> & -> & _); exact H2).
    destruct (close_image_ok sz im' w2 w _ _ (proj1 S2) H3) as (w3 & -> & H4). cbn [bind].
    eexists _, _. split; [reflexivity|]. split; [exact H4|exact RS].
  - destruct (null_calls_ok E Y cs w1) as (rs & -> & RS). cbn [bind resdet_close_image]. eexists _, _. split; [reflexivity|]. split; [exact O|exact RS].
Qed.
