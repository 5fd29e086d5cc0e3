(** From what a reader does to what a client of an image sees. *)
From Verif Require Import Base BaseProofs Flt Util Methods Analysis Spec WorldProofs UtilProofs
  Stdio StdioProofs Pgm Pfm Y4m Image ImageHistory ImageSafe FrameProofs Relax SpecImage SelectProofs SpecFormats.
Open Scope list_scope.
Open Scope Z_scope.

(** ** Opening by the name of a native reader, on any host *)
Definition native (r : reader) : Prop := match r with RExt _ => False | _ => True end.
Lemma strieq_ascii H : forall l r, Forall (fun c => c < 128) l -> Forall (fun c => c < 128) r -> strieq_chars H l r = strieq_chars (relax H) l r.
Proof.
  assert (T : forall c, c < 128 -> tolower H c = tolower (relax H) c).
  { intros c C. unfold tolower, ctype_arg. cbn [relax h_strict h_signed andb]. destruct (Z.geb_spec c 128); [lia|]. rewrite andb_false_r. reflexivity. }
  induction l as [|c l IH]; intros [|d r] A B; try reflexivity. inversion_clear A. inversion_clear B. cbn [strieq_chars].
  rewrite (T c), (T d) by assumption. rewrite IH by assumption. reflexivity.
Qed.
Lemma by_native R E Y f want w r : In r (resdet_image_readers R) -> native r ->
  resdet_open_image_with_reader R E Y (Some f) (Some (reader_name r)) true want w = open_image E Y (Some r) f want w.
Proof.
  intros I N. apply in_split in I. destruct I as (b & a & EQ). apply (by_name_gen R E Y f _ want w b r a); [|exact EQ|reflexivity].
  intros m I. exists (if same_dec m (reader_name r) then true else false). split; [|destruct (same_dec m (reader_name r)); split; try discriminate; tauto].
  rewrite <- (strieq_same (relax (y_host Y))) by reflexivity. apply strieq_ascii.
  - rewrite names_of in I. apply in_map_iff in I. destruct I as (r' & <- & _). destruct r' as [| | |[]]; repeat (constructor; [reflexivity|]); constructor.
  - destruct r; try contradiction; repeat (constructor; [reflexivity|]); constructor.
Qed.

(** ** What became of an open *)
Lemma open_image_inv E Y r f want w im width height buf e w' : config_ok (e_cfg E) = true ->
  open_image E Y (Some r) f want w = Ok (im, width, height, buf, e, w') ->
  (e = RDENOMEM /\ im = None /\ exists k, e_alloc E k = false) \/
  exists w1 c w0 h0 e0 w2, reader_open E Y r f w1 = Ok (c, w0, h0, e0, w2) /\
    ((e0 <> RDEOK /\ e = e0 /\ im = None) \/
     (e0 = RDEOK /\ (0 <= w0 -> 0 <= h0 ->
        (e = RDETOOBIG /\ im = None /\ ~ (1 <= w0 /\ 1 <= h0 /\ within E w0 h0 1)) \/
        (e = RDEOK /\ 1 <= w0 /\ 1 <= h0 /\ within E w0 h0 1 /\ width = w0 /\ height = h0 /\
         exists blk ctx, c = Some ctx /\ im = Some (mkImage blk ctx w0 h0)) \/
        (e = RDENOMEM /\ im = None /\ exists k, e_alloc E k = false)))).
Proof.
  intros CF. unfold open_image, alloc. destruct (e_alloc E (w_count w)) eqn:A1.
  2: { intros Q. inversion Q; subst. left. eauto. }
  match goal with |- context [reader_open E Y r f ?x] => set (wa := x) end.
  match goal with |- context [free_block ?x] => set (blk := x) end.
  destruct (reader_open E Y r f wa) as [[[[[c w0] h0] e0] w2]|] eqn:O; [|discriminate]. cbn [bind].
  assert (FAIL : forall er wx, (w <- reader_close c wx ;; w <- free_block blk w ;; Ok (None, 0, 0, None, er, w)) = Ok (im, width, height, buf, e, w') -> e = er /\ im = None).
  { intros er wx. destruct (reader_close c wx); [|discriminate]. cbn [bind]. destruct (free_block blk _); [|discriminate]. cbn [bind].
    intros Q. inversion Q. auto. }
  intros Q. right. exists wa, c, w0, h0, e0, w2. split; [exact O|].
  destruct (Z.eqb_spec e0 0) as [->|NE]; cbn [negb] in Q; [|left; destruct (FAIL _ _ Q) as (-> & ->); auto].
  right. split; [reflexivity|]. intros W0 H0. unfold config_ok in CF.
  destruct (dims_limit_ok (e_cfg E) w0 h0 1 4) as (big & EB & DL); try lia. rewrite EB in Q. cbn [bind] in Q.
  unfold within. destruct big.
  { left. destruct (FAIL _ _ Q) as (-> & ->). split; [reflexivity|]. split; [reflexivity|]. intros (A & B & C1 & C2).
    assert (true = false) by (apply DL; lia). discriminate. }
  right. destruct DL as [DL _]. specialize (DL eq_refl). destruct c as [ctx|]; [|discriminate].
  assert (L : 1 <= w0 /\ 1 <= h0 /\ w0 * h0 * 1 <= c_pixel_max (e_cfg E) /\ w0 * h0 * 1 * 4 <= SIZE_MAX) by lia.
  destruct want.
  - destruct (e_alloc E (w_count w2)) eqn:A2.
    + left. inversion Q; subst. split; [reflexivity|]. split; [apply L|]. split; [apply L|]. split; [apply L|]. eauto 10.
    + right. destruct (FAIL _ _ Q) as (-> & ->). eauto.
  - left. inversion Q; subst. split; [reflexivity|]. split; [apply L|]. split; [apply L|]. split; [apply L|]. eauto 10.
Qed.

Lemma open_native E R Y f want wd r w h (limit : Prop) (P : rdimage -> Prop) :
  config_ok (e_cfg E) = true -> system_ok Y -> In r (resdet_image_readers R) -> native r -> 1 <= w -> 1 <= h ->
  (limit -> within E w h 1) ->
  (forall w1, exists c w0 h0 e0 w2, reader_open E Y r f w1 = Ok (c, w0, h0, e0, w2) /\
     ((e0 = RDENOMEM /\ exists k, e_alloc E k = false) \/ (e0 = RDETOOBIG /\ ~ limit) \/
      (e0 = RDEOK /\ w0 = w /\ h0 = h /\ (within E w h 1 -> limit) /\
       forall ctx, c = Some ctx -> forall sz blk, image_ok sz (mkImage blk ctx w h) -> P (mkImage blk ctx w h)))) ->
  opens_as E w h limit P (resdet_open_image_with_reader R E Y (Some f) (Some (reader_name r)) true want wd).
Proof.
  intros CF SY I N W1 H1 LW RO. rewrite (by_native R E Y f want wd r I N).
  destruct (ext_sizes Y SY) as (sz & X).
  assert (EQ : open_image E Y (Some r) f want wd = open_image E (relax_system Y) (Some r) f want wd).
  { assert (RE : forall w1, reader_open E Y r f w1 = reader_open E (relax_system Y) r f w1).
    { intros w1. destruct (RO w1) as (c & w0 & h0 & e0 & w2 & Q & _). destruct (weak_reader_open E Y r f w1) as [D|[D|D]]; [exact D| |]; rewrite Q in D; discriminate. }
    unfold open_image. destruct (alloc (e_alloc E) wd) as [[blk|] w1]; [|reflexivity]. rewrite RE. reflexivity. }
  destruct (open_image_ok sz E (relax_system Y) (Some r) f want wd wd [] [] CF SY eq_refl X (holds_refl wd)) as (o & EO & OO).
  rewrite <- EQ in EO. destruct o as [[[[[im width] height] buf] e] w']. exists im, width, height, buf, e, w'. split; [exact EO|].
  destruct (open_image_inv E Y r f want wd im width height buf e w' CF EO) as [A|(w1 & c & w0 & h0 & e0 & w2 & Q & A)]; [left; exact A|].
  destruct (RO w1) as (c' & w0' & h0' & e0' & w2' & Q' & B). rewrite Q in Q'. inversion Q'; subst c' w0' h0' e0' w2'. clear Q'.
  destruct B as [(-> & B)|[(-> & B)|(-> & -> & -> & B1 & B2)]].
  - destruct A as [(_ & -> & ->)|(D & _)]; [left; auto|discriminate].
  - destruct A as [(_ & -> & ->)|(D & _)]; [right; left; auto|discriminate].
  - destruct A as [(D & _)|(_ & A)]; [elim D; reflexivity|].
    destruct A as [(-> & -> & A)|[(-> & _ & _ & A & -> & -> & blk & ctx & -> & ->)|A]]; [lia|lia| | |left; exact A].
    + right. left. split; [reflexivity|]. split; [reflexivity|]. intros L. apply A. auto.
    + right. right. split; [reflexivity|]. split; [reflexivity|]. split; [reflexivity|]. split; [auto|].
      eexists. split; [reflexivity|]. apply (B2 ctx eq_refl sz). cbn [open_outcome] in OO.
      destruct OO as [(_ & i & Qi & _ & _ & K & _)|(D & _)]; [inversion Qi; subst; exact K|elim D; reflexivity].
Qed.

(** ** Reads and seeks on a list of frames *)
Lemma steady_gives Y blk ctx w h b e vs ctx' : steady (w * h) (fun image => reader_read Y ctx image w h) b e vs ctx' ->
  gives Y (mkImage blk ctx w h) b e vs (mkImage blk ctx' w h).
Proof.
  intros (L & S) buf B. cbn [im_width im_height] in *. destruct (S buf B) as (buf' & Q & Z1 & Z2). exists buf'.
  cbn [resdet_read_image_frame im_ctx im_width im_height im_blk]. rewrite Q. cbn [bind]. split; [reflexivity|].
  split; [unfold zlen in Z1; lia|]. intros ->. split; [apply L; reflexivity|apply Z2; reflexivity].
Qed.

Section Film.
  Variables (E : env) (Y : system) (en : Z) (w h : Z) (Inv : rdimage -> list (list f32) -> Prop).
  Hypothesis size : forall i fs, Inv i fs -> im_width i = w /\ im_height i = h.
  Hypothesis read : forall i f fs, Inv i (f :: fs) -> exists i', gives Y i true RDEOK f i' /\ Inv i' fs.
  Hypothesis ended : forall i, Inv i [] -> exists i', Inv i' [] /\
    forall buf, w * h <= zlen buf -> resdet_read_image_frame Y (Some i) (Some buf) = Ok (false, en, Some buf, Some i').

  Lemma film_frames : forall fs i, Inv i fs -> exists i', frames Y i fs en i'.
  Proof.
    induction fs as [|f fs IH]; intros i I.
    - destruct (size _ _ I) as (S1 & S2). destruct (ended i I) as (i' & _ & R). exists i'. apply (frames_none Y i en [] i').
      intros buf B. rewrite S1, S2 in B. exists buf. split; [apply R; exact B|]. split; [reflexivity|discriminate].
    - destruct (read i f fs I) as (i1 & G & I1). destruct (IH i1 I1) as (i' & F). exists i'. exact (frames_one Y i f i1 fs en i' G F).
  Qed.

  Hypothesis seek : forall i fs k wd, Inv i fs -> 0 <= k -> exists i' wd',
    resdet_seek_frame E Y (Some i) k wd = Ok (k <=? zlen fs, if k <=? zlen fs then RDEOK else en, zrange 1 (Z.min k (zlen fs) + 1), Some i', wd') /\
    Inv i' (skipn (Z.to_nat k) fs).

  Lemma film_call i fs c wd : Inv i fs -> proper w h c -> exists i' wd',
    do_image_call E Y c (Some i) wd = Ok (fst (shown en c fs), Some i', wd') /\ Inv i' (snd (shown en c fs)).
  Proof.
    intros I (P1 & P2). destruct (size _ _ I) as (S1 & S2). destruct c as [[buf|]|k]; cbn [do_image_call shown image_call_ok] in *.
    - destruct fs as [|f fs].
      + destruct (ended i I) as (i' & I' & R). rewrite (R buf P1). cbn [bind fst snd]. eauto.
      + destruct (read i f fs I) as (i' & G & I'). unfold gives in G. rewrite S1, S2 in G. destruct (G buf P1) as (buf' & Q & L & F).
        destruct (F eq_refl) as (Lf & ->). rewrite Q. cbn [bind fst snd]. exists i', wd. split; [|exact I'].
        rewrite <- Lf, Nat2Z.id. reflexivity.
    - cbn [resdet_read_image_frame bind fst snd]. eauto.
    - destruct (seek i fs k wd I (P2 k eq_refl)) as (i' & wd' & Q & I'). rewrite Q. cbn [bind fst snd]. eauto.
  Qed.
  Lemma film_screens : forall cs fs i, Inv i fs -> Forall (proper w h) cs -> screens E Y en i fs cs.
  Proof.
    induction cs as [|c cs IH]; intros fs i I F wd; [exists (Some i), wd; reflexivity|]. inversion_clear F.
    destruct (film_call i fs c wd I) as (i' & wd' & Q & I'); [assumption|]. cbn [do_image_calls screening]. rewrite Q. cbn [bind].
    destruct (shown en c fs) as [r fs'] eqn:Sh. cbn [fst snd] in *.
    destruct (IH fs' i' I') with (wd := wd') as (i2 & w2 & Q2); [assumption|]. rewrite Q2. cbn [bind]. eauto.
  Qed.
End Film.
(** frames up to a failing read *)
Lemma frames_until (Y : system) (Inv : rdimage -> list (list f32) -> Prop) (en : Z) :
  (forall i f fs, Inv i (f :: fs) -> exists i', gives Y i true RDEOK f i' /\ Inv i' fs) ->
  (forall i, Inv i [] -> exists f i', gives Y i false en f i') ->
  forall fs i, Inv i fs -> exists i', frames Y i fs en i'.
Proof.
  intros RD EN. induction fs as [|f fs IH]; intros i I.
  - destruct (EN i I) as (f & i' & G). exists i'. exact (frames_none Y i en f i' G).
  - destruct (RD i f fs I) as (i1 & G & I1). destruct (IH i1 I1) as (i' & F). exists i'. exact (frames_one Y i f i1 fs en i' G F).
Qed.
