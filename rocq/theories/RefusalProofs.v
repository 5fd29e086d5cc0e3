(** Why a native reader refuses a file. *)
From Verif Require Import Base Flt Util Methods Analysis Spec Stdio Pgm Pfm Y4m Image ImageHistory SpecImage SpecFormats SpecRefusal.
From Verif Require Import BaseProofs UtilProofs ImageSafe ImageApi SelectProofs FilmProofs.
Open Scope list_scope.
Open Scope Z_scope.

Lemma open_stream_reason Y f w errno w' : open_stream Y f w = (inr errno, w') ->
  f <> "-"%string /\ exists t, y_fopen Y t f = inr errno.
Proof.
  unfold open_stream. destruct (String.eqb_spec f "-") as [->|N]; [discriminate|].
  destruct (y_fopen Y (w_count w) f) as [s|e] eqn:Q. { destruct (open_file w). discriminate. }
  intros X. inversion X; subst. eauto.
Qed.
Lemma pgm_open_reason E Y f w c w0 h0 e w' : pgm_open E Y f w = Ok (c, w0, h0, e, w') -> e = RDEOK \/ reason E Y f e.
Proof.
  unfold pgm_open, alloc. destruct (e_alloc E (w_count w)) eqn:A. 2: { intros Q. inversion Q; subst. right. left. eauto. }
  destruct (open_stream Y f _) as [[[g s]|errno] w1] eqn:O.
  - destruct (pgm_header (y_host Y) s) as [[[[[? ?] ?]|] s']|u]; cbn [bind]; [| |discriminate].
    + intros Q. inversion Q; subst. left. reflexivity.
    + destruct (pgm_close _ _); cbn [bind]; [|discriminate]. intros Q. inversion Q; subst. right. right. right. right. reflexivity.
  - destruct (free_block _ _); cbn [bind]; [|discriminate]. intros Q. inversion Q; subst. right. right. left.
    destruct (open_stream_reason _ _ _ _ _ O) as (N & t & F). split; [exact N|]. eauto.
Qed.
Lemma pfm_open_reason E Y f w c w0 h0 e w' : pfm_open E Y f w = Ok (c, w0, h0, e, w') -> e = RDEOK \/ reason E Y f e.
Proof.
  unfold pfm_open, alloc. destruct (e_alloc E (w_count w)) eqn:A. 2: { intros Q. inversion Q; subst. right. left. eauto. }
  destruct (open_stream Y f _) as [[[g s]|errno] w1] eqn:O.
  - destruct (pfm_header (y_host Y) s) as [[[[? [[? ?] ?]]|] s']|u]; cbn [bind]; [| |discriminate].
    + intros Q. inversion Q; subst. left. reflexivity.
    + destruct (pfm_close _ _); cbn [bind]; [|discriminate]. intros Q. inversion Q; subst. right. right. right. right. reflexivity.
  - destruct (free_block _ _); cbn [bind]; [|discriminate]. intros Q. inversion Q; subst. right. right. left.
    destruct (open_stream_reason _ _ _ _ _ O) as (N & t & F). split; [exact N|]. eauto.
Qed.
Lemma y4m_open_reason E Y f w c w0 h0 e w' : y4m_open E Y f w = Ok (c, w0, h0, e, w') -> e = RDEOK \/ reason E Y f e.
Proof.
  assert (INV : reason E Y f RDEINVAL) by (right; right; right; reflexivity).
  assert (BIG : reason E Y f RDETOOBIG) by (right; right; left; reflexivity).
  unfold y4m_open, alloc. destruct (e_alloc E (w_count w)) eqn:A. 2: { intros Q. inversion Q; subst. right. left. eauto. }
  destruct (open_stream Y f _) as [[[g s]|errno] w1] eqn:O.
  2: { destruct (free_block _ _); cbn [bind]; [|discriminate]. intros Q. inversion Q; subst. right. right. left.
       destruct (open_stream_reason _ _ _ _ _ O) as (N & t & F). split; [exact N|]. eauto. }
  assert (FAIL : forall s a b e' w2, bind (y4m_close (mkY4m (w_count w) g s None 0 0 0 false) w2) (fun w => Ok (@None y4m_context, a, b, e', w)) = Ok (c, w0, h0, e, w') -> e' = e).
  { intros s' a b e' w2. destruct (y4m_close _ _); cbn [bind]; [|discriminate]. intros Q. inversion Q; subst. reflexivity. }
  destruct (fread 10 s) as [magic s1]. destruct (negb _). { intros Q. apply FAIL in Q. subst. right. exact INV. }
  destruct (y4m_params _ _ _ _ _ _) as [[[[[width height] csp]|] s2]|u]; cbn [bind]; [| |discriminate].
  2: { intros Q. apply FAIL in Q. subst. right. exact INV. }
  destruct (_ || _)%bool. { intros Q. apply FAIL in Q. subst. right. exact INV. }
  destruct (dims_exceed_limit _ _ _ _ _) as [[|]|]; cbn [bind]; [| |discriminate]. { intros Q. apply FAIL in Q. subst. right. exact BIG. }
  destruct (colour_space _ _ _ _) as [[[uv depth]|]|]; cbn [bind]; [| |discriminate].
  2: { intros Q. apply FAIL in Q. subst. right. exact INV. }
  destruct (_ || _)%bool. { intros Q. apply FAIL in Q. subst. right. exact INV. }
  cbv zeta. destruct (_ <? _). { intros Q. apply FAIL in Q. subst. right. exact BIG. }
  destruct (if _ <=? _ then _ else _) as [sk s3]. cbn [alloc]. unfold alloc. cbn [w_count].
  match goal with |- context [if e_alloc E ?k then _ else _] => destruct (e_alloc E k) eqn:A2 end.
  - intros Q. inversion Q; subst. left. reflexivity.
  - intros Q. apply FAIL in Q. subst. right. left. eauto.
Qed.

Lemma reader_open_reason E Y r f w c w0 h0 e w' : native r -> reader_open E Y r f w = Ok (c, w0, h0, e, w') -> e = RDEOK \/ reason E Y f e.
Proof.
  destruct r as [| | |x]; intros N RO; [| | |contradiction N]; cbn [reader_open] in RO; unfold map_open in RO.
  - destruct (pgm_open E Y f w) as [[[[[? ?] ?] ?] ?]|] eqn:P; [|discriminate]. cbn [bind] in RO. inversion RO; subst. eapply pgm_open_reason; exact P.
  - destruct (pfm_open E Y f w) as [[[[[? ?] ?] ?] ?]|] eqn:P; [|discriminate]. cbn [bind] in RO. inversion RO; subst. eapply pfm_open_reason; exact P.
  - destruct (y4m_open E Y f w) as [[[[[? ?] ?] ?] ?]|] eqn:P; [|discriminate]. cbn [bind] in RO. inversion RO; subst. eapply y4m_open_reason; exact P.
Qed.
Lemma refused R E Y f r want wd im width height buf e wd' : In r (resdet_image_readers R) -> native r ->
  resdet_open_image_with_reader R E Y (Some f) (Some (reader_name r)) true want wd = Ok (im, width, height, buf, e, wd') ->
  (e = RDEOK /\ im <> None) \/ (im = None /\ reason E Y f e).
Proof.
  intros I N. rewrite (by_native R E Y f want wd r I N). unfold open_image, alloc. destruct (e_alloc E (w_count wd)) eqn:A1.
  2: { intros Q. inversion Q; subst. right. split; [reflexivity|]. left. eauto. }
  match goal with |- context [reader_open E Y r f ?x] => set (wa := x) end.
  match goal with |- context [free_block ?x] => set (blk := x) end.
  destruct (reader_open E Y r f wa) as [[[[[c w0] h0] e0] w2]|] eqn:O; [|discriminate]. cbn [bind].
  assert (FAIL : forall er wx, (w <- reader_close c wx ;; w <- free_block blk w ;; Ok (None, 0, 0, None, er, w)) = Ok (im, width, height, buf, e, wd') -> e = er /\ im = None).
  { intros er wx. destruct (reader_close c wx); [|discriminate]. cbn [bind]. destruct (free_block blk _); [|discriminate]. cbn [bind].
    intros Q. inversion Q. auto. }
  intros Q. destruct (Z.eqb_spec e0 0) as [->|NE]; cbn [negb] in Q.
  2: { right. destruct (FAIL _ _ Q) as (-> & ->). split; [reflexivity|]. destruct (reader_open_reason _ _ _ _ _ _ _ _ _ _ N O); [contradiction|assumption]. }
  destruct (dims_exceed_limit _ _ _ _ _) as [[|]|]; cbn [bind] in Q; [| |discriminate].
  { right. destruct (FAIL _ _ Q) as (-> & ->). split; [reflexivity|]. right. right. left. reflexivity. }
  destruct c as [ctx|]; [|discriminate]. destruct want.
  - destruct (e_alloc E (w_count w2)) eqn:A2.
    + inversion Q; subst. left. split; [reflexivity|discriminate].
    + right. destruct (FAIL _ _ Q) as (-> & ->). split; [reflexivity|]. left. eauto.
  - inversion Q; subst. left. split; [reflexivity|discriminate].
Qed.

(** ** Files that cannot be opened, and files of another kind *)
Lemma opened_not R E Y f r want wd im width height buf e wd' e0 : In r (resdet_image_readers R) -> native r -> (forall n, e_alloc E n = true) -> e0 <> RDEOK ->
  (forall w c w0 h0 e' w', reader_open E Y r f w = Ok (c, w0, h0, e', w') -> e' = e0) ->
  resdet_open_image_with_reader R E Y (Some f) (Some (reader_name r)) true want wd = Ok (im, width, height, buf, e, wd') -> im = None /\ e = e0.
Proof.
  intros I N MEM NZ RO. rewrite (by_native R E Y f want wd r I N). unfold open_image, alloc. rewrite MEM.
  match goal with |- context [reader_open E Y r f ?x] => set (wa := x) end.
  destruct (reader_open E Y r f wa) as [[[[[c w0] h0] e1] w2]|] eqn:O; [|discriminate]. cbn [bind]. apply RO in O. subst e1.
  destruct (Z.eqb_spec e0 0) as [X|_]; [contradiction|]. cbn [negb].
  destruct (reader_close c w2); [|discriminate]. cbn [bind]. destruct (free_block _ _); [|discriminate]. cbn [bind]. intros Q. inversion Q. auto.
Qed.
Lemma missing_open E Y f r errno : native r -> (forall n, e_alloc E n = true) -> f <> "-"%string -> (forall t, y_fopen Y t f = inr errno) ->
  forall w c w0 h0 e' w', reader_open E Y r f w = Ok (c, w0, h0, e', w') -> e' = - errno.
Proof.
  intros N MEM NM FO w c w0 h0 e' w'.
  assert (OS : forall w, open_stream Y f w = (inr errno, w)). { intros w1. unfold open_stream. destruct (String.eqb_spec f "-"); [contradiction|]. rewrite FO. reflexivity. }
  destruct r as [| | |x]; [| | |contradiction N]; cbn [reader_open]; unfold map_open, pgm_open, pfm_open, y4m_open, alloc; rewrite MEM, OS; destruct (free_block _ _); cbn [bind]; try discriminate; intros Q; inversion Q; reflexivity.
Qed.
Lemma stream_given Y f s w : delivers Y f s -> exists g w', open_stream Y f w = (inl (g, s), w').
Proof.
  intros (_ & _ & A & B). unfold open_stream. destruct (String.eqb_spec f "-") as [Q|Q].
  - rewrite A by exact Q. eauto.
  - rewrite B by exact Q. destruct (open_file w). eauto.
Qed.
Lemma foreign_y4m E Y f s : (forall n, e_alloc E n = true) -> delivers Y f s -> firstn 10 (s_rest s) <> chars "YUV4MPEG2 " ->
  forall w c w0 h0 e' w', reader_open E Y RY4m f w = Ok (c, w0, h0, e', w') -> e' = RDEINVAL.
Proof.
  intros MEM DL NM w c w0 h0 e' w'. cbn [reader_open]. unfold map_open, y4m_open, alloc. rewrite MEM.
  match goal with |- context [open_stream Y f ?x] => destruct (stream_given Y f s x DL) as (g & w1 & ->) end.
  unfold fread. destruct (Z.ltb_spec (zlen (s_rest s)) 10) as [L|L].
  - destruct (list_eq_dec Z.eq_dec (s_rest s) (chars "YUV4MPEG2 ")) as [Q|_].
    { rewrite Q in NM. elim NM. reflexivity. }
    cbn [negb]. destruct (y4m_close _ _); cbn [bind]; [|discriminate]. intros Q. inversion Q. reflexivity.
  - change (Z.to_nat 10) with 10%nat. destruct (list_eq_dec Z.eq_dec (firstn 10 (s_rest s)) (chars "YUV4MPEG2 ")) as [Q|_]; [contradiction|].
    cbn [negb]. destruct (y4m_close _ _); cbn [bind]; [|discriminate]. intros Q. inversion Q. reflexivity.
Qed.
Lemma foreign_pfm E Y f s : (forall n, e_alloc E n = true) -> delivers Y f s -> firstn 2 (s_rest s) <> chars "PF" -> firstn 2 (s_rest s) <> chars "Pf" ->
  forall w c w0 h0 e' w', reader_open E Y RPfm f w = Ok (c, w0, h0, e', w') -> e' = RDEINVAL.
Proof.
  intros MEM DL N1 N2 w c w0 h0 e' w'. cbn [reader_open]. unfold map_open, pfm_open, alloc. rewrite MEM.
  match goal with |- context [open_stream Y f ?x] => destruct (stream_given Y f s x DL) as (g & w1 & ->) end.
  assert (PH : forall h s', pfm_header (y_host Y) s = Ok (h, s') -> h = None).
  { intros h s'. unfold pfm_header. destruct s as [rest pos eo br sk]. cbn [s_rest] in *.
    destruct rest as [|a [|b rest]].
    - cbn. intros Q. inversion Q. reflexivity.
    - cbn. destruct (a =? 80); cbn; intros Q; inversion Q; reflexivity.
    - cbn. destruct (Z.eqb_spec a 80) as [->|NA]; cbn; [|intros Q; inversion Q; reflexivity].
      unfold is_format. destruct (Z.eqb_spec b 102) as [->|NB]; [elim N2; reflexivity|]. destruct (Z.eqb_spec b 70) as [->|NC]; [elim N1; reflexivity|].
      cbn. intros Q. inversion Q. reflexivity. }
  destruct (pfm_header (y_host Y) s) as [[h s']|u] eqn:HD; cbn [bind]; [|discriminate]. rewrite (PH _ _ eq_refl).
  destruct (pfm_close _ _); cbn [bind]; [|discriminate]. intros Q. inversion Q. reflexivity.
Qed.
