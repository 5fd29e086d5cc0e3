(** Error codes of the image API. *)
From Coq Require Import Lia.
From Verif Require Import Base BaseProofs Flt Util Methods Analysis Stdio Pgm Pfm Y4m Image ImageHistory Cli SpecCli.
Open Scope list_scope.
Open Scope Z_scope.

Definition rets {A} (P : A -> Prop) (m : res A) : Prop := match m with Ok a => P a | Undef _ => True end.
Lemma rets_bind {A B} (P : A -> Prop) (Q : B -> Prop) (m : res A) (k : A -> res B) :
  rets P m -> (forall a, P a -> rets Q (k a)) -> rets Q (bind m k).
Proof. destruct m as [a|u]; cbn; auto. Qed.
Lemma rets_bind_any {A B} (Q : B -> Prop) (m : res A) (k : A -> res B) : (forall a, rets Q (k a)) -> rets Q (bind m k).
Proof. destruct m as [a|u]; cbn; auto. Qed.
Lemma known_const e : (- INT_MAX <=? e) && (e <=? RDENOIMG) = true -> known_code e.
Proof. unfold known_code. intros H. apply andb_prop in H. lia. Qed.
Lemma known_errno n : 0 < n <= INT_MAX -> known_code (- n).
Proof. unfold known_code, INT_MAX, RDENOIMG. lia. Qed.

Ltac known := first [assumption | apply known_const; reflexivity].
Ltac walk :=
  match goal with
  | |- rets _ (Undef _) => exact I
  | |- rets _ (Ok _) => cbn; known
  | |- rets _ (bind _ _) => apply rets_bind_any; intros
  | |- rets _ (match ?x with _ => _ end) => destruct x eqn:?
  | |- rets _ (let '(_, _) := ?x in _) => destruct x eqn:?
  end.

Section Codes.
Variable (Y : system).
Hypothesis (C : codes_ok Y).
Definition code_3 {A B C D} (x : A * B * C * Z * D) := let '(_, _, _, e, _) := x in known_code e.

Lemma stream_code f w r w' errno : open_stream Y f w = (r, w') -> r = inr errno -> known_code (- errno).
Proof.
  unfold open_stream. intros H ->. destruct (String.eqb f "-"); [discriminate|]. destruct (y_fopen Y (w_count w) f) eqn:Q.
  - destruct (open_file w). discriminate.
  - inversion H; subst. apply known_errno. eapply (proj1 C); eassumption.
Qed.
Lemma pgm_open_code E f w : rets code_3 (pgm_open E Y f w).
Proof.
  unfold pgm_open. destruct (alloc _ w) as [[b|] w1]; [|walk]. destruct (open_stream Y f w1) as [[[h s]|errno] w2] eqn:O.
  - repeat walk.
  - apply rets_bind_any. intros. cbn. eapply stream_code; [exact O|reflexivity].
Qed.
Lemma pfm_open_code E f w : rets code_3 (pfm_open E Y f w).
Proof.
  unfold pfm_open. destruct (alloc _ w) as [[b|] w1]; [|walk]. destruct (open_stream Y f w1) as [[[h s]|errno] w2] eqn:O.
  - repeat walk.
  - apply rets_bind_any. intros. cbn. eapply stream_code; [exact O|reflexivity].
Qed.
Lemma y4m_open_code E f w : rets code_3 (y4m_open E Y f w).
Proof.
  unfold y4m_open. destruct (alloc _ w) as [[b|] w1]; [|walk]. destruct (open_stream Y f w1) as [[[h s]|errno] w2] eqn:O.
  - cbv zeta. repeat walk.
  - apply rets_bind_any. intros. cbn. eapply stream_code; [exact O|reflexivity].
Qed.
Lemma reader_open_code E r f w : rets code_3 (reader_open E Y r f w).
Proof.
  destruct r as [| | |x]; cbn [reader_open]; unfold map_open.
  - eapply rets_bind; [apply pgm_open_code|]. intros [[[[? ?] ?] ?] ?] K. exact K.
  - eapply rets_bind; [apply pfm_open_code|]. intros [[[[? ?] ?] ?] ?] K. exact K.
  - eapply rets_bind; [apply y4m_open_code|]. intros [[[[? ?] ?] ?] ?] K. exact K.
  - destruct (x_open _ _ _) as [[[? ?] ?]|e] eqn:Q; [walk|]. cbn. eapply (proj1 (proj2 C)); eassumption.
Qed.
Definition code_5 (x : opened) := let '(_, _, _, _, e, _) := x in known_code e.
Lemma open_image_code E r f want w : rets code_5 (open_image E Y r f want w).
Proof.
  unfold open_image. destruct (alloc _ w) as [[b|] w1]; [|walk]. destruct r as [r|]; [|repeat walk].
  eapply rets_bind; [apply reader_open_code|]. intros [[[[c width] height] e] w2] K. cbn in K. cbv zeta. repeat walk.
Qed.
Lemma open_by_code R E f o ptrs want w : rets code_5 (open_by R E Y f o ptrs want w).
Proof.
  assert (P : rets code_5 (Ok (@None rdimage, 0, 0, @None buffer, RDEPARAM, w))) by walk.
  destruct o as [t|n]; cbn [open_by]; [unfold resdet_open_image|unfold resdet_open_image_with_reader]; destruct ptrs; cbn [negb]; try exact P;
    destruct f as [f|]; try exact P.
  - apply rets_bind_any. intros. apply open_image_code.
  - destruct n as [n|]; [|exact P]. apply rets_bind_any. intros. apply rets_bind_any. intros. apply open_image_code.
Qed.

Definition code_2 {A B D} (x : A * Z * B * D) := let '(_, e, _, _) := x in known_code e.
Lemma fseek_errno off s n s' : fseek_cur off s = (Some n, s') -> 0 < n <= INT_MAX.
Proof. unfold fseek_cur. destruct (negb _); [|destruct (_ >? _)]; intros H; inversion H; subst; unfold ESPIPE, EOVERFLOW, INT_MAX; lia. Qed.
Lemma fskip_code s n buf : rets (fun '(e, _) => known_code e) (resdet_fskip s n buf).
Proof.
  unfold resdet_fskip. destruct buf as [size|].
  - destruct (_ >? _); [walk|]. destruct (fread n s) as [l s1]. cbn. destruct (_ =? _); known.
  - destruct (_ >? _); [walk|]. destruct (fseek_cur n s) as [[errno|] s1] eqn:Q; cbn; [|known]. apply known_errno. eapply fseek_errno; exact Q.
Qed.
Lemma next_header_code H c width height : rets (fun '(_, e, _) => known_code e) (pfm_next_header H c width height).
Proof. unfold pfm_next_header. cbv zeta. repeat walk. all: try (cbn; destruct (feof _); known). Qed.
Lemma frame_header_code s b e s' : y4m_frame_header s = (b, e, s') -> known_code e.
Proof.
  unfold y4m_frame_header. destruct (fread 5 s) as [l s1]. destruct (zlen l <? 5).
  { intros H. inversion H; subst. destruct (_ && _); known. }
  destruct (negb _). { intros H. inversion H; subst. known. }
  destruct (after_line _); intros H; inversion H; subst; known.
Qed.
Lemma reader_read_code c image width height : rets code_2 (reader_read Y c image width height).
Proof.
  destruct c as [c|c|c|x c]; cbn [reader_read].
  - eapply (rets_bind code_2); [|intros [[[? ?] ?] ?] K; exact K]. unfold pgm_read. destruct (pg_eof c); [walk|].
    apply rets_bind_any. intros [[b im] s]. cbn. destruct b; known.
  - eapply (rets_bind code_2); [|intros [[[? ?] ?] ?] K; exact K]. unfold pfm_read.
    eapply rets_bind; [apply next_header_code|]. intros [[b e] c1] K. cbv zeta. repeat walk.
  - eapply (rets_bind code_2); [|intros [[[? ?] ?] ?] K; exact K]. unfold y4m_read.
    destruct (y4m_frame_header (ym_s c)) as [[b e] s] eqn:Q. apply frame_header_code in Q. destruct (negb b); [walk|].
    apply rets_bind_any; intros. destruct (_ >? _); [walk|]. destruct (fread _ s) as [buf s1]. destruct (negb _); [walk|]. destruct (_ || _); [walk|].
    cbv zeta. apply rets_bind_any; intros. apply rets_bind_any; intros. eapply rets_bind; [apply fskip_code|]. intros [e2 s2] K. exact K.
  - destruct (x_read _ c) as [[[b e] l] c'] eqn:Q. apply rets_bind_any. intros. cbn. eapply (proj1 (proj2 (proj2 C))); eassumption.
Qed.
Lemma read_code i buf b e buf' i' : resdet_read_image_frame Y i buf = Ok (b, e, buf', i') -> known_code e.
Proof.
  unfold resdet_read_image_frame. destruct i as [i|], buf as [buf|]; try (intros H; inversion H; subst; known).
  intros H. apply bind_ok in H. destruct H as ([[[b1 e1] im1] c1] & Q & H). inversion H; subst.
  pose proof (reader_read_code (im_ctx i) buf (im_width i) (im_height i)) as K. rewrite Q in K. exact K.
Qed.

Lemma pfm_skip_code H width height size buf : forall n i calls c, rets code_2 (pfm_skip n i H width height size buf calls c).
Proof.
  induction n as [|n IH]; intros i calls c; cbn [pfm_skip]; [walk|].
  eapply rets_bind; [apply next_header_code|]. intros [[b e] c1] K. destruct (negb b); [walk|].
  eapply rets_bind; [apply fskip_code|]. intros [e2 s2] K2. cbv zeta. destruct (negb _); [walk|]. apply IH.
Qed.
Lemma y4m_skip_code : forall n i calls c, rets code_2 (y4m_skip n i calls c).
Proof.
  induction n as [|n IH]; intros i calls c; cbn [y4m_skip]; [walk|].
  destruct (y4m_frame_header (ym_s c)) as [[b e] s] eqn:Q. apply frame_header_code in Q. destruct (negb b); [walk|].
  apply rets_bind_any; intros. eapply rets_bind; [apply fskip_code|]. intros [e2 s2] K2. destruct (negb _); [walk|].
  eapply rets_bind; [apply fskip_code|]. intros [e3 s3] K3. destruct (negb _); [walk|]. apply IH.
Qed.
Lemma seek_code E i k w b e calls i' w' : resdet_seek_frame E Y i k w = Ok (b, e, calls, i', w') -> known_code e.
Proof.
  unfold resdet_seek_frame. destruct i as [i|]; [|intros H; inversion H; subst; known].
  intros H. apply bind_ok in H. destruct H as ([[[[b1 e1] l1] c1] w1] & Q & H). inversion H; subst. clear H.
  destruct (im_ctx i) as [c|c|c|x c]; cbn [reader_seek] in Q.
  - destruct (pgm_seek c k) as [[? ?] ?]. inversion Q; subst. known.
  - apply bind_ok in Q. destruct Q as ([[[[b2 e2] l2] c2] w2] & Q & H). inversion H; subst. clear H.
    assert (K : rets (fun '(_, e, _, _, _) => known_code e) (pfm_seek E Y c k (im_width i) (im_height i) w)).
    { unfold pfm_seek. cbv zeta. destruct (if _ <=? _ then _ else _) as [sk c3]. destruct (if sk then _ else _) as [buf w3]. destruct (_ && _); [cbn; known|].
      eapply rets_bind; [apply pfm_skip_code|]. intros [[[b3 e3] l3] c4] K. apply rets_bind_any. intros. exact K. }
    rewrite Q in K. exact K.
  - apply bind_ok in Q. destruct Q as ([[[b2 e2] l2] c2] & Q & H). inversion H; subst. clear H.
    pose proof (y4m_skip_code (Z.to_nat k) 0 [] c) as K. unfold y4m_seek in Q. rewrite Q in K. exact K.
  - destruct (x_seek _ c k) as [[[b2 e2] l2] c2] eqn:X. inversion Q; subst. eapply (proj2 (proj2 (proj2 C))); eassumption.
Qed.
End Codes.
