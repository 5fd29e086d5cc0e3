(** Consequences of the round trips. *)
From Coq Require Import Reals Lra.
From Flocq Require Import Core IEEE754.Binary IEEE754.Bits.
From Verif Require Import Base BaseProofs Flt FltProofs FilterProofs Util Methods Analysis Spec WorldProofs UtilProofs
  Stdio StdioProofs Pgm Pfm Y4m Image ImageHistory ImageSafe FrameProofs ImageApi Relax SpecImage SelectProofs SpecFormats ScanProofs FilmProofs PgmFilm PfmFilm Y4mFilm SeekProofs.
Open Scope list_scope.
Open Scope Z_scope.

(** ** Sample values *)
Lemma quotient_unique a b v v' : quotient a b v -> quotient a b v' -> v = v'.
Proof. intros (F & S & V) (F' & S' & V'). apply B2R_Bsign_inj; congruence. Qed.
Lemma quotients_unique m : forall samples vs vs', Forall2 (fun c v => quotient c m v) samples vs -> Forall2 (fun c v => quotient c m v) samples vs' -> vs = vs'.
Proof.
  intros samples vs vs' A. revert vs'. induction A as [|c v cs vs Q _ IH]; intros vs' B; inversion B; subst; [reflexivity|].
  f_equal; [exact (quotient_unique _ _ _ _ Q H1)|apply IH; assumption].
Qed.
Lemma frames_unique (g : Z -> Z) m : forall fz fs fs', Forall2 (Forall2 (fun c v => quotient (g c) m v)) fz fs -> Forall2 (Forall2 (fun c v => quotient (g c) m v)) fz fs' -> fs = fs'.
Proof.
  assert (L : forall samples vs, Forall2 (fun c v => quotient (g c) m v) samples vs -> Forall2 (fun c v => quotient c m v) (map g samples) vs).
  { induction 1; constructor; assumption. }
  intros fz fs fs' A. revert fs'. induction A as [|c v cs vs Q _ IH]; intros vs' B; inversion B; subst; [reflexivity|].
  f_equal; [exact (quotients_unique _ _ _ _ (L _ _ Q) (L _ _ H1))|apply IH; assumption].
Qed.

Local Notation rnd := (round radix2 (FLT_exp (-149) 24) ZnearestE).
Local Instance p24 : Prec_gt_0 24. Proof. reflexivity. Qed.
Lemma rnd_Z z : 0 <= z < 2 ^ 24 -> rnd (IZR z) = IZR z.
Proof. intros H. apply rnd32_Z. lia. Qed.
Lemma quotient_range c m v : 1 <= m -> 0 <= c <= m -> quotient c m v -> (0 <= B2R 24 128 v <= 1)%R.
Proof.
  intros M C (_ & _ & ->). assert (M0 : (0 < IZR m)%R) by (apply IZR_lt; lia).
  assert (C0 : (0 <= IZR c)%R) by (apply IZR_le; lia). assert (C1 : (IZR c <= IZR m)%R) by (apply IZR_le; lia).
  rewrite <- (rnd_Z 0), <- (rnd_Z 1) by lia. split; apply round_le; try typeclasses eauto.
  - apply Rmult_le_pos; [exact C0|]. apply Rlt_le, Rinv_0_lt_compat, M0.
  - apply Rmult_le_reg_r with (IZR m); [exact M0|]. unfold Rdiv. rewrite Rmult_assoc, Rinv_l by lra. lra.
Qed.
Lemma quotient_black m v : 1 <= m -> quotient 0 m v -> v = f0.
Proof.
  intros M (F & S & V). unfold Rdiv in V. rewrite Rmult_0_l in V. rewrite (rnd_Z 0) in V by lia.
  apply B2R_Bsign_inj; [exact F|reflexivity|exact V|exact S].
Qed.
Lemma quotient_white m v : 1 <= m -> quotient m m v -> v = f32_of_Z 1.
Proof.
  intros M (F & S & V). assert (M0 : (0 < IZR m)%R) by (apply IZR_lt; lia).
  unfold Rdiv in V. rewrite Rinv_r in V by lra. rewrite (rnd_Z 1) in V by lia.
  destruct (f32_of_Z_exact 1 ltac:(lia)) as (F1 & S1 & V1). apply B2R_Bsign_inj; [exact F|exact F1| |]; [rewrite V; symmetry; exact V1|rewrite S; symmetry; exact S1].
Qed.
Lemma quotient_le c c' m v v' : 1 <= m -> c <= c' -> quotient c m v -> quotient c' m v' -> (B2R 24 128 v <= B2R 24 128 v')%R.
Proof.
  intros M C (_ & _ & ->) (_ & _ & ->). apply round_le; try typeclasses eauto. apply Rmult_le_compat_r; [|apply IZR_le; lia].
  apply Rlt_le, Rinv_0_lt_compat, IZR_lt. lia.
Qed.
(** different samples of up to 16 bits keep different values *)
Lemma rnd_error x : (0 <= x <= 1)%R -> (Rabs (rnd x - x) <= bpow radix2 (-24))%R.
Proof.
  intros H. eapply Rle_trans; [apply error_le_half_ulp; typeclasses eauto|].
  assert (U : (ulp radix2 (FLT_exp (-149) 24) x <= bpow radix2 (-23))%R).
  { eapply Rle_trans; [apply ulp_le with (y := 1%R); try typeclasses eauto; rewrite !Rabs_pos_eq; lra|].
    rewrite ulp_neq_0 by lra. unfold cexp. rewrite (mag_unique_pos radix2 1 1).
    - apply bpow_le. reflexivity.
    - cbn. lra. }
  replace (bpow radix2 (-24)) with (/ 2 * bpow radix2 (-23))%R; [apply Rmult_le_compat_l; lra|].
  change (-23) with (-24 + 1). rewrite bpow_plus. change (bpow radix2 1) with 2%R. field.
Qed.
Lemma quotient_lt c c' m v v' : 1 <= m <= 65535 -> 0 <= c < c' -> c' <= m -> quotient c m v -> quotient c' m v' -> (B2R 24 128 v < B2R 24 128 v')%R.
Proof.
  intros M C C' (_ & _ & ->) (_ & _ & ->). assert (M0 : (0 < IZR m)%R) by (apply IZR_lt; lia).
  assert (C0 : (0 <= IZR c)%R) by (apply IZR_le; lia). assert (C1 : (IZR c + 1 <= IZR c')%R) by (rewrite <- plus_IZR; apply IZR_le; lia). assert (C2 : (IZR c' <= IZR m)%R) by (apply IZR_le; lia).
  assert (I0 : (0 < / IZR m)%R) by (apply Rinv_0_lt_compat, M0).
  set (x := (IZR c / IZR m)%R). set (y := (IZR c' / IZR m)%R).
  assert (D : (x + / IZR m <= y)%R).
  { unfold x, y, Rdiv. rewrite <- (Rmult_1_l (/ IZR m)) at 2. rewrite <- Rmult_plus_distr_r. apply Rmult_le_compat_r; lra. }
  assert (X0 : (0 <= x)%R) by (apply Rmult_le_pos; lra).
  assert (Y1 : (y <= 1)%R). { apply Rmult_le_reg_r with (IZR m); [exact M0|]. unfold y, Rdiv. rewrite Rmult_assoc, Rinv_l by lra. lra. }
  assert (E : (bpow radix2 (-23) < / IZR m)%R).
  { apply Rlt_le_trans with (/ 65535)%R.
    - apply Rlt_le_trans with (bpow radix2 (-16)); [apply bpow_lt; lia|]. change (bpow radix2 (-16)) with (/ 65536)%R. apply Rinv_le; lra.
    - apply Rinv_le; [exact M0|]. apply IZR_le. lia. }
  pose proof (rnd_error x ltac:(lra)) as EX. pose proof (rnd_error y ltac:(lra)) as EY.
  apply Rabs_le_inv in EX. apply Rabs_le_inv in EY.
  assert (B : (bpow radix2 (-23) = 2 * bpow radix2 (-24))%R). { change (-23) with (-24 + 1). rewrite bpow_plus. change (bpow radix2 1) with 2%R. ring. }
  lra.
Qed.

(** ** The three formats together *)
Lemma opens_weaken E w h limit (P P' : rdimage -> Prop) r : (forall i, P i -> P' i) -> opens_as E w h limit P r -> opens_as E w h limit P' r.
Proof.
  intros I (im & w' & h' & buf & e & wd & Q & C). exists im, w', h', buf, e, wd. split; [exact Q|].
  destruct C as [C|[C|(A & B & C & L & i & D & F)]]; [tauto|tauto|]. right. right. split; [exact A|]. split; [exact B|]. split; [exact C|]. split; [exact L|]. exists i. auto.
Qed.
Lemma film_program R E Y f want wd s w h name limit fs :
  config_ok (e_cfg E) = true -> system_ok Y -> provides R name -> delivers Y f s -> 1 <= w <= SIZE_MAX -> 1 <= h <= SIZE_MAX ->
  film E (y_host Y) w h (s_rest s) name limit fs ->
  opens_as E w h limit (fun i => (exists i', frames Y i fs (film_end name s) i') /\
      forall cs, film_calls E name w h s cs -> screens E Y (film_end name s) i fs cs)
    (resdet_open_image_with_reader R E Y (Some f) (Some name) true want wd).
Proof.
  intros CF SY (P1 & P2 & P3) DL W Hh FM. remember (s_rest s) as l eqn:RS. symmetry in RS.
  destruct FM as [m head samples tail vs HD M LS V|colour l fs FR NE|cs depth head fz l fs HD FR V].
  - destruct (pgm_film R E Y f want wd s w h m head samples tail CF SY (P1 eq_refl) DL RS HD W Hh M LS) as (vs' & V' & O).
    rewrite <- (quotients_unique _ _ _ _ V V') in O. revert O. apply opens_weaken. intros i (A & B). split; [exact A|]. intros cs (C & _). apply B. exact C.
  - rewrite <- RS in FR. pose proof (pfm_film R E Y f want wd s w h fs CF SY (P2 eq_refl) DL (Some colour) FR NE W Hh) as O. revert O. apply opens_weaken.
    intros i (A & B). split; [exact A|]. intros cs (C & D). destruct (D eq_refl) as (D1 & D2 & D3). apply B; auto. discriminate.
  - destruct (y4m_film R E Y f want wd s w h cs depth head fz l CF SY (P3 eq_refl) DL RS HD FR W Hh) as (fs' & V' & O).
    rewrite <- (frames_unique _ _ _ _ _ V V') in O. revert O. apply opens_weaken. intros i (A & B). split; [exact A|]. intros calls (C & _). apply B. exact C.
Qed.

(** replies of [k] reads in a row *)
Lemma screening_app en : forall cs fs cs', exists fs', screening en (cs ++ cs') fs = screening en cs fs ++ screening en cs' fs'.
Proof.
  induction cs as [|c cs IH]; intros fs cs'; [exists fs; reflexivity|]. cbn [app screening]. destruct (shown en c fs) as [r fs1].
  destruct (IH fs1 cs') as (fs' & ->). exists fs'. reflexivity.
Qed.
Lemma screening_reads en buf : forall k fs cs', (k <= length fs)%nat -> screening en (repeat (IRead (Some buf)) k ++ cs') fs =
  map (fun f : list f32 => IFrame true RDEOK (Some (map Some f ++ skipn (length f) buf))) (firstn k fs) ++ screening en cs' (skipn k fs).
Proof.
  induction k as [|k IH]; intros fs cs' L; [reflexivity|]. destruct fs as [|f fs]; [cbn in L; lia|]. cbn [repeat app screening shown firstn skipn map]. rewrite IH by (cbn in L; lia). reflexivity.
Qed.
Lemma nth_skipn (fs : list (list f32)) k f : nth_error fs k = Some f -> exists fs', skipn k fs = f :: fs' /\ (k < length fs)%nat.
Proof.
  revert k. induction fs as [|g fs IH]; intros [|k] H; try discriminate; cbn in *.
  - inversion H; subst. eauto with arith.
  - destruct (IH k H) as (fs' & -> & L). exists fs'. split; [reflexivity|lia].
Qed.

Lemma film_seek R E Y f want wd s w h name limit fs (k : nat) frame :
  config_ok (e_cfg E) = true -> system_ok Y -> provides R name -> delivers Y f s -> 1 <= w <= SIZE_MAX -> 1 <= h <= SIZE_MAX ->
  film E (y_host Y) w h (s_rest s) name limit fs -> nth_error fs k = Some frame ->
  (name = "PFM"%string -> (1 <= k)%nat /\ w * h * 12 <= SIZE_MAX /\ (s_seekable s = true \/ forall n, e_alloc E n = true)) ->
  opens_as E w h limit (fun i => forall buf wd0, w * h <= Z.of_nat (length buf) ->
      (exists i' wd', do_image_calls E Y [ISeek (Z.of_nat k); IRead (Some buf)] (Some i) wd0 =
        Ok ([ISought true RDEOK (zrange 1 (Z.of_nat k + 1)); IFrame true RDEOK (Some (map Some frame ++ skipn (length frame) buf))], i', wd')) /\
      (exists rs i' wd', do_image_calls E Y (repeat (IRead (Some buf)) k ++ [IRead (Some buf)]) (Some i) wd0 =
        Ok (rs ++ [IFrame true RDEOK (Some (map Some frame ++ skipn (length frame) buf))], i', wd')))
    (resdet_open_image_with_reader R E Y (Some f) (Some name) true want wd).
Proof.
  intros CF SY P DL W Hh FM NT OK. pose proof (film_program R E Y f want wd s w h name limit fs CF SY P DL W Hh FM) as O. revert O. apply opens_weaken.
  intros i (_ & SC) buf wd0 LB. destruct (nth_skipn _ _ _ NT) as (fs' & SK & LK).
  assert (PR : proper w h (IRead (Some buf))) by (split; [exact LB|discriminate]).
  split.
  - destruct (SC [ISeek (Z.of_nat k); IRead (Some buf)]) with (wd := wd0) as (i' & wd' & Q).
    { split.
      - constructor; [|constructor; [exact PR|constructor]]. split; [exact I|]. intros k0 Q. inversion Q. lia.
      - intros Q. destruct (OK Q) as (K1 & K2). split; [|exact K2]. cbn. lia. }
    exists i', wd'. rewrite Q. cbn [screening shown]. assert (ZK : (Z.of_nat k <=? zlen fs) = true) by (unfold zlen; lia). rewrite ZK.
    rewrite Z.min_l by (unfold zlen; lia). rewrite Nat2Z.id, SK. reflexivity.
  - destruct (SC (repeat (IRead (Some buf)) k ++ [IRead (Some buf)])) with (wd := wd0) as (i' & wd' & Q).
    { split.
      - apply Forall_app. split; [|constructor; [exact PR|constructor]]. clear -PR. induction k; cbn; constructor; auto.
      - intros Q. destruct (OK Q) as (K1 & K2). split; [|exact K2]. destruct k; exact I. }
    eexists _, i', wd'. rewrite Q, screening_reads by lia. rewrite SK. cbn [screening shown]. reflexivity.
Qed.

(** pipes and files *)
Lemma film_streams R E Y1 Y2 f1 f2 want1 want2 wd1 wd2 s1 s2 w h name limit fs :
  config_ok (e_cfg E) = true -> system_ok Y1 -> system_ok Y2 -> provides R name -> delivers Y1 f1 s1 -> delivers Y2 f2 s2 -> 1 <= w <= SIZE_MAX -> 1 <= h <= SIZE_MAX ->
  y_host Y1 = y_host Y2 -> s_rest s1 = s_rest s2 -> s_broken s1 = s_broken s2 ->
  film E (y_host Y1) w h (s_rest s1) name limit fs ->
  forall i1 a1 b1 buf1 e1 w1 i2 a2 b2 buf2 e2 w2,
    resdet_open_image_with_reader R E Y1 (Some f1) (Some name) true want1 wd1 = Ok (Some i1, a1, b1, buf1, e1, w1) ->
    resdet_open_image_with_reader R E Y2 (Some f2) (Some name) true want2 wd2 = Ok (Some i2, a2, b2, buf2, e2, w2) ->
    (a1 = a2 /\ b1 = b2) /\
    (exists e i1' i2', frames Y1 i1 fs e i1' /\ frames Y2 i2 fs e i2') /\
    (forall cs, film_calls E name w h s1 cs -> film_calls E name w h s2 cs ->
       exists rs i1' w1' i2' w2', do_image_calls E Y1 cs (Some i1) w1 = Ok (rs, i1', w1') /\ do_image_calls E Y2 cs (Some i2) w2 = Ok (rs, i2', w2')).
Proof.
  intros CF SY1 SY2 P DL1 DL2 W Hh HH RS BR FM i1 a1 b1 buf1 e1 w1 i2 a2 b2 buf2 e2 w2 O1 O2.
  destruct (film_program R E Y1 f1 want1 wd1 s1 w h name limit fs CF SY1 P DL1 W Hh FM) as (im & x & y & bf & e & wd & Q & C). rewrite O1 in Q. inversion Q; subst. clear Q.
  destruct C as [(_ & C & _)|[(_ & C & _)|(_ & <- & <- & _ & i & C & (F1 & S1))]]; [discriminate|discriminate|]. inversion C; subst i. clear C.
  rewrite HH, RS in FM.
  destruct (film_program R E Y2 f2 want2 wd2 s2 _ _ name limit fs CF SY2 P DL2 W Hh FM) as (im & x' & y' & bf' & e' & wd' & Q & C). rewrite O2 in Q. inversion Q; subst. clear Q.
  destruct C as [(_ & C & _)|[(_ & C & _)|(_ & <- & <- & _ & i & C & (F2 & S2))]]; [discriminate|discriminate|]. inversion C; subst i. clear C.
  assert (EN : film_end name s1 = film_end name s2) by (unfold film_end, end_of; rewrite BR; reflexivity).
  split; [auto|]. split.
  - destruct F1 as (i1' & F1). destruct F2 as (i2' & F2). rewrite <- EN in F2. eauto.
  - intros cs C1 C2. destruct (S1 cs C1 wd) as (i1' & w1' & D1). destruct (S2 cs C2 wd') as (i2' & w2' & D2). rewrite EN in D1.
    eexists _, _, _, _, _. split; eassumption.
Qed.
