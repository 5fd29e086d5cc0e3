(** Image objects of the bindings. *)
From Coq Require Import Permutation String.
From Flocq Require Import IEEE754.Binary.
From Verif Require Import Base BaseProofs Flt Util Methods Analysis Resdetect History Spec SpecAnalysis SpecUtil SpecReport WorldProofs UtilProofs AnalysisProofs
  Stdio Pgm Pfm Y4m Image ImageHistory SpecImage SpecFormats ImageSafe FrameProofs ImageApi FileProofs FormatProofs SpecCli CodeProofs CliProofs SpecTools ProfileProofs StatRun
  Bindings SpecBindings BindingProofs BindingRun Handles SpecHandles.
Open Scope string_scope.
Open Scope list_scope.
Open Scope Z_scope.

Lemma param_raises : exists x, py_exception RDEPARAM = Ok x /\ reflects RDEPARAM x.
Proof. apply exception_ok; [apply known_const; reflexivity|discriminate]. Qed.

Lemma answer_ok {A} e (v : A) : known_code e -> exists r, answers e v r /\ (if negb (e =? 0) then x <- py_exception e ;; Ok (Raise x) else Ok (Return v)) = Ok r.
Proof.
  intros K. destruct (Z.eqb_spec e 0) as [->|N]; cbn [negb].
  - eexists. split; [left; reflexivity|reflexivity].
  - destruct (exception_ok e K N) as (x & -> & R). eexists. split; [right; eassumption|reflexivity].
Qed.
Lemma answers_raises {A} e (v : A) r : answers e v r -> raises_code r.
Proof. destruct 1; cbn; eauto. Qed.

Lemma read_call_eq Y i b blk l b1 e1 l1 i1 w E : ib_data b = Some (blk, l) -> ib_passed b = None ->
  resdet_read_image_frame Y (Some i) (Some l) = Ok (b1, e1, Some l1, Some i1) -> known_code e1 ->
  exists r b', py_image_call_do E Y PyRead (Some i) b w = Ok (PyFrame r l1, Some i1, b', w) /\ answers e1 b1 r /\ ib_data b' = Some (blk, l1) /\ ib_passed b' = None.
Proof.
  intros BD BP Q K. destruct (answer_ok e1 b1 K) as (r & A & AQ). exists r, (mkBuf (Some (blk, l1)) None (ib_dims b)).
  split; [|auto]. cbn [py_image_call_do py_read_frame_of]. unfold py_read_frame. rewrite BP, BD. cbn [option_map snd]. rewrite Q. cbn [bind].
  destruct (negb (e1 =? 0)); [destruct (py_exception e1); [|discriminate AQ]|]; cbn [bind] in AQ |- *; inversion AQ; reflexivity.
Qed.
Lemma seek_call_eq Y E i z progress b w b1 e1 calls o1 w1 :
  resdet_seek_frame E Y (Some i) (z mod 2^64) w = Ok (b1, e1, calls, o1, w1) -> known_code e1 ->
  exists r, py_image_call_do E Y (PySeek (PyInt z) progress) (Some i) b w = Ok (PySought r (if progress then calls else []), o1, b, w1) /\ answers e1 b1 r.
Proof.
  intros Q K. destruct (answer_ok e1 b1 K) as (r & A & AQ). exists r. split; [|exact A].
  cbn [py_image_call_do]. unfold py_seek_frame. cbn [as_size_t]. rewrite Q. cbn [bind].
  destruct (negb (e1 =? 0)); [destruct (py_exception e1); [|discriminate AQ]|]; cbn [bind] in AQ |- *; inversion AQ; reflexivity.
Qed.

(** ** Closed images *)
Lemma closed_ok E Y err fs : forall cs b l w, match ib_data b with Some (_, l) => l | None => [] end = l ->
  exists rs, py_image_calls_do E Y cs None b w = Ok (rs, None, b, w) /\ py_shows err false fs l cs rs /\ py_series false cs rs.
Proof.
  destruct param_raises as (x & PX & RX).
  induction cs as [|c cs IH]; intros b l w BL; [eexists; split; [reflexivity|split; constructor]|].
  destruct (IH b l w BL) as (rs & Q & S1 & S2). cbn [py_image_calls_do].
  destruct c as [v progress| |]; cbn [py_image_call_do].
  - unfold py_seek_frame. destruct v as [z|y|]; cbn [as_size_t].
    + unfold resdet_seek_frame. cbn [bind]. change (RDEPARAM =? 0) with false. cbn [negb]. rewrite PX. cbn [bind]. rewrite Q. cbn [bind].
      destruct progress; (eexists; split; [reflexivity|]; split; [apply shows_closed_seek; assumption|apply series_closed_seek; assumption]).
    + cbn [bind]. rewrite Q. cbn [bind]. eexists; split; [reflexivity|]. split; [apply shows_seek_type; [discriminate|exact S1]|apply series_seek_type; [discriminate|exact S2]].
    + cbn [bind]. rewrite Q. cbn [bind]. eexists; split; [reflexivity|]. split; [apply shows_seek_type; [discriminate|exact S1]|apply series_seek_type; [discriminate|exact S2]].
  - cbn [py_read_frame_of]. unfold resdet_read_image_frame. cbn [bind]. change (RDEPARAM =? 0) with false. cbn [negb]. rewrite PX. cbn [bind]. rewrite Q. cbn [bind]. rewrite BL.
    eexists; split; [reflexivity|]. split; [apply shows_closed_read; assumption|apply series_closed_read; assumption].
  - cbn. rewrite Q. cbn [bind]. eexists; split; [reflexivity|]. split; [apply shows_close|apply series_close]; assumption.
Qed.

(** ** Sessions on any file *)
Definition im_blocks (im : option rdimage) : list nat := match im with Some i => image_blocks i | None => [] end.
Definition im_files (im : option rdimage) : list nat := match im with Some i => image_files i | None => [] end.

Lemma calls_ok sz E Y : relaxed Y -> codes_ok Y -> (forall x, ext_spec (y_ext Y x) (sz x)) -> forall cs i b blk l w w0 bs,
  image_ok sz i -> ib_data b = Some (blk, l) -> ib_passed b = None -> zlen l = im_width i * im_height i ->
  holds w w0 (image_blocks i ++ bs) (image_files i) ->
  exists rs im b' l' w', py_image_calls_do E Y cs (Some i) b w = Ok (rs, im, b', w') /\ ib_data b' = Some (blk, l') /\
    (forall i', im = Some i' -> image_ok sz i') /\ holds w' w0 (im_blocks im ++ bs) (im_files im) /\ py_series true cs rs.
Proof.
  intros RX CO X. induction cs as [|c cs IH]; intros i b blk l w w0 bs K BD BP ZL H.
  { eexists _, _, _, _, _. split; [reflexivity|]. split; [exact BD|]. split; [intros i' Q; inversion Q; subst; exact K|]. split; [exact H|constructor]. }
  cbn [py_image_calls_do]. destruct c as [v progress| |].
  - destruct v as [z|y|].
    + destruct (reader_seek_ok sz E Y (im_ctx i) (z mod 2^64) (im_width i) (im_height i) w w0 _ _ RX X (proj1 K) (proj2 K) H) as (b2 & e2 & c2 & x2 & w2 & EQ & C1 & B1 & F1 & H1).
      assert (SQ : resdet_seek_frame E Y (Some i) (z mod 2^64) w = Ok (b2, e2, c2, Some (mkImage (im_blk i) x2 (im_width i) (im_height i)), w2)) by (unfold resdet_seek_frame; rewrite EQ; reflexivity).
      destruct (seek_call_eq Y E i z progress b w _ _ _ _ _ SQ (seek_code Y CO _ _ _ _ _ _ _ _ _ SQ)) as (r & -> & A). cbn [bind].
      destruct (IH (mkImage (im_blk i) x2 (im_width i) (im_height i)) b blk l w2 w0 bs) as (rs & im & b' & l' & w' & -> & R1 & R2 & R3 & R4); auto.
      { split; [exact (proj1 K)|exact C1]. } { unfold image_blocks, image_files in *. cbn. rewrite B1, F1. exact H1. }
      cbn [bind]. eexists _, _, _, _, _. split; [reflexivity|]. split; [exact R1|]. split; [exact R2|]. split; [exact R3|]. constructor; [exact (answers_raises _ _ _ A)|intros ->; reflexivity|exact R4].
    + cbn. destruct (IH i b blk l w w0 bs) as (rs & im & b' & l' & w' & -> & R1 & R2 & R3 & R4); auto. cbn [bind].
      eexists _, _, _, _, _. split; [reflexivity|]. split; [exact R1|]. split; [exact R2|]. split; [exact R3|]. apply series_seek_type; [discriminate|exact R4].
    + cbn. destruct (IH i b blk l w w0 bs) as (rs & im & b' & l' & w' & -> & R1 & R2 & R3 & R4); auto. cbn [bind].
      eexists _, _, _, _, _. split; [reflexivity|]. split; [exact R1|]. split; [exact R2|]. split; [exact R3|]. apply series_seek_type; [discriminate|exact R4].
  - destruct (read_frame_ok sz Y i RX X K) as (b1 & e1 & f & i1 & G & S & _ & _).
    destruct (G l) as (l1 & RQ & LL & _); [unfold zlen in ZL; lia|].
    destruct (read_call_eq Y i b blk l _ _ _ _ w E BD BP RQ (read_code Y CO _ _ _ _ _ _ RQ)) as (r & b2 & -> & A & BD2 & BP2). cbn [bind].
    destruct S as (K1 & S1 & S2 & S3 & S4). destruct (IH i1 b2 blk l1 w w0 bs) as (rs & im & b' & l' & w' & -> & R1 & R2 & R3 & R4); auto.
    { unfold zlen in *. rewrite LL, S3, S4. exact ZL. } { rewrite S1, S2. exact H. }
    cbn [bind]. eexists _, _, _, _, _. split; [reflexivity|]. split; [exact R1|]. split; [exact R2|]. split; [exact R3|]. constructor; [exact (answers_raises _ _ _ A)|exact R4].
  - cbn [py_image_call_do]. unfold py_close_image. destruct (close_image_ok sz i w w0 bs [] K) as (w1 & -> & H1); [rewrite app_nil_r; exact H|]. cbn [bind].
    destruct (closed_ok E Y RDEOK [] cs b l w1) as (rs & -> & _ & S2); [rewrite BD; reflexivity|]. cbn [bind].
    eexists _, _, _, _, _. split; [reflexivity|]. split; [exact BD|]. split; [discriminate|]. split; [exact H1|]. constructor. exact S2.
Qed.

Lemma session_end sz im b blk l w w0 : (forall i, im = Some i -> image_ok sz i) -> ib_data b = Some (blk, l) ->
  holds w w0 (im_blocks im ++ [blk]) (im_files im) ->
  exists w1 b2 w2, py_close_image im w = Ok (None, w1) /\ py_close_buffer b w1 = Ok (b2, w2) /\ holds w2 w0 [] [].
Proof.
  intros K BD H. assert (C : exists w1, resdet_close_image im w = Ok w1 /\ holds w1 w0 [blk] []).
  { destruct im as [i|]; [|eexists; split; [reflexivity|exact H]]. apply (close_image_ok sz i w w0 [blk] [] (K i eq_refl)). rewrite app_nil_r. exact H. }
  destruct C as (w1 & Q1 & H1). destruct (holds_free _ _ _ _ _ H1) as (w2 & Q2 & H2).
  eexists w1, _, w2. unfold py_close_image, py_close_buffer. rewrite Q1, BD. cbn [bind option_map fst free_opt]. rewrite Q2. cbn [bind]. auto.
Qed.

Definition opening (t name : option string) : way := match unless_empty name with Some n => ByReader (Some n) | None => ByType (unless_empty t) end.
Lemma open_image_eq R E Y f t name b w : py_open_image R E Y f t name b w =
  ('(im, width, height, buf, e, w) <- open_by R E Y (Some f) (opening t name) true true w ;;
   match im with
   | None => x <- py_exception e ;; Ok (Raise x, mkBuf buf (ib_passed b) (ib_dims b), w)
   | Some im => Ok (Return im, mkBuf buf (ib_passed b) (Some (width, height, 1)), w)
   end).
Proof. unfold py_open_image, opening. rewrite !unless_empty_ok. destruct (type_arg name); reflexivity. Qed.

(** opening: an image with an empty buffer, or an exception and nothing kept *)
Lemma py_open_ok sz R E Y f t name w : env_ok E -> machine_ok Y -> (forall x, ext_spec (y_ext Y x) (sz x)) ->
  (exists i blk w1, let l := repeat (@None f32) (Z.to_nat (im_width i * im_height i)) in
     open_by R E Y (Some f) (opening t name) true true w = Ok (Some i, im_width i, im_height i, Some (blk, l), RDEOK, w1) /\
     py_open_image R E Y f t name py_empty_buffer w = Ok (Return i, mkBuf (Some (blk, l)) None (Some (im_width i, im_height i, 1)), w1) /\
     image_ok sz i /\ holds w1 w (image_blocks i ++ [blk]) (image_files i)) \/
  (exists e x w1, open_by R E Y (Some f) (opening t name) true true w = Ok (None, 0, 0, None, e, w1) /\
     py_open_image R E Y f t name py_empty_buffer w = Ok (Raise x, py_empty_buffer, w1) /\ e <> RDEOK /\ reflects e x /\ holds w1 w [] []).
Proof.
  intros EO [S RX CO SF FI] X.
  destruct (open_by_ok sz R E Y (Some f) (opening t name) true true w w [] [] (eo_config _ EO) S RX X (holds_refl w)) as ([[[[[im width] height] buf] e] w1] & EQ & O).
  assert (KO : known_code e). { pose proof (open_by_code Y CO R E (Some f) (opening t name) true true w) as K0. rewrite EQ in K0. exact K0. }
  rewrite open_image_eq, EQ. cbn [bind].
  destruct O as [(-> & i & -> & W & H & K & PM & _ & b & -> & O)|(NE & -> & -> & -> & -> & O)].
  - left. exists i, b, w1. rewrite W, H. split; [reflexivity|]. split; [reflexivity|]. split; [exact K|].
    rewrite !app_nil_r in O. eapply holds_perm; [exact O|]. apply Permutation_cons_append.
  - right. destruct (exception_ok e KO NE) as (x & QX & RF). rewrite QX. exists e, x, w1. auto.
Qed.

Lemma session_ok R E Y f t name cs w : env_ok E -> machine_ok Y ->
  exists r w', py_image_session R E Y f t name cs w = Ok (r, w') /\ holds w' w [] [] /\
    ((exists rs, r = Return rs /\ py_series true cs rs) \/ (exists e x, r = Raise x /\ reflects e x)).
Proof.
  intros EO MO. assert (MO' := MO). destruct MO' as [S RX CO SF FI]. destruct (ext_sizes Y S) as (sz & X). unfold py_image_session.
  destruct (py_open_ok sz R E Y f t name w EO MO X) as [(i & blk & w1 & _ & -> & K & H)|(e & x & w1 & _ & -> & _ & RF & H)]; cbn [bind].
  - destruct (calls_ok sz E Y RX CO X cs i (mkBuf (Some (blk, repeat None (Z.to_nat (im_width i * im_height i)))) None (Some (im_width i, im_height i, 1))) blk
      (repeat None (Z.to_nat (im_width i * im_height i))) w1 w [blk] K) as (rs & im & b' & l' & w2 & -> & R1 & R2 & R3 & R4); try reflexivity; try exact H.
    { rewrite zlen_repeat. destruct K as ((? & ? & _) & _). nia. }
    cbn [bind]. destruct (session_end sz im b' blk l' w2 w R2 R1 R3) as (w3 & b2 & w4 & -> & Q2 & H4). cbn [bind]. rewrite Q2. cbn [bind].
    eexists _, _. split; [reflexivity|]. split; [exact H4|]. left. eauto.
  - eexists _, _. split; [reflexivity|]. split; [exact H|]. right. eauto.
Qed.

(** ** Sessions on well-formed files *)
Lemma shows_ok sz E Y err : relaxed Y -> codes_ok Y -> (forall x, ext_spec (y_ext Y x) (sz x)) -> known_code err -> forall cs (must : Prop) i fs b blk l w w0 bs,
  image_ok sz i -> ib_data b = Some (blk, l) -> ib_passed b = None -> zlen l = im_width i * im_height i ->
  Forall (fun f : list f32 => zlen f = im_width i * im_height i) fs -> holds w w0 (image_blocks i ++ bs) (image_files i) -> (must -> py_moves cs) ->
  (forall cs', Forall (proper (im_width i) (im_height i)) cs' -> (must -> moves cs') -> exists im' wd', do_image_calls E Y cs' (Some i) w = Ok (screening err cs' fs, im', wd')) ->
  exists rs im b' l' w', py_image_calls_do E Y cs (Some i) b w = Ok (rs, im, b', w') /\ ib_data b' = Some (blk, l') /\
    (forall i', im = Some i' -> image_ok sz i') /\ holds w' w0 (im_blocks im ++ bs) (im_files im) /\ py_shows err true fs l cs rs.
Proof.
  intros RX CO X KE. induction cs as [|c cs IH]; intros must i fs b blk l w w0 bs K BD BP ZL FL H MU SC.
  { eexists _, _, _, _, _. split; [reflexivity|]. split; [exact BD|]. split; [intros i' Q; inversion Q; subst; exact K|]. split; [exact H|constructor]. }
  cbn [py_image_calls_do]. destruct c as [v progress| |].
  - assert (TY : (forall z, v <> PyInt z) -> py_image_call_do E Y (PySeek v progress) (Some i) b w = Ok (PySought (Raise (mkExn ArgumentError None)) [], Some i, b, w)).
    { intros N. destruct v as [z|y|]; [elim (N z eq_refl)|reflexivity|reflexivity]. }
    assert (CS : (exists z, v = PyInt z) \/ (forall z, v <> PyInt z)) by (destruct v; [left; eauto|right; discriminate|right; discriminate]).
    destruct CS as [(z & ->)|N].
    + destruct (reader_seek_ok sz E Y (im_ctx i) (z mod 2^64) (im_width i) (im_height i) w w0 _ _ RX X (proj1 K) (proj2 K) H) as (b2 & e2 & c2 & x2 & w2 & EQ & C1 & B1 & F1 & H1).
      assert (SQ : resdet_seek_frame E Y (Some i) (z mod 2^64) w = Ok (b2, e2, c2, Some (mkImage (im_blk i) x2 (im_width i) (im_height i)), w2)) by (unfold resdet_seek_frame; rewrite EQ; reflexivity).
      destruct (seek_call_eq Y E i z progress b w _ _ _ _ _ SQ (seek_code Y CO _ _ _ _ _ _ _ _ _ SQ)) as (r & -> & A). cbn [bind].
      assert (M0 : 0 <= z mod 2^64) by (apply Z.mod_pos_bound; lia).
      assert (T : forall cs', Forall (proper (im_width i) (im_height i)) cs' -> exists im' wd',
         ISought b2 e2 c2 = fst (shown err (ISeek (z mod 2^64)) fs) /\
         do_image_calls E Y cs' (Some (mkImage (im_blk i) x2 (im_width i) (im_height i))) w2 = Ok (screening err cs' (skipn (Z.to_nat (z mod 2^64)) fs), im', wd')).
      { intros cs' P. destruct (SC (ISeek (z mod 2^64) :: cs')) as (im' & wd' & Q).
        { constructor; [split; [exact I|intros k Q; inversion Q; subst; exact M0]|exact P]. } { exact MU. }
        cbn [do_image_calls do_image_call] in Q. rewrite SQ in Q. cbn [bind screening shown] in Q.
        destruct (do_image_calls E Y cs' _ w2) as [[[r2 i2] w3]|]; [|discriminate Q]. cbn [bind] in Q. inversion Q; subst. eauto. }
      destruct (T [] (Forall_nil _)) as (_ & _ & SH & _). cbn [shown fst] in SH.
      assert (Q1 : b2 = (z mod 2^64 <=? zlen fs)) by congruence. assert (Q2 : e2 = if z mod 2^64 <=? zlen fs then RDEOK else err) by congruence.
      assert (Q3 : c2 = zrange 1 (Z.min (z mod 2^64) (zlen fs) + 1)) by congruence. clear SH.
      destruct (IH False (mkImage (im_blk i) x2 (im_width i) (im_height i)) (skipn (Z.to_nat (z mod 2^64)) fs) b blk l w2 w0 bs) as (rs & im & b' & l' & w' & -> & R1 & R2 & R3 & R4); auto; try tauto.
      { split; [exact (proj1 K)|exact C1]. } { cbn. clear -FL. rewrite <- (firstn_skipn (Z.to_nat (z mod 2^64)) fs) in FL. apply Forall_app in FL. exact (proj2 FL). }
      { unfold image_blocks, image_files in *. cbn. rewrite B1, F1. exact H1. } { intros cs' P _. destruct (T cs' P) as (im' & wd' & _ & Q). eauto. }
      cbn [bind]. eexists _, _, _, _, _. split; [reflexivity|]. split; [exact R1|]. split; [exact R2|]. split; [exact R3|].
      subst b2 e2 c2. unfold zlen in *. destruct (Z.leb_spec (z mod 2^64) (Z.of_nat (length fs))).
      * inversion A as [_ RQ|x NE RF RQ]; [|elim NE; reflexivity]. rewrite Z.min_l by lia.
        replace (z mod 2^64) with (Z.of_nat (Z.to_nat (z mod 2^64))) at 1 by lia. apply shows_seek; [lia|lia|exact R4].
      * rewrite Z.min_r by lia. rewrite skipn_all2 in R4 by lia. apply shows_no_seek; assumption.
    + rewrite TY by exact N. cbn [bind]. destruct (IH must i fs b blk l w w0 bs) as (rs & im & b' & l' & w' & -> & R1 & R2 & R3 & R4); auto.
      { intros Q. specialize (MU Q). cbn [py_moves] in MU. destruct v; [elim (N z eq_refl)|exact MU|exact MU]. }
      cbn [bind]. eexists _, _, _, _, _. split; [reflexivity|]. split; [exact R1|]. split; [exact R2|]. split; [exact R3|]. apply shows_seek_type; assumption.
  - destruct (read_frame_ok sz Y i RX X K) as (b1 & e1 & f & i1 & G & S & _ & _).
    destruct (G l) as (l1 & RQ & LL & _); [unfold zlen in ZL; lia|].
    destruct (read_call_eq Y i b blk l _ _ _ _ w E BD BP RQ (read_code Y CO _ _ _ _ _ _ RQ)) as (r & b2 & -> & A & BD2 & BP2). cbn [bind].
    assert (T : forall cs', Forall (proper (im_width i) (im_height i)) cs' -> exists im' wd',
         IFrame b1 e1 (Some l1) = fst (shown err (IRead (Some l)) fs) /\
         do_image_calls E Y cs' (Some i1) w = Ok (screening err cs' (snd (shown err (IRead (Some l)) fs)), im', wd')).
    { intros cs' P. destruct (SC (IRead (Some l) :: cs')) as (im' & wd' & Q).
      { constructor; [split; [cbn; unfold zlen in ZL; lia|discriminate]|exact P]. } { intros _. exact I. }
      cbn [do_image_calls do_image_call] in Q. rewrite RQ in Q. cbn [bind screening] in Q. destruct (shown err (IRead (Some l)) fs) as [rr fs'] eqn:SH.
      destruct (do_image_calls E Y cs' _ w) as [[[r2 i2] w3]|]; [|discriminate Q]. cbn [bind] in Q. inversion Q; subst. cbn [fst snd]. eauto. }
    destruct (T [] (Forall_nil _)) as (_ & _ & SH & _).
    destruct S as (K1 & S1 & S2 & S3 & S4). destruct (IH False i1 (snd (shown err (IRead (Some l)) fs)) b2 blk l1 w w0 bs) as (rs & im & b' & l' & w' & -> & R1 & R2 & R3 & R4); auto; try tauto.
    { unfold zlen in *. rewrite LL, S3, S4. exact ZL. } { rewrite S3, S4. destruct fs as [|g fs]; cbn [shown snd]; [constructor|inversion FL; assumption]. }
    { rewrite S1, S2. exact H. } { intros cs' P _. rewrite S3, S4 in P. destruct (T cs' P) as (im' & wd' & _ & Q). eauto. }
    cbn [bind]. eexists _, _, _, _, _. split; [reflexivity|]. split; [exact R1|]. split; [exact R2|]. split; [exact R3|].
    destruct fs as [|g fs]; cbn [shown fst snd] in SH, R4; inversion SH; subst.
    + apply shows_no_frame; assumption.
    + inversion FL; subst. inversion A as [_ RQ0|x NE RF RQ0]; [|elim NE; reflexivity]. rewrite skipn_all2, app_nil_r in * by (unfold zlen in *; lia). apply shows_frame. exact R4.
  - cbn [py_image_call_do]. unfold py_close_image. destruct (close_image_ok sz i w w0 bs [] K) as (w1 & -> & H1); [rewrite app_nil_r; exact H|]. cbn [bind].
    destruct (closed_ok E Y err fs cs b l w1) as (rs & -> & S1 & _); [rewrite BD; reflexivity|]. cbn [bind].
    eexists _, _, _, _, _. split; [reflexivity|]. split; [exact BD|]. split; [discriminate|]. split; [exact H1|]. constructor. exact S1.
Qed.

Lemma frames_sizes sz Y : relaxed Y -> (forall x, ext_spec (y_ext Y x) (sz x)) -> forall fs i er i', image_ok sz i -> frames Y i fs er i' ->
  Forall (fun f : list f32 => zlen f = im_width i * im_height i) fs.
Proof.
  intros RX X. induction fs as [|f fs IH]; intros i er i' K F; [constructor|]. inversion F as [|? ? i1 ? ? ? G F2]; subst.
  destruct (gives_same sz Y _ _ _ _ _ RX X K G) as ((K1 & _ & _ & SW & SH) & _). constructor.
  - destruct (G (repeat None (Z.to_nat (im_width i * im_height i)))) as (buf' & _ & _ & T). { rewrite repeat_length. destruct K as ((? & ? & _) & _). nia. }
    destruct (T eq_refl) as (L & _). exact L.
  - specialize (IH i1 er i' K1 F2). rewrite SW, SH in IH. exact IH.
Qed.

Lemma film_session R E Y f w s width height name limit fs cs : env_ok E -> machine_ok Y -> provides R name -> delivers Y f s ->
  1 <= width <= SIZE_MAX -> 1 <= height <= SIZE_MAX -> film E (y_host Y) width height (s_rest s) name limit fs -> py_film_calls E name width height s cs ->
  exists r w', py_image_session R E Y f None (Some name) cs w = Ok (r, w') /\ holds w' w [] [] /\
    ((limit /\ exists rs, r = Return rs /\ py_shows (film_end name s) true fs (repeat None (Z.to_nat (width * height))) cs rs) \/
     (exists e x, r = Raise x /\ reflects e x /\ ((e = RDENOMEM /\ exists k, e_alloc E k = false) \/ (e = RDETOOBIG /\ ~ limit)))).
Proof.
  intros EO MO PR DL W H FM FC. assert (MO' := MO). destruct MO' as [S RX CO SF FI]. destruct (ext_sizes Y S) as (sz & X). unfold py_image_session.
  assert (NM : opening None (Some name) = ByReader (Some name)). { unfold opening. destruct FM; reflexivity. }
  pose proof (film_program R E Y f true w s width height name limit fs (eo_config _ EO) S PR DL W H FM) as (im & wi & he & ob & e & wd & EQ & C).
  destruct (py_open_ok sz R E Y f None (Some name) w EO MO X) as [(i & blk & w1 & OQ & -> & K & HH)|(e' & x & w1 & OQ & -> & NE & RF & HH)]; cbn [bind].
  all: rewrite NM in OQ; cbn [open_by] in OQ; rewrite EQ in OQ; inversion OQ; subst; clear OQ.
  - destruct C as [(Q & _)|[(Q & _)|(_ & <- & <- & L & i' & Q & (i2 & FR) & SC)]]; [discriminate|discriminate|]. inversion Q; subst i'. clear Q.
    destruct (shows_ok sz E Y (film_end name s) RX CO X (frames_code _ _ _ _ _ CO FR) cs (name = "PFM") i fs (mkBuf (Some (blk, repeat None (Z.to_nat (im_width i * im_height i)))) None (Some (im_width i, im_height i, 1))) blk
      (repeat None (Z.to_nat (im_width i * im_height i))) w1 w [blk] K) as (rs & im & b' & l' & w2 & -> & R1 & R2 & R3 & R4); try reflexivity; try exact HH.
    { rewrite zlen_repeat. destruct K as ((? & ? & _) & _). nia. }
    { exact (frames_sizes sz Y RX X _ _ _ _ K FR). }
    { intros Q. apply FC. exact Q. }
    { intros cs' P M. apply SC. split; [exact P|]. intros Q. split; [apply M; exact Q|]. apply FC. exact Q. }
    cbn [bind]. destruct (session_end sz im b' blk l' w2 w R2 R1 R3) as (w3 & b2 & w4 & -> & Q2 & H4). cbn [bind]. rewrite Q2. cbn [bind].
    eexists _, _. split; [reflexivity|]. split; [exact H4|]. left. eauto.
  - eexists _, _. split; [reflexivity|]. split; [exact HH|]. right. eexists _, _. split; [reflexivity|]. split; [exact RF|].
    destruct C as [(-> & _ & A)|[(-> & _ & A)|(-> & _)]]; [left; auto|right; auto|contradiction].
Qed.
