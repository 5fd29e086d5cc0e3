(** Runs of the command line program, compared with what the library gives by hand. *)
From Coq Require Import Permutation Sorted Reals Lia Ascii String.
From Verif Require Import Base BaseProofs Flt Spec Util Methods Analysis Resdetect History SpecAnalysis SpecUtil SpecReport WorldProofs UtilProofs AnalysisProofs
  ResultsProofs ClientProofs ProgramProofs Stdio StdioProofs Pgm Pfm Y4m Image ImageHistory SpecImage SpecFormats ImageSafe FrameProofs ImageApi FileProofs SelectProofs
  FormatProofs Cli SpecCli CodeProofs CliProofs CliOptions CliFilm.
Open Scope list_scope.
Open Scope Z_scope.

Lemma after_seek_same sz E Y offset i w b e i1 w1 : relaxed Y -> (forall x, ext_spec (y_ext Y x) (sz x)) -> image_ok sz i ->
  after_seek E Y offset i w = Ok (b, e, Some i1, w1) -> image_ok sz i1 /\ im_width i1 = im_width i /\ im_height i1 = im_height i.
Proof.
  intros RX X (D & C). unfold after_seek. destruct (offset =? 0). { intros Q. inversion Q; subst. repeat split; try apply D; exact C. }
  intros Q. apply bind_ok in Q. destruct Q as ([[[[b1 e1] calls] o1] w2] & SQ & Q). inversion Q; subst. clear Q. unfold resdet_seek_frame in SQ.
  destruct (reader_seek_ok sz E Y (im_ctx i) offset (im_width i) (im_height i) w w [] [] RX X D C (holds_refl w)) as (b2 & e2 & c2 & ctx' & w3 & EQ & K & _).
  rewrite EQ in SQ. cbn [bind] in SQ. inversion SQ; subst. cbn. split; [split; [exact D|exact K]|auto].
Qed.
Lemma first_frames_len n fs : (length (first_frames n fs) <= length fs)%nat.
Proof. unfold first_frames. destruct (n =? 0); [lia|]. rewrite firstn_length. lia. Qed.

(** what holds of the frames of a run *)
Lemma supplied R E Y o input w width height used er wd : env_ok E -> machine_ok Y ->
  supplies R E Y o input w width height used er wd ->
  1 <= width /\ 1 <= height /\ width * height * 4 <= SIZE_MAX /\ countable used /\ Forall (fun f => width * height <= zlen f) used.
Proof.
  intros EO [S RX CO SF FI] (i & ob & w1 & e1 & i1 & fs & er0 & i2 & EQ & AS & F & -> & ->). assert (CF := eo_config _ EO).
  destruct (ext_sizes Y S) as (sz & X).
  destruct (open_by_ok sz R E Y (Some input) (way_of o) true true w w [] [] CF S RX X (holds_refl w)) as (r & EQ' & O). rewrite EQ in EQ'. inversion EQ'; subst r. clear EQ'.
  destruct O as [(_ & i' & Q & W & H & K & _)|(NE & _)]; [|elim NE; reflexivity]. inversion Q; subst i'. clear Q.
  destruct (FI input) as (N & BB & NN). pose proof (open_by_left _ _ _ _ _ _ _ _ _ _ _ _ _ _ _ CF S RX BB EQ) as L0.
  pose proof (seek_left sz _ _ _ _ _ _ _ _ _ RX SF X K AS) as L1. destruct (after_seek_same sz _ _ _ _ _ _ _ _ _ RX X K AS) as (K1 & W1 & H1).
  destruct (all_frames sz Y RX X (Datatypes.S (Datatypes.S N)) i1 K1 ltac:(lia)) as (fs' & e' & im' & F' & _ & LN).
  destruct (frames_det _ _ _ _ _ F _ _ _ F') as (<- & _). destruct K as ((A & B & C) & _). subst width height.
  split; [exact A|]. split; [exact B|]. split; [exact C|]. split.
  - unfold countable. pose proof (first_frames_len (o_nframes o) fs). unfold SIZE_MAX in NN. lia.
  - apply first_frames_sub. pose proof (leaks_frames _ _ _ _ _ F) as LF. rewrite W1, H1 in LF. exact LF.
Qed.
Lemma supplies_det R E Y o input w width height used er wd width' height' used' er' wd' :
  supplies R E Y o input w width height used er wd -> supplies R E Y o input w width' height' used' er' wd' ->
  width = width' /\ height = height' /\ used = used' /\ er = er' /\ wd = wd'.
Proof.
  intros (i & ob & w1 & e1 & i1 & fs & er0 & i2 & EQ & AS & F & -> & ->) (i' & ob' & w1' & e1' & i1' & fs' & er0' & i2' & EQ' & AS' & F' & -> & ->).
  rewrite EQ in EQ'. inversion EQ'; subst. rewrite AS in AS'. inversion AS'; subst. destruct (frames_det _ _ _ _ _ F _ _ _ F') as (<- & <- & _). auto.
Qed.

Lemma client_sized E width height p : env_ok E -> client_params (e_cfg E) p -> 1 <= width -> 1 <= height -> width * height * 4 <= SIZE_MAX -> client_ok E width height p.
Proof. intros EO CP A B C. split; [exact EO|]. split; [unfold SIZE_MAX in C; nia|]. split; [unfold SIZE_MAX in C; nia|exact CP]. Qed.

Lemma detects_reported R E Y o m p input w width height used rw rh : env_ok E -> machine_ok Y -> client_params (e_cfg E) (Some p) ->
  detects R E Y o m p input w width height used rw rh ->
  client_ok E width height (Some p) /\ countable used /\ used <> [] /\
  reported E (Some m) width height (Some p) used (seen_x E width height used) width rw /\
  reported E (Some m) width height (Some p) used (seen_y E width height used) height rh.
Proof.
  intros EO MO CP (er & wd & out & bw & bh & wd' & S & BH & ERW & ERH). destruct (supplied _ _ _ _ _ _ _ _ _ _ _ EO MO S) as (A & B & C & CT & FB).
  pose proof (client_sized E _ _ _ EO CP A B C) as HC. split; [exact HC|]. split; [exact CT|].
  destruct (by_hand_reported _ _ _ _ _ _ _ _ _ _ _ HC FB CT BH) as (NU & _ & bw' & rw' & bh' & rh' & Q1 & Q2 & R1 & R2).
  rewrite ERW in Q1. rewrite ERH in Q2. inversion Q1; inversion Q2; subst. auto.
Qed.

Lemma run_outcome R E Y T self args w o m blk p input w1 : env_ok E -> machine_ok Y -> invoked R E T self args w o m blk p input w1 ->
  let p := auto_filter o input p in
  exists x w', cli_main R E Y T self args w = Ok (x, w') /\
  ((exists width height used rw rh, detects R E Y o m p input w1 width height used rw rh /\
      x_status x = status_of (o_verbosity o) rw rh /\ x_out x = printed (o_verbosity o) width height rw rh /\ (o_progress o = false -> x_err x = []) /\
      exists calls, skips R E Y o input w1 calls /\ x_err x = notes o calls (length used)) \/
   ((forall width height used rw rh, ~ detects R E Y o m p input w1 width height used rw rh) /\ x_status x = 1 /\ x_out x = [] /\ x_err x <> [])) /\
  (holds w' w [] [] \/ exists width height used er wd l, supplies R E Y o input w1 width height used er wd /\ leaky_failure E width height wd /\ holds w' w [l] []).
Proof.
  intros EO MO IN p'. destruct (invoked_run R E Y T self args w o m blk p input w1 (eo_config _ EO) IN) as (-> & HW & CP & N0 & O0).
  assert (MO' := MO). destruct MO' as [S RX CO SF FI].
  destruct (cli_run_ok R E Y o m blk p input w1 w EO CP S RX CO N0 HW) as (im & width & height & ob & e0 & w2 & EQ & C).
  fold p' in C, CP |- *.
  destruct C as [(-> & NE & x & w' & -> & (mm & _ & _ & ->) & HL)|(i & b & e1 & i1 & w3 & -> & -> & AS & C)].
  { exists (mkExit 1 [] ([] ++ [Message mm; Str newline])), w'. split; [reflexivity|]. split; [right|left; exact HL]. split; [|cbn; repeat split; discriminate].
    intros width' height' used rw rh (er & wd & out & bw & bh & wd' & (i & ob' & w1' & e1 & i1 & fs & er0 & i2 & EQ' & _) & _). rewrite EQ in EQ'. discriminate EQ'. }
  destruct C as (x & w' & -> & C).
  { intros -> fs er i2 F. destruct (supplied R E Y o input w1 width height (first_frames (o_nframes o) fs) (end_error (o_nframes o) fs er) w3 EO MO) as (_ & _ & _ & CT & _); [|exact CT].
    exists i, ob, w2, e1, i1, fs, er, i2. auto. }
  exists x, w'. split; [reflexivity|].
  destruct C as [(-> & X1 & X2 & X3 & HL)|(-> & fs & er & i2 & F & C)].
  { split; [right|left; exact HL]. split; [|auto].
    intros width' height' used rw rh (er & wd & out & bw & bh & wd' & (i' & ob' & w1' & e1' & i1' & fs & er0 & i2 & EQ' & AS' & _) & _).
    rewrite EQ in EQ'. inversion EQ'; subst. rewrite AS in AS'. discriminate AS'. }
  cbv zeta in C. destruct C as (e & o' & wd & BH & HL & C).
  assert (SU : supplies R E Y o input w1 width height (first_frames (o_nframes o) fs) (end_error (o_nframes o) fs er) w3).
  { exists i, ob, w2, e1, i1, fs, er, i2. auto. }
  split.
  - destruct C as [(NE & pre & _ & C)|(-> & bw & rw & bh & rh & ERW & ERH & XS & XO & XE & calls & SK & NT)].
    + right. split.
      * intros width' height' used rw rh (er' & wd0 & out & bw & bh & wd' & SU' & BH' & _). destruct (supplies_det _ _ _ _ _ _ _ _ _ _ _ _ _ _ _ _ SU SU') as (<- & <- & <- & <- & <-).
        rewrite BH in BH'. inversion BH'. contradiction.
      * destruct C as [(mm & _ & _ & ->)|(_ & _ & ->)]; cbn; repeat split; intros Q; apply app_eq_nil in Q; destruct Q; discriminate.
    + left. exists width, height, (first_frames (o_nframes o) fs), rw, rh. split; [exists (end_error (o_nframes o) fs er), w3, o', bw, bh, wd; auto|]. split; [exact XS|]. split; [exact XO|]. split; [exact XE|].
      exists calls. split; [|exact NT]. exists i, width, height, ob, w2. split; [exact EQ|exact SK].
  - destruct HL as [HL|(LF & l & HL)]; [left; exact HL|right]. exists width, height, (first_frames (o_nframes o) fs), (end_error (o_nframes o) fs er), w3, l. auto.
Qed.

Lemma detects_det R E Y o m p input w width height used rw rh width' height' used' rw' rh' :
  detects R E Y o m p input w width height used rw rh -> detects R E Y o m p input w width' height' used' rw' rh' ->
  width = width' /\ height = height' /\ used = used' /\ rw = rw' /\ rh = rh'.
Proof.
  intros (er & wd & out & bw & bh & wd' & S & BH & ERW & ERH) (er1 & wd1 & out1 & bw1 & bh1 & wd1' & S1 & BH1 & ERW1 & ERH1).
  destruct (supplies_det _ _ _ _ _ _ _ _ _ _ _ _ _ _ _ _ S S1) as (<- & <- & <- & <- & <-). rewrite BH in BH1. inversion BH1; subst.
  rewrite ERW in ERW1. rewrite ERH in ERH1. inversion ERW1; inversion ERH1. auto.
Qed.

(** the whole program, for all arguments *)
Lemma main_outcome R E Y T self args w : env_ok E -> machine_ok Y ->
  exists x w' evs rest, cli_main R E Y T self args w = Ok (x, w') /\ getopt optstring (t_permute T) args = (evs, rest) /\
    (x_status x = 0 \/ x_status x = 1) /\
    (x_status x = 1 -> x_err x = [] -> exists a, last_arg "v" evs = Some a /\ to_int (strtol a) = 0) /\
    (holds w' w [] [] \/
     (last_arg "t" evs <> None /\ last_arg "R" evs <> None /\ exists b, holds w' w [b] []) \/
     (c_backend (e_cfg E) = KISS /\ (exists n, e_alloc E n = false) /\ exists b, holds w' w [b] [])).
Proof.
  intros EO MO. destruct (cli_main_cases R E Y T self args w (eo_config _ EO)) as [(o & m & blk & p & input & w1 & IN & _)|(x & w' & evs & rest & GO & -> & ST & HL)].
  - destruct (run_outcome R E Y T self args w o m blk p input w1 EO MO IN) as (x & w' & -> & C & HL).
    destruct IN as (evs & rest & p0 & l & GO & TO & _). exists x, w', evs, (input :: rest). split; [reflexivity|]. split; [exact GO|].
    destruct (options_taken _ _ _ _ _ _ _ no_options TO) as (LW & _ & _). cbn [app] in LW.
    split. { destruct C as [(width & height & used & rw & rh & _ & -> & _)|(_ & -> & _)]; [unfold status_of; destruct (_ && _); auto|auto]. }
    split.
    + intros X1 X2. destruct C as [(width & height & used & rw & rh & _ & XS & _)|(_ & _ & _ & NE)]; [|contradiction].
      rewrite XS in X1. unfold status_of in X1. destruct (Z.eqb_spec (o_verbosity o) 0) as [V|]; [|discriminate].
      rewrite (lw_verbosity _ _ LW) in V. destruct (last_arg "v" evs) as [a|]; [|discriminate]. exists a. auto.
    + destruct HL as [HL|(width & height & used & er & wd & b & _ & (K & _ & F) & HL)]; [left; exact HL|right; right]. split; [exact K|]. split; [eexists; exact F|]. exists b. exact HL.
  - exists x, w', evs, rest. split; [reflexivity|]. split; [exact GO|]. split; [destruct ST as [(-> & _)|(-> & _)]; auto|].
    split. { intros X1 X2. destruct ST as [(_ & NE)|(X0 & _)]; [contradiction|congruence]. }
    destruct HL as [HL|HL]; auto.
Qed.

(** ** Well-formed files *)
Lemma listed_provides R name : In name (resdet_list_image_readers R) -> provides R name.
Proof.
  unfold provides. destruct R as [a b c d e f g]. intros I.
  repeat split; intros ->; destruct a, b, c, d, e, f, g; cbn in *; try reflexivity; repeat destruct I as [I|I]; try discriminate I; contradiction.
Qed.
Lemma selects_open R E Y o input name want w : relaxed Y -> selects R Y o input name ->
  In name (resdet_list_image_readers R) /\
  open_by R E Y (Some input) (way_of o) true want w = resdet_open_image_with_reader R E Y (Some input) (Some name) true want w.
Proof.
  intros RX. unfold selects, way_of. destruct (o_reader o) as [r|].
  - intros (I & SN). split; [exact I|]. cbn [open_by]. rewrite names_of in I. apply in_map_iff in I. destruct I as (r0 & <- & I).
    apply in_split in I. destruct I as (b & a & EQ). rewrite (by_name_found R E Y input r want w b r0 a RX EQ SN).
    rewrite (by_name_found R E Y input (reader_name r0) want w b r0 a RX EQ eq_refl). reflexivity.
  - intros (ext & T & C). split; [destruct C as (b & a & -> & _); apply in_or_app; right; left; reflexivity|]. cbn [open_by]. eapply by_type_found; eassumption.
Qed.

Lemma film_supplies R E Y o input w s width height name limit fs : env_ok E -> machine_ok Y -> 0 <= o_offset o ->
  film E (y_host Y) width height (s_rest s) name limit fs -> 1 <= width <= SIZE_MAX -> 1 <= height <= SIZE_MAX ->
  delivers Y input s -> selects R Y o input name -> seekable_film E o name width height s ->
  (forall width' height' used er wd, supplies R E Y o input w width' height' used er wd ->
     limit /\ width' = width /\ height' = height /\ o_offset o <= Z.of_nat (length fs) /\ used = first_frames (o_nframes o) (skipn (Z.to_nat (o_offset o)) fs) /\
     er = end_error (o_nframes o) (skipn (Z.to_nat (o_offset o)) fs) (film_end name s)) /\
  (limit -> (forall n, e_alloc E n = true) -> o_offset o <= Z.of_nat (length fs) -> exists er wd,
     supplies R E Y o input w width height (first_frames (o_nframes o) (skipn (Z.to_nat (o_offset o)) fs)) er wd).
Proof.
  intros EO [S RX CO SF FI] O0 FM W H DL SL SK. assert (CF := eo_config _ EO). destruct (ext_sizes Y S) as (sz & X).
  destruct (selects_open R E Y o input name true w RX SL) as (IN & OP).
  pose proof (film_program R E Y input true w s width height name limit fs CF S (listed_provides _ _ IN) DL W H FM) as (im & wi & he & ob & e & w1 & EQ & C).
  rewrite <- OP in EQ.
  assert (OK : forall i, im = Some i -> e = RDEOK -> image_ok sz i /\ im_width i = wi /\ im_height i = he).
  { intros i -> ->. destruct (open_by_ok sz R E Y (Some input) (way_of o) true true w w [] [] CF S RX X (holds_refl w)) as (r & EQ' & O). rewrite EQ in EQ'. inversion EQ'; subst r.
    destruct O as [(_ & i' & Q & W1 & H1 & K & _)|(NE & _)]; [|elim NE; reflexivity]. inversion Q; subst i'. auto. }
  split.
  - intros width' height' used er wd (i & ob' & w1' & e1 & i1 & fs1 & er0 & i2 & EQ' & AS & F & -> & ->). rewrite EQ in EQ'. inversion EQ'; subst. clear EQ'.
    destruct C as [(Q & _)|[(Q & _)|(_ & -> & -> & L & i' & Q & (FR & SC))]]; [discriminate|discriminate|]. inversion Q; subst i'. clear Q.
    destruct (OK i eq_refl eq_refl) as (K & W1 & H1).
    destruct (film_after_seek sz E Y name width height s (film_end name s) i fs (o_offset o) w1' RX X K W1 H1 O0 FR SC SK _ _ _ _ AS) as (B & F').
    destruct (F' eq_refl) as (i2' & F2). destruct (frames_det _ _ _ _ _ F _ _ _ F2) as (-> & -> & _). symmetry in B. apply Z.leb_le in B. auto 10.
  - intros L AL LE. destruct C as [(_ & _ & k & Q)|[(_ & _ & Q)|(-> & -> & -> & _ & i & -> & (FR & SC))]]; [rewrite AL in Q; discriminate|contradiction|].
    destruct (OK i eq_refl eq_refl) as (K & W1 & H1).
    assert (AS : exists b e1 i1 wd, after_seek E Y (o_offset o) i w1 = Ok (b, e1, Some i1, wd)).
    { unfold after_seek. destruct (o_offset o =? 0); [eexists _, _, _, _; reflexivity|]. unfold resdet_seek_frame.
      destruct (reader_seek_ok sz E Y (im_ctx i) (o_offset o) (im_width i) (im_height i) w1 w1 [] [] RX X (proj1 K) (proj2 K) (holds_refl w1)) as (b2 & e2 & c2 & ctx' & w3 & -> & _).
      cbn [bind]. eexists _, _, _, _. reflexivity. }
    destruct AS as (b & e1 & i1 & wd & AS).
    destruct (film_after_seek sz E Y name width height s (film_end name s) i fs (o_offset o) w1 RX X K W1 H1 O0 FR SC SK _ _ _ _ AS) as (B & F').
    assert (B' : b = true) by (rewrite B; apply Z.leb_le; exact LE). clear B. subst b. destruct (F' eq_refl) as (i2 & F2).
    eexists _, wd. exists i, ob, w1, e1, i1, (skipn (Z.to_nat (o_offset o)) fs), (film_end name s), i2. auto.
Qed.
