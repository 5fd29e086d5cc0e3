(** Why the library readers fail to open a file. *)
From Verif Require Import Base BaseProofs Flt Spec Util UtilProofs Methods Analysis WorldProofs Stdio StdioProofs Pgm Pfm Y4m Image
  ImageHistory ImageSafe SpecImage SpecFormats SpecCli Library SpecLibrary LibraryProofs PngProofs JpegProofs MagickProofs FfmpegProofs.
Open Scope list_scope.
Open Scope Z_scope.

Lemma size_only rd E filename :
  (forall w0 c width height e w1, rd_open rd filename w0 = Ok (c, width, height, e, w1) -> e = RDEOK \/ e = RDENOMEM) ->
  fails_for_size_only rd E filename.
Proof.
  intros H w0 c width height e w1. unfold opened_by. destruct (rd_open rd filename w0) as [((((c1 & width1) & height1) & e1) & w2)|u] eqn:O; [|discriminate].
  specialize (H _ _ _ _ _ _ O). cbn [bind].
  destruct (Z.eqb_spec e1 0) as [->|D]; cbn [negb].
  - destruct (dims_exceed_limit _ _ _ _ _) as [[|]|u]; cbn [bind]; [| |discriminate].
    + destruct c1 as [c1|].
      * destruct (rd_close rd c1 w2); cbn [bind]; intros Q; inversion Q; auto.
      * cbn [bind]. intros Q; inversion Q; auto.
    + destruct c1; intros Q; inversion Q; auto.
  - destruct c1 as [c1|].
    + destruct (rd_close rd c1 w2); cbn [bind]; intros Q; inversion Q; subst; destruct H; auto.
    + cbn [bind]. intros Q; inversion Q; subst; destruct H; auto.
Qed.
Lemma png_size_only L E Y filename i rows : png_file L Y filename i rows -> fails_for_size_only (libpng_reader L E Y) E filename.
Proof.
  intros (_ & NO & FILE). apply size_only. intros w0 c width height e w1. cbn [rd_open libpng_reader]. unfold png_open.
  destruct (alloc (e_alloc E) w0) as [[blk|] w2]; [|intros Q; inversion Q; auto].
  destruct (open_stream_never_fails Y filename w2 NO) as (f & s & w3 & -> & G). pose proof (FILE s G) as F. cbv zeta in F. destruct F as (F1 & F2 & F3 & F4 & _).
  unfold fread. destruct (zlen (s_rest s) <? 8) eqn:LT; [unfold zlen in LT; lia|].
  change (Z.to_nat 8) with 8%nat. change [137; 80; 78; 71; 13; 10; 26; 10] with png_signature in F1. rewrite F1. change (zlen png_signature =? 8) with true. cbn [negb].
  destruct (list_eq_dec Z.eq_dec png_signature png_signature) as [_|D]; [|contradiction]. cbn [negb]. cbv zeta.
  destruct (alloc (e_alloc E) w3) as [[png|] w4]; [|destruct (png_close _ _); cbn [bind]; intros Q; inversion Q; auto].
  destruct (alloc (e_alloc E) w4) as [[info|] w5]; [|destruct (png_close _ _); cbn [bind]; intros Q; inversion Q; auto].
  cbn [s_rest with_rest]. rewrite F3, F4. cbn [negb]. intros Q; inversion Q; auto.
Qed.
Lemma jpeg_size_only L E Y filename width height rows : jpeg_file L Y filename width height rows -> fails_for_size_only (libjpeg_reader L E Y) E filename.
Proof.
  intros (_ & NO & _ & FILE). apply size_only. intros w0 c w h e w1. cbn [rd_open libjpeg_reader]. unfold jpeg_open.
  destruct (alloc (e_alloc E) w0) as [[blk|] w2]; [|intros Q; inversion Q; auto].
  destruct (open_stream_never_fails Y filename w2 NO) as (f & s & w3 & -> & G). destruct (FILE s G) as (F & _). cbn [library_object]. rewrite F.
  intros Q; inversion Q; auto.
Qed.
Lemma magick_size_only L E filename : (forall n, exists s, ml_read L n filename = inl s) -> fails_for_size_only (magickwand_reader L E) E filename.
Proof.
  intros FILE. apply size_only. intros w0 c w h e w1. cbn [rd_open magickwand_reader]. unfold magick_open.
  destruct (alloc (e_alloc E) w0) as [[blk|] w2]; [|intros Q; inversion Q; auto]. cbn [library_object].
  match goal with |- context [ml_read L ?n filename] => destruct (FILE n) as (s & ->) end. destruct (ml_size L s). intros Q; inversion Q; auto.
Qed.
Lemma ff_size_only L E filename P : ff_opens L filename 0 P -> fails_for_size_only (ffmpeg_reader L E) E filename.
Proof.
  intros FILE. apply size_only. intros w0 c w h e w1. cbn [rd_open ffmpeg_reader]. unfold ff_open.
  destruct (alloc (e_alloc E) w0) as [[blk|] w2]; [|intros Q; inversion Q; auto]. cbv zeta. fold (ff_name filename).
  match goal with |- context [fl_open L ?n (ff_name filename)] => destruct (FILE n) as (s & -> & O1 & O2 & _ & O4 & O5 & O6 & _) end.
  cbn [library_object]. destruct (Z.ltb_spec (fl_stream_info L s) 0); [lia|]. rewrite O2. change (0 <? 0) with false. cbn [Z.eqb negb].
  match goal with |- context [alloc (e_alloc E) ?w] => destruct (alloc (e_alloc E) w) as [[codec|] w4] end; [|destruct (ff_close _ _); cbn [bind]; intros Q; inversion Q; auto].
  destruct (Z.ltb_spec (fl_parameters L s) 0); [lia|]. cbn [Z.eqb negb]. rewrite O5. cbn [Z.eqb negb].
  destruct (alloc (e_alloc E) w4) as [[b1|] w5]; [|destruct (ff_close _ _); cbn [bind]; intros Q; inversion Q; auto].
  destruct (alloc (e_alloc E) w5) as [[b2|] w6]; [|destruct (ff_close _ _); cbn [bind]; intros Q; inversion Q; auto].
  destruct (alloc (e_alloc E) w6) as [[b3|] w7]; [|destruct (ff_close _ _); cbn [bind]; intros Q; inversion Q; auto].
  destruct (alloc (e_alloc E) w7) as [[b4|] w8]; [|destruct (ff_close _ _); cbn [bind]; intros Q; inversion Q; auto].
  destruct (Z.ltb_spec (fl_sws_init L s) 0); [lia|]. destruct (fl_size L s). intros Q; inversion Q; auto.
Qed.
(** MagickWand: what an exception becomes *)
Lemma magick_open_error L E filename ex errno : magick_ok L -> memory_suffices E -> (forall n, ml_read L n filename = inr (ex, errno)) ->
  forall w0, exists n w1, opened_by (magickwand_reader L E) E filename w0 =
    Ok (None, 0, 0, (let e := magick_error L n filename ex errno in if e =? 0 then RDETOOBIG else e), w1) /\ holds w1 w0 [] [].
Proof.
  intros MK MS RD w0. destruct (magick_open_ok L E filename w0 MK) as (c & width & height & e' & w1 & O & _ & M).
  assert (Q : exists n, match magick_open L E filename w0 with Ok (c, width, height, e', _) => c = None /\ width = 0 /\ height = 0 /\ e' = magick_error L n filename ex errno | _ => True end).
  { unfold magick_open, alloc. rewrite MS. cbn [library_object]. rewrite RD. eexists. destruct (free_block _ _); cbn [bind]; [|exact I].
    destruct (magick_close _ _); cbn [bind]; [|exact I]. split; [reflexivity|]. split; [reflexivity|]. split; reflexivity. }
  destruct Q as (n & Q). rewrite O in Q. destruct Q as (-> & -> & -> & ->). exists n. destruct M as (_ & M).
  unfold opened_by. cbn [rd_open magickwand_reader]. rewrite O. cbn [bind]. cbv zeta.
  destruct (magick_error L n filename ex errno =? 0); cbn [negb dims_exceed_limit Z.eqb andb bind]; eexists; (split; [reflexivity|exact M]).
Qed.
