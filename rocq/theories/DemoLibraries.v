(** Small libraries, for the examples. *)
From Verif Require Import Base BaseProofs Flt Util Methods Analysis Spec Stdio Pgm Pfm Y4m Image ImageHistory SpecImage SpecFormats SpecCli Demo DemoImages
  Library SpecLibrary.
Definition f_one : f32 := f32_of_Z 1.
Open Scope list_scope.
Open Scope Z_scope.

Lemma demo_surroundings l : forallb (fun c => (0 <=? c) && (c <? 256)) l = true -> zlen l <= LONG_MAX -> surroundings_ok demo_env (system_of demo_host l).
Proof.
  intros B Z. split; [reflexivity|]. split; [apply system_of_ok; assumption|].
  split; [intros n f e Q; inversion Q|]. split; [intros x n f e Q; inversion Q; unfold known_code, INT_MAX, RDENOIMG; lia|].
  split; [intros x c b e r c' Q|intros x c k b e r c' Q]; inversion Q; unfold known_code, INT_MAX, RDENOIMG, RDEOK; lia.
Qed.
Lemma demo_memory : memory_suffices demo_env. Proof. intros n. reflexivity. Qed.
Lemma demo_gives H l filename s : may_give (system_of H l) filename s -> s_rest s = l.
Proof. unfold may_give. destruct (String.eqb filename "-"); intros (n & Q); cbn in Q; [subst; reflexivity|inversion Q; reflexivity]. Qed.
Lemma demo_may_give H l filename : exists s, may_give (system_of H l) filename s.
Proof. unfold may_give. destruct (String.eqb filename "-"); eexists; exists 0%nat; reflexivity. Qed.

(** ** PNG: after the signature width, height, colour type, interlaced, and a byte for each row;
    rows of interlaced images are left alone *)
Definition demo_png : png_lib := mkPngLib
  (fun d => match d with
            | w :: h :: c :: i :: _ =>
                if (1 <=? w) && (w <=? 255) && (1 <=? h) && (h <=? 255) && ((c =? 0) || (c =? 2)) then Some (mkInfo w h 8 c false (i =? 1)) else None
            | _ => None
            end)
  (fun _ => true)
  (fun t _ d k => match d with
            | w :: h :: c :: i :: l =>
                Some (repeat (if i =? 1 then None else Some (nth k l 0 mod 256)) (Z.to_nat (png_rowbytes (mkInfo w h 8 c false (i =? 1)) t)))
            | _ => None
            end)
  (fun _ => true).
Definition demo_png_file (interlaced : Z) : list Z := [137; 80; 78; 71; 13; 10; 26; 10; 2; 2; 0; interlaced; 51; 255].
Definition demo_png_rows : list (list (list Z)) := [[[51]; [51]]; [[255]; [255]]].
Lemma demo_png_ok : png_ok demo_png.
Proof.
  split.
  - intros d i. cbn [pl_info demo_png]. destruct d as [|w [|h [|c [|il l]]]]; try discriminate.
    destruct ((1 <=? w) && (w <=? 255) && (1 <=? h) && (h <=? 255) && ((c =? 0) || (c =? 2))) eqn:B; [|discriminate].
    intros Q; inversion Q; subst. rewrite !andb_true_iff in B. destruct B as ((((B1 & B2) & B3) & B4) & B5). apply orb_true_iff in B5.
    unfold png_valid. cbn [pi_width pi_height pi_color pi_depth pi_trns]. split; [lia|]. split; [lia|]. split; [|discriminate].
    unfold png_kind. destruct B5 as [B5|B5]; apply Z.eqb_eq in B5; subst c; [left|right; left]; (split; [reflexivity|]); cbn; auto 8.
  - intros d i t early k l. cbn [pl_info pl_row demo_png]. destruct d as [|w [|h [|c [|il d]]]]; try discriminate.
    destruct ((1 <=? w) && (w <=? 255) && (1 <=? h) && (h <=? 255) && ((c =? 0) || (c =? 2))) eqn:B; [|discriminate].
    intros Q R; inversion Q; inversion R; subst. rewrite !andb_true_iff in B. destruct B as ((((B1 & B2) & B3) & B4) & B5).
    cbn [pi_interlaced]. split; [|split].
    + rewrite zlen_repeat. apply Z2Nat.id. unfold png_rowbytes.
      destruct (png_updated _ t) as [color depth] eqn:U.
      assert (D : 0 <= depth).
      { unfold png_updated in U. cbn [pi_color pi_trns pi_depth] in U. destruct (c =? COLOR_TYPE_PALETTE), t as [[] [] [] []]; cbn in U; injection U as _ U; lia. }
      apply Z.div_pos; [|lia]. cbn [pi_width]. assert (0 <= png_channels color) by (unfold png_channels; destruct (color =? COLOR_TYPE_PALETTE), (has color COLOR_MASK_COLOR), (has color COLOR_MASK_ALPHA); cbn; lia).
      assert (0 <= w) by lia. assert (0 <= w * (png_channels color * depth)) by (apply Z.mul_nonneg_nonneg; [lia|apply Z.mul_nonneg_nonneg; lia]). lia.
    + intros x I. apply repeat_spec in I. destruct (il =? 1); inversion I; subst. apply Z.mod_pos_bound. lia.
    + intros IL I. apply repeat_spec in I. rewrite IL in I. discriminate.
Qed.
Lemma demo_png_is_file filename : png_file demo_png (system_of demo_host (demo_png_file 0)) filename (mkInfo 2 2 8 0 false false) demo_png_rows.
Proof.
  split; [apply demo_may_give|]. split; [intros n e Q; inversion Q|]. intros s G. rewrite (demo_gives _ _ _ _ G). cbv zeta.
  split; [reflexivity|]. split; [cbn; lia|]. split; [reflexivity|]. split; [reflexivity|]. split; [reflexivity|]. split; [reflexivity|].
  split; [repeat constructor|]. intros t early k r U K. split.
  - assert (C : fst (png_updated (mkInfo 2 2 8 0 false false) t) = 0) by (destruct t as [[] [] [] []]; reflexivity). rewrite C.
    intros p P. destruct k as [|[|[|k]]]; cbn in K; inversion K; subst; cbn in P; intuition (subst; reflexivity).
  - assert (C : png_rowbytes (mkInfo 2 2 8 0 false false) t = 2) by (destruct t as [[] [] [] []]; reflexivity).
    change (skipn 8 (demo_png_file 0)) with [2; 2; 0; 0; 51; 255]. cbn [pl_row demo_png]. change (0 =? 1) with false. rewrite C.
    destruct k as [|[|[|k]]]; cbn in K; inversion K; subst; reflexivity.
Qed.

(** ** JPEG: width, height, whether a message comes at the second line, and a byte for each line *)
Definition demo_jpeg : jpeg_lib := mkJpegLib
  (fun d => match d with
            | w :: h :: _ => if (1 <=? w) && (w <=? 255) && (1 <=? h) && (h <=? 255) then Some (w, h) else None
            | _ => None
            end)
  (fun d k => match d with
              | w :: _ :: m :: l => if (m =? 1) && (k =? 1)%nat then Message else Lines [repeat (nth k l 0 mod 256) (Z.to_nat w)]
              | w :: _ => Lines [repeat 0 (Z.to_nat w)]
              | [] => Lines []
              end).
Definition demo_jpeg_file (message : Z) : list Z := [3; 2; message; 51; 255].
Definition demo_jpeg_rows : list (list Z) := [[51; 51; 51]; [255; 255; 255]].
Lemma demo_jpeg_ok : jpeg_ok demo_jpeg.
Proof.
  intros d width height. cbn [jl_header demo_jpeg]. destruct d as [|w [|h d]]; try discriminate.
  destruct ((1 <=? w) && (w <=? 255) && (1 <=? h) && (h <=? 255)) eqn:B; [|discriminate]. rewrite !andb_true_iff in B. destruct B as (((B1 & B2) & B3) & B4).
  intros Q; inversion Q; subst. split; [lia|]. split; [lia|]. intros k rows LT Q2.
  assert (R : exists x, 0 <= x < 256 /\ rows = [repeat x (Z.to_nat width)]).
  { cbn [jl_lines demo_jpeg] in Q2. destruct d as [|m l].
    - inversion Q2. exists 0. split; [lia|reflexivity].
    - destruct ((m =? 1) && (k =? 1)%nat); inversion Q2. eexists. split; [|reflexivity]. apply Z.mod_pos_bound. lia. }
  destruct R as (x & X & ->). change (zlen [repeat x (Z.to_nat width)]) with 1. split; [lia|]. constructor; [|constructor].
  split; [rewrite zlen_repeat; lia|]. apply Forall_forall. intros y Y. apply repeat_spec in Y. subst. exact X.
Qed.
Lemma demo_jpeg_is_file filename : jpeg_file demo_jpeg (system_of demo_host (demo_jpeg_file 0)) filename 3 2 demo_jpeg_rows.
Proof.
  split; [apply demo_may_give|]. split; [intros n e Q; inversion Q|]. split; [reflexivity|].
  intros s G. rewrite (demo_gives _ _ _ _ G). split; [reflexivity|]. exists 2%nat. reflexivity.
Qed.
Lemma demo_jpeg_quiet filename : jpeg_quiet demo_jpeg (system_of demo_host (demo_jpeg_file 0)) filename.
Proof. intros s width height k G _ _. rewrite (demo_gives _ _ _ _ G). cbn. discriminate. Qed.

(** ** MagickWand: three frames of one value each; there is no file "none"; for "silent" errno
    is 0 *)
Definition demo_magick (exports : bool) : magick_lib := mkMagickLib
  (fun _ f => if String.eqb f "none" then inr (BlobError, 2) else if String.eqb f "silent" then inr (FileOpenError, 0) else inl 3%nat)
  (fun _ _ => 0)
  (fun _ => (2, 2))
  (fun s => match s with O => None | S s => Some s end)
  (fun s w h => if exports then Some (repeat (f32_of_Z (Z.of_nat s)) (Z.to_nat (w * h))) else None)
  (fun s => s).
Lemma demo_magick_ok x : magick_ok (demo_magick x).
Proof.
  split; [|split; [|split; [|split]]].
  - intros n f ex errno. cbn. destruct (String.eqb f "none"); [intros Q; inversion Q; unfold INT_MAX; lia|].
    destruct (String.eqb f "silent"); intros Q; inversion Q; unfold INT_MAX; lia.
  - intros n f. cbn. unfold INT_MAX. lia.
  - intros n f s _. cbn. unfold is_size, SIZE_MAX. lia.
  - intros s s'. cbn. destruct s; intros Q; inversion Q; lia.
  - intros s w h l W H. cbn. destruct x; intros Q; inversion Q. rewrite zlen_repeat. nia.
Qed.
Definition demo_frame (n : Z) : list f32 := repeat (f32_of_Z n) 4.
Lemma demo_magick_film : magick_film (demo_magick true) "a.gif" 2 2 [demo_frame 2; demo_frame 1; demo_frame 0].
Proof.
  intros n. exists 3%nat. split; [reflexivity|]. split; [reflexivity|].
  eapply wand_next; [reflexivity|reflexivity|]. eapply wand_next; [reflexivity|reflexivity|]. eapply wand_next; [reflexivity|reflexivity|]. apply wand_end. reflexivity.
Qed.

(** ** FFmpeg: the decoder of the specification; rows are one sample longer than needed *)
Definition decoder_left (d : decoder) : nat :=
  (length (dc_ready d) + length (dc_packet d) + length (concat (map (fun p => [] :: snd p) (dc_packets d))) +
   (if dc_drained d then 0 else S (length (dc_held d))))%nat.
(** [parameters], [index], [read_end]: what avcodec_parameters_to_context, av_find_best_stream
    and, at the end, av_read_frame return; frames are 2x1, given by their first and second
    sample *)
Definition demo_ff (parameters index read_end : Z) (start : decoder) : ff_lib := mkFfLib
  (list (list f32) * decoder) ([], start)
  (fun _ f => if String.eqb f "none" then inr (-2) else inl ([], start))
  (fun _ => 0) (fun _ => index) (fun _ => parameters) (fun _ => 0) (fun _ => 0)
  (fun _ => (2, 1))
  (fun s => let d := snd s in
     match dc_ready d with
     | f :: fs => (0, ([f], mkDecoder (dc_packets d) (dc_packet d) fs (dc_held d) (dc_drained d)))
     | [] => ((if dc_drained d then AVERROR_EOF else AVERROR_EAGAIN), s)
     end)
  (fun s => let d := snd s in
     match dc_packets d with
     | (i, fs) :: ps => (0, i, (fst s, mkDecoder ps fs (dc_ready d) (dc_held d) (dc_drained d)))
     | [] => (read_end, 0, s)
     end)
  (fun s b => let d := snd s in
     if dc_drained d then (AVERROR_EOF, s)
     else if b : bool then (0, (fst s, mkDecoder (dc_packets d) [] (dc_ready d ++ dc_packet d) (dc_held d) false))
     else (0, (fst s, mkDecoder (dc_packets d) (dc_packet d) (dc_ready d ++ dc_held d) [] true)))
  (fun s => (0, [firstn 2 (concat (fst s) ++ [f0; f0]) ++ [f_one]], s))
  (fun e => (-200 <? e) && (e <? 0))
  (fun s => decoder_left (snd s)).
Definition two (f : list f32) : list f32 := firstn 2 (f ++ [f0; f0]).
Lemma two_length f : length (two f) = 2%nat.
Proof. unfold two. rewrite firstn_length, app_length. cbn [length]. lia. Qed.
Lemma demo_ff_ok parameters index read_end start : 0 <= index -> read_end < 0 -> ff_ok (demo_ff parameters index read_end start).
Proof.
  intros IX RE. exists (fun _ => (2, 1)). unfold INT_MAX.
  split; [intros n f e; cbn; destruct (String.eqb f "none"); intros Q; inversion Q; lia|].
  split; [intros s; cbn; lia|]. split; [intros n f s _; cbn; unfold is_size, SIZE_MAX; split; [lia|]; split; [lia|reflexivity]|].
  split; [intros e; cbn; lia|].
  split; [|split; [|split]].
  - intros (l & d) e s'. cbn. destruct d as [ps pk rd hd dr]. cbn. destruct rd as [|f fs].
    + intros Q; inversion Q; subst. split; [destruct dr; unfold AVERROR_EOF, AVERROR_EAGAIN; lia|]. split; [reflexivity|]. split; [cbn; lia|].
      destruct dr; unfold AVERROR_EOF, AVERROR_EAGAIN; lia.
    + intros Q; inversion Q; subst. split; [lia|]. split; [reflexivity|]. unfold decoder_left. cbn. split; lia.
  - intros (l & d) e i s'. cbn. destruct d as [ps pk rd hd dr]. cbn. destruct ps as [|(j & fs) ps].
    + intros Q; inversion Q; subst. split; [reflexivity|]. split; [cbn; lia|]. lia.
    + intros Q; inversion Q; subst. split; [reflexivity|]. unfold decoder_left. cbn. rewrite app_length. split; lia.
  - intros (l & d) b e s'. cbn. destruct d as [ps pk rd hd dr]. cbn. destruct dr; [|destruct b].
    + intros Q; inversion Q; subst. unfold AVERROR_EOF. split; [lia|]. split; [reflexivity|]. split; [cbn; lia|]. lia.
    + intros Q; inversion Q; subst. split; [lia|]. split; [reflexivity|]. unfold decoder_left. cbn. rewrite app_length. split; [lia|]. intros _ X. discriminate.
    + intros Q; inversion Q; subst. split; [lia|]. split; [reflexivity|]. unfold decoder_left. cbn. rewrite app_length. split; lia.
  - intros (l & d) e rows s' Q. assert (X : e = 0 /\ rows = [two (concat l) ++ [f_one]] /\ s' = (l, d)) by (inversion Q; auto).
    destruct X as (-> & -> & ->). split; [lia|]. split; [reflexivity|]. split; [lia|]. intros _. split; [reflexivity|].
    constructor; [|constructor]. rewrite zlen_app. change (zlen [f_one]) with 1. unfold zlen. rewrite two_length. cbn [fst]. lia.
Qed.

Definition seen (s : list (list f32) * decoder) : decoder :=
  let d := snd s in mkDecoder (map (fun p => (fst p, map two (snd p))) (dc_packets d)) (map two (dc_packet d)) (map two (dc_ready d)) (map two (dc_held d)) (dc_drained d).
Lemma demo_decodes parameters index read_end start : decodes (demo_ff parameters index read_end start) 2 1 read_end seen.
Proof.
  split; [|split; [|split]].
  - intros (l & d). destruct d as [ps pk rd hd dr]. destruct rd as [|f fs].
    + exists (l, mkDecoder ps pk [] hd dr). split; reflexivity.
    + exists ([f], mkDecoder ps pk fs hd dr). split; [reflexivity|]. cbn [seen snd dc_ready map]. split; [reflexivity|].
      eexists _, _. split; [reflexivity|]. split; [|reflexivity]. cbn [fst concat app]. rewrite app_nil_r. fold (two f). pose proof (two_length f) as T.
      split; [reflexivity|]. split.
      * constructor; [|constructor]. rewrite zlen_app. unfold zlen. rewrite T. cbn. lia.
      * cbn [map concat]. rewrite app_nil_r. change (Z.to_nat 2) with 2%nat. rewrite firstn_app, T. rewrite firstn_all2 by lia. cbn. rewrite app_nil_r. reflexivity.
  - intros (l & d). destruct d as [ps pk rd hd dr]. destruct ps as [|(i & fs) ps]; cbn.
    + exists 0, (l, mkDecoder [] pk rd hd dr). split; reflexivity.
    + exists (l, mkDecoder ps fs rd hd dr). split; reflexivity.
  - intros (l & d) DR. destruct d as [ps pk rd hd dr]. cbn in DR. subst dr. exists (l, mkDecoder ps [] (rd ++ pk) hd false). split; [reflexivity|].
    unfold seen. cbn. rewrite map_app. reflexivity.
  - intros (l & d) DR. destruct d as [ps pk rd hd dr]. cbn in DR. subst dr. exists (l, mkDecoder ps pk (rd ++ hd) [] true). split; [reflexivity|].
    unfold seen. cbn. rewrite map_app. reflexivity.
Qed.
(** sound packets of stream 0, pictures in stream 1; the second packet completes no picture, the
    third two; one picture is held back *)
Definition demo_picture (n : Z) : list f32 := [f32_of_Z n; f_one].
Definition demo_film : decoder :=
  mkDecoder [(0, [demo_picture 9]); (1, []); (1, [demo_picture 1; demo_picture 2]); (0, []); (1, [demo_picture 3])] [] [] [demo_picture 4] false.
Definition demo_pictures : list (list f32) := map demo_picture [1; 2; 3; 4].
Lemma demo_ff_opens read_end : ff_opens (demo_ff 0 1 read_end demo_film) "a.mkv" 1
  (fun s => fl_size (demo_ff 0 1 read_end demo_film) s = (2, 1) /\ to_come 1 (seen s) = demo_pictures).
Proof.
  intros n. exists ([], demo_film). split; [reflexivity|]. cbn [fl_stream_info fl_best_stream fl_parameters fl_open2 fl_sws_init demo_ff]. unfold INT_MAX.
  split; [lia|]. split; [reflexivity|]. split; [lia|]. split; [lia|]. split; [reflexivity|]. split; [lia|]. split; reflexivity.
Qed.

(** ** Sessions: open a file, make some calls, and keep the verdicts *)
Definition verdict_of (r : image_reply) : bool * Z := match r with IFrame b e _ => (b, e) | ISought b e _ => (b, e) end.
Definition session (rd : image_reader) (E : env) (filename : string) (cs : list image_call) : res (Z * Z * Z * list (bool * Z)) :=
  '(c, width, height, e, w) <- opened_by rd E filename w0 ;;
  match c with
  | None => Ok (width, height, e, [])
  | Some c => '(rs, _, _) <- calls_by rd c width height cs w ;; Ok (width, height, e, map verdict_of rs)
  end.
(** read [k] times into a buffer of [n] samples *)
Definition reads (k n : nat) : list image_call := repeat (IRead (Some (repeat None n))) k.
(** the k-th allocation fails *)
Definition without (k : nat) : env := mkEnv (e_cfg demo_env) (fun n => negb (n =? k)%nat) (e_transform demo_env) (e_qsort demo_env).
