(** The MagickWand reader. *)
From Coq Require Import Permutation.
From Verif Require Import Base BaseProofs Flt Spec Util UtilProofs Methods Analysis WorldProofs Stdio StdioProofs Pgm Pfm Y4m Image
  ImageHistory ImageSafe FrameProofs SpecImage SpecFormats SpecCli Library SpecLibrary LibraryProofs.
Open Scope list_scope.
Open Scope Z_scope.

Lemma magick_close_ok c w w0 : holds w w0 [mg_wand c; mg_blk c] [] -> exists w', magick_close c w = Ok w' /\ holds w' w0 [] [].
Proof. intros H. unfold magick_close. destruct (holds_free _ _ _ _ _ H) as (w1 & -> & H1). cbn [bind]. apply holds_free. exact H1. Qed.
Lemma magick_error_known L n f ex errno : magick_ok L -> 0 <= errno <= INT_MAX -> known_code (magick_error L n f ex errno).
Proof.
  intros (_ & MF & _) B. unfold magick_error. pose proof (MF n f). unfold known_code, INT_MAX, RDENOIMG in *.
  destruct ex; unfold RDENOMEM, RDEINVAL, RDEUNSUPP; try lia.
  destruct (String.eqb f "-"); [lia|]. destruct (ml_fopen L n f =? 0); lia.
Qed.
Definition magick_inv (L : magick_lib) (width height : Z) (N : nat) (c : magick_context) (w0 w : world) : Prop :=
  N = ml_left L (mg_state c) /\ holds w w0 [mg_wand c; mg_blk c] [].
Lemma magick_open_ok L E filename w0 : magick_ok L ->
  exists c width height e w1, magick_open L E filename w0 = Ok (c, width, height, e, w1) /\ known_code e /\
  match c with
  | None => (e <> RDEOK \/ (width = 0 /\ height = 0)) /\ holds w1 w0 [] []
  | Some c => e = RDEOK /\ is_size width /\ is_size height /\ exists N, magick_inv L width height N c w0 w1
  end.
Proof.
  intros MK. unfold magick_open.
  pose proof (holds_alloc (e_alloc E) w0 w0 [] [] (holds_refl w0)) as H1. destruct (alloc (e_alloc E) w0) as [[blk|] w1].
  2: { eexists _, _, _, _, _. split; [reflexivity|]. split; [apply known_rde; unfold RDENOMEM; lia|]. split; [left; discriminate|apply H1]. }
  apply holds_object in H1. destruct (library_object w1) as [wand w2]. cbn [fst snd] in H1.
  destruct (ml_read L (w_count w2) filename) as [s|(ex & errno)] eqn:R.
  - destruct MK as (_ & _ & MS & _). destruct (MS _ _ _ R) as (SW & SH). destruct (ml_size L s) as (width & height).
    eexists _, _, _, _, _. split; [reflexivity|]. split; [apply known_ok|]. split; [reflexivity|]. split; [exact SW|]. split; [exact SH|].
    eexists. split; [reflexivity|exact H1].
  - apply holds_object in H1. destruct (library_object w2) as [exception w3]. cbn [fst snd] in H1.
    destruct (holds_free _ _ _ _ _ H1) as (w4 & -> & H4). cbn [bind].
    destruct (magick_close_ok (mkMagick blk wand 0) w4 w0 H4) as (w5 & -> & H5). cbn [bind].
    eexists _, _, _, _, _. split; [reflexivity|]. split; [apply magick_error_known; [exact MK|]; destruct MK as (ME & _); exact (ME _ _ _ _ R)|].
    split; [right; auto|exact H5].
Qed.
Lemma magick_read_ok L width height N c w0 w buf : magick_ok L -> magick_exports L -> sane width height -> magick_inv L width height N c w0 w ->
  width * height <= zlen buf ->
  exists b e buf' c' w' N', magick_read L c buf width height w = Ok (b, e, buf', c', w') /\
    served width height (IRead (Some buf)) (IFrame b e (Some buf')) /\ magick_inv L width height N' c' w0 w' /\
    ((if b : bool then 1 else 0) + N' <= N)%nat.
Proof.
  intros (_ & _ & _ & MN & MX) MP SN (-> & H) B. unfold magick_read.
  destruct (ml_next L (mg_state c)) as [s|] eqn:Q.
  - destruct (ml_export L s width height) as [l|] eqn:X; [|destruct (MP _ _ _ X)].
    destruct SN as (SN1 & SN2 & _). pose proof (MX s width height l ltac:(lia) ltac:(lia) X) as ZL. rewrite store_splice by lia. cbn [bind]. rewrite splice_0.
    eexists _, _, _, _, _, _. split; [reflexivity|]. split.
    + cbn. split; [apply known_ok|]. split; [rewrite app_length, map_length, skipn_length; unfold zlen in *; lia|].
      intros _. split; [reflexivity|]. exists l. split; [exact ZL|]. f_equal. f_equal. unfold zlen in ZL. lia.
    + split; [split; [reflexivity|exact H]|]. cbn [mg_state]. specialize (MN _ _ Q). lia.
  - eexists _, _, _, _, _, _. split; [reflexivity|]. split; [cbn; split; [apply known_ok|]; split; [reflexivity|discriminate]|].
    split; [split; [reflexivity|exact H]|]. lia.
Qed.
Lemma magick_skip_ok L : magick_ok L -> forall n i calls c, exists b m c',
  magick_skip L n i calls c = (b, calls ++ zrange (i + 1) (i + 1 + Z.of_nat m), c') /\ (m <= n)%nat /\ (b = true -> m = n) /\
  (ml_left L (mg_state c') <= ml_left L (mg_state c))%nat /\ mg_wand c' = mg_wand c /\ mg_blk c' = mg_blk c.
Proof.
  intros MK. induction n as [|n IH]; intros i calls c; cbn [magick_skip].
  { exists true, 0%nat, c. rewrite zrange_empty, app_nil_r by lia. auto 8. }
  destruct (ml_next L (mg_state c)) as [s|] eqn:Q.
  - destruct (IH (i + 1) (calls ++ [i + 1]) (mkMagick (mg_blk c) (mg_wand c) s)) as (b & m & c' & -> & B & T & LF & E1 & E2).
    exists b, (S m), c'. split; [|split; [lia|split; [intros X; rewrite (T X); reflexivity|split; [|auto]]]].
    + rewrite (zrange_cons (i + 1)) by lia. rewrite <- app_assoc. do 4 f_equal. cbn [app]. do 2 f_equal. lia.
    + cbn [mg_state] in LF. destruct MK as (_ & _ & _ & MN & _). specialize (MN _ _ Q). lia.
  - exists false, 0%nat, c. rewrite zrange_empty, app_nil_r by lia. split; [reflexivity|]. split; [lia|]. split; [discriminate|]. auto.
Qed.
Lemma magick_seek_ok L width height N c w0 w k : magick_ok L -> magick_inv L width height N c w0 w -> 0 <= k ->
  exists b e calls c' w' N', magick_seek L c k w = Ok (b, e, calls, c', w') /\
    served width height (ISeek k) (ISought b e calls) /\ magick_inv L width height N' c' w0 w' /\ (N' <= N)%nat.
Proof.
  intros MK (-> & H) K. unfold magick_seek.
  destruct (magick_skip_ok L MK (Z.to_nat k) 0 [] c) as (b & m & c' & -> & B & T & LF & E1 & E2).
  eexists _, _, _, _, _, _. split; [reflexivity|]. split.
  - cbn [served]. split; [apply known_ok|]. split; [reflexivity|]. exists (Z.of_nat m). split; [lia|]. split; [cbn [app]; f_equal; lia|]. intros X. rewrite (T X). lia.
  - split; [split; [reflexivity|rewrite E1, E2; exact H]|exact LF].
Qed.
Lemma magick_contract L E filename : config_ok (e_cfg E) = true -> magick_ok L -> magick_exports L -> contract (magickwand_reader L E) E filename.
Proof.
  intros CF MK MX. apply (contract_ok (magickwand_reader L E) E filename (magick_inv L)).
  - exact CF.
  - intros w0. apply magick_open_ok; assumption.
  - intros. eapply magick_read_ok; eassumption.
  - intros. eapply magick_seek_ok; eassumption.
  - intros width height N c w0 w (_ & H). apply magick_close_ok. exact H.
Qed.

(** ** Films *)
Lemma wand_skip L width height : forall n i calls c fs, wand_at L width height (mg_state c) fs -> exists c',
  magick_skip L n i calls c = (Z.of_nat n <=? zlen fs, calls ++ zrange (i + 1) (i + 1 + Z.min (Z.of_nat n) (zlen fs)), c') /\
  wand_at L width height (mg_state c') (skipn n fs).
Proof.
  induction n as [|n IH]; intros i calls c fs W; cbn [magick_skip].
  { exists c. pose proof (zlen_nonneg fs). rewrite zrange_empty, app_nil_r by lia. cbn [skipn]. split; [|exact W]. destruct (Z.leb_spec (Z.of_nat 0) (zlen fs)); [reflexivity|lia]. }
  inversion W as [s Q|s s' f fs' Q X W']; subst; rewrite Q.
  - change (zlen (@nil (list f32))) with 0. exists c. rewrite zrange_empty, app_nil_r by lia. destruct (Z.leb_spec (Z.of_nat (S n)) 0); [lia|]. split; [reflexivity|exact W].
  - rewrite zlen_cons. pose proof (zlen_nonneg fs'). destruct (IH (i + 1) (calls ++ [i + 1]) (mkMagick (mg_blk c) (mg_wand c) s') fs' W') as (c' & -> & W2).
    exists c'. split; [|exact W2]. rewrite (zrange_cons (i + 1)) by lia. rewrite <- app_assoc. cbn [app]. f_equal. f_equal.
    + destruct (Z.leb_spec (Z.of_nat n) (zlen fs')); destruct (Z.leb_spec (Z.of_nat (S n)) (zlen fs' + 1)); try lia; reflexivity.
    + do 3 f_equal. lia.
Qed.
Lemma magick_projects L E filename width height fs : config_ok (e_cfg E) = true -> magick_ok L -> memory_suffices E ->
  1 <= width -> 1 <= height -> magick_film L filename width height fs ->
  projects (magickwand_reader L E) E filename width height fs.
Proof.
  intros CF MK MS W H FILM.
  apply (projects_ok (magickwand_reader L E) E filename width height fs (fun c fs w => wand_at L width height (mg_state c) fs)).
  - exact CF.
  - lia.
  - intros w0. cbn [rd_open rd_close magickwand_reader].
    destruct (magick_open_ok L E filename w0 MK) as (c & width' & height' & e & w1 & O & _ & M).
    assert (OK : exists c w1, magick_open L E filename w0 = Ok (Some c, width, height, RDEOK, w1) /\ wand_at L width height (mg_state c) fs).
    { unfold magick_open. unfold alloc. rewrite MS. cbn [library_object].
      match goal with |- context [ml_read L ?n filename] => destruct (FILM n) as (s & -> & -> & WA) end.
      eexists _, _. split; [reflexivity|exact WA]. }
    destruct OK as (c1 & w1' & O' & WA). rewrite O' in O. inversion O; subst c width' height' e w1'. destruct M as (_ & _ & _ & N & _ & M).
    exists c1, w1. split; [exact O'|]. split; [exact WA|]. destruct (magick_close_ok _ _ _ M) as (w2 & C & _). exists w2. exact C.
  - intros SN c fs0 w buf WA B. cbn [rd_read magickwand_reader]. unfold magick_read. inversion WA as [s Q|s s' f fs' Q X W']; subst; rewrite Q.
    + eexists _, _, _, _, _, _. split; [reflexivity|]. split; [reflexivity|exact WA].
    + rewrite X. assert (ZF : zlen f = width * height) by (destruct MK as (_ & _ & _ & _ & MX); refine (MX _ _ _ _ _ _ X); lia).
      rewrite store_splice by lia. cbn [bind]. rewrite splice_0. eexists _, _, _, _, _, _. split; [reflexivity|]. split; [reflexivity|exact W'].
  - intros SN c fs0 w k WA K. cbn [rd_seek magickwand_reader]. unfold magick_seek.
    destruct (wand_skip L width height (Z.to_nat k) 0 [] c fs0 WA) as (c' & -> & W2). eexists _, _, _, _, _, _. split; [reflexivity|].
    rewrite Z2Nat.id by exact K. cbn [shown app]. split; [|exact W2]. f_equal. f_equal; [destruct (k <=? zlen fs0); reflexivity|]. f_equal. lia.
Qed.
