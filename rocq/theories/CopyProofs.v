(** imgread: what it writes. *)
From Coq Require Import Permutation Reals String.
From Flocq Require Import IEEE754.Binary IEEE754.Bits.
From Verif Require Import Base BaseProofs Flt Util Methods Analysis Resdetect History Spec SpecAnalysis SpecReport Stdio Pgm Pfm Y4m Image ImageHistory SpecImage SpecFormats
  ImageSafe FrameProofs ImageApi FileProofs ScanProofs Cli SpecCli CodeProofs CliProofs Tools SpecTools ProfileProofs.
Open Scope list_scope.
Open Scope Z_scope.

(** ** Numerals *)
Lemma decimal_loop_ok : forall fuel n acc, 0 <= n < 10 ^ Z.of_nat fuel -> (fuel <> 0)%nat -> exists t, spells t n /\ decimal_loop fuel n acc = t ++ acc.
Proof.
  induction fuel as [|fuel IH]; intros n acc B NZ; [contradiction|]. cbn [decimal_loop].
  assert (M : 0 <= n mod 10 < 10) by (apply Z.mod_pos_bound; lia). assert (DM : n = 10 * (n / 10) + n mod 10) by (apply Z.div_mod; lia).
  assert (DG : digit (48 + n mod 10)) by (unfold digit; lia).
  destruct (Z.eqb_spec (n / 10) 0) as [Z0|N0].
  - exists [48 + n mod 10]. split; [|reflexivity]. replace n with (48 + n mod 10 - 48) at 2 by lia. constructor. exact DG.
  - assert (P : 0 <= n / 10 < 10 ^ Z.of_nat fuel).
    { rewrite Nat2Z.inj_succ, Z.pow_succ_r in B by lia. split; [apply Z.div_pos; lia|apply Z.div_lt_upper_bound; lia]. }
    assert (FN : (fuel <> 0)%nat) by (intros ->; change (10 ^ Z.of_nat 0) with 1 in P; lia).
    destruct (IH (n / 10) (48 + n mod 10 :: acc) P FN) as (t & T & ->). exists (t ++ [48 + n mod 10]). split; [|rewrite <- app_assoc; reflexivity].
    replace n with (10 * (n / 10) + (48 + n mod 10 - 48)) at 2 by lia. constructor; assumption.
Qed.
Lemma decimal_spells n : 0 <= n <= SIZE_MAX -> spells (decimal n) n.
Proof.
  intros B. assert (P : 10 ^ Z.of_nat 20 = 100000000000000000000) by reflexivity. unfold SIZE_MAX in B.
  assert (R : 0 <= n < 10 ^ Z.of_nat 20) by (rewrite P; lia). unfold decimal. assert (N : (20 <> 0)%nat) by discriminate. clear P. revert R N. generalize 20%nat. intros fuel R N.
  destruct (decimal_loop_ok fuel n [] R N) as (t & T & ->). rewrite app_nil_r. exact T.
Qed.

Lemma decimal_loop_len : forall fuel k n acc, 0 <= n < 10 ^ Z.of_nat k -> (length (decimal_loop fuel n acc) <= length acc + S (pred k))%nat.
Proof.
  induction fuel as [|fuel IH]; intros k n acc B; cbn [decimal_loop]; [lia|]. destruct (Z.eqb_spec (n / 10) 0) as [E0|E0]; [cbn [length]; lia|].
  destruct k as [|k]; [change (10 ^ Z.of_nat 0) with 1 in B; assert (n = 0) by lia; subst; elim E0; reflexivity|].
  rewrite Nat2Z.inj_succ, Z.pow_succ_r in B by lia.
  assert (P : 0 <= n / 10 < 10 ^ Z.of_nat k) by (split; [apply Z.div_pos; lia|apply Z.div_lt_upper_bound; lia]).
  destruct k as [|k]; [change (10 ^ Z.of_nat 0) with 1 in P; lia|]. specialize (IH (Datatypes.S k) (n / 10) (48 + n mod 10 :: acc) P). cbn [length pred] in IH |- *. lia.
Qed.
Lemma decimal_len k n : (k <> 0)%nat -> 0 <= n < 10 ^ Z.of_nat k -> (length (decimal n) <= k)%nat.
Proof. intros K B. pose proof (decimal_loop_len 20 k n [] B) as L. unfold decimal. cbn [length] in L. revert L. generalize (decimal_loop 20 n []). intros l L. lia. Qed.

(** ** Frames *)
Definition row_text (H : host) (row : list f32) : list Z := flat_map (bytes_of_float H) row.
Definition head_text (width height : Z) : list Z := chars "Pf" ++ [10] ++ decimal width ++ [32] ++ decimal height ++ [10] ++ chars "-1.0" ++ [10].
Lemma write_rows_ok H width : forall (rows : list (list f32)) more, Forall (fun r => zlen r = width) rows -> 0 <= width -> zlen rows * width < 2^64 ->
  write_rows H (length rows) width (map Some (concat rows ++ more)) = Ok (concat (rev (map (row_text H) rows))).
Proof.
  intros rows. induction rows as [|r rows IH] using rev_ind; intros more F W B; [reflexivity|].
  apply Forall_app in F. destruct F as (F & Fr). inversion Fr as [|? ? Lr _]; subst. rewrite app_length. cbn [length]. rewrite Nat.add_1_r. cbn [write_rows].
  assert (LC : zlen (concat rows) = zlen rows * zlen r).
  { clear -F. induction F as [|x l Q F IH]; [reflexivity|]. cbn [concat]. rewrite zlen_app, zlen_cons, IH, Q. lia. }
  rewrite zlen_app in B. change (zlen [r]) with 1 in B. fold (zlen rows). pose proof (zlen_nonneg rows). pose proof (zlen_nonneg r).
  rewrite wrap_small by nia. rewrite <- LC. rewrite concat_app. cbn [concat]. rewrite app_nil_r, <- app_assoc, map_app.
  rewrite skipn_map_app by (unfold zlen; lia). rewrite map_app, firstn_map_app by (unfold zlen; lia). rewrite filled_some. cbn [bind]. rewrite Z.eqb_refl.
  rewrite <- map_app, <- map_app. rewrite IH by (try exact F; try exact W; nia). cbn [bind]. rewrite map_app, rev_app_distr. reflexivity.
Qed.
(** cut a frame into rows *)
Lemma cut_rows (width : nat) : forall height (f : list f32), length f = (height * width)%nat ->
  exists rows, length rows = height /\ Forall (fun r => length r = width) rows /\ f = concat rows.
Proof.
  induction height as [|h IH]; intros f L.
  - exists []. destruct f; [auto|discriminate].
  - destruct (IH (skipn width f)) as (rows & A & B & C). { rewrite skipn_length. lia. }
    exists (firstn width f :: rows). split; [cbn; lia|]. split; [constructor; [rewrite firstn_length; lia|exact B]|]. cbn [concat]. rewrite <- C. symmetry. apply firstn_skipn.
Qed.
Lemma write_frame_ok H width height f : 1 <= width -> 1 <= height -> width * height < 2^64 -> zlen f = width * height ->
  exists rows l, zlen rows = height /\ Forall (fun r => zlen r = width) rows /\ f = concat rows /\
    write_frame H width height (map Some f) = Ok l /\ l = head_text width height ++ concat (rev (map (row_text H) rows)).
Proof.
  intros W Hh B L. destruct (cut_rows (Z.to_nat width) (Z.to_nat height) f) as (rows & A & F & ->). { unfold zlen in L. nia. }
  eexists rows, _. split; [unfold zlen; lia|]. split; [eapply Forall_impl; [|exact F]; cbn; intros r Q; unfold zlen; lia|]. split; [reflexivity|].
  unfold write_frame. rewrite <- A. pose proof (write_rows_ok H width rows []) as WR. rewrite app_nil_r in WR. rewrite WR.
  - cbn [bind]. split; [reflexivity|]. unfold head_text. rewrite <- !app_assoc. reflexivity.
  - eapply Forall_impl; [|exact F]. cbn. intros r Q. unfold zlen. lia.
  - lia.
  - unfold zlen. nia.
Qed.

Lemma head_ok H width height : 1 <= width <= SIZE_MAX -> 1 <= height <= SIZE_MAX -> scale_text H true (chars "-1.0") -> pfm_head H true false width height (head_text width height).
Proof.
  intros W Hh S. exists (chars "-1.0"). split; [exact S|]. exists [10], [], [], (decimal width), [32], (decimal height), [10], 10.
  assert (G : forall c, c = 10 \/ c = 32 -> gap [c]). { intros c C. split; [discriminate|]. constructor; [|constructor]. unfold white. lia. }
  split; [apply G; auto|]. split; [constructor|]. split; [constructor|]. split; [apply decimal_spells; lia|]. split; [apply G; auto|]. split; [apply decimal_spells; lia|].
  split; [apply G; auto|]. split; [unfold white; lia|]. unfold head_text. reflexivity.
Qed.
Lemma bytes_little H v : h_little H = true -> bytes_of_float H v = float_bytes true v.
Proof. intros L. unfold bytes_of_float, float_bytes. rewrite L. reflexivity. Qed.
Lemma row_ok H row : h_little H = true -> row_bytes true false row (row_text H row).
Proof.
  intros L. exists (map (float_bytes true) row). split.
  - induction row as [|v row IH]; constructor; [constructor|exact IH].
  - unfold row_text. rewrite flat_map_concat_map. f_equal. apply map_ext. intros v. apply bytes_little. exact L.
Qed.
Lemma frame_ok H width height rows : 1 <= width <= SIZE_MAX -> 1 <= height <= SIZE_MAX -> h_little H = true -> scale_text H true (chars "-1.0") ->
  zlen rows = height -> Forall (fun r => zlen r = width) rows ->
  pfm_frame H false width height (concat rows) (head_text width height ++ concat (rev (map (row_text H) rows))).
Proof.
  intros W Hh L S ZR F. eexists true, _, _. split; [apply head_ok; assumption|]. split; [|reflexivity].
  exists rows, (map (row_text H) rows). split; [exact ZR|]. split; [exact F|]. split; [reflexivity|]. split; [|reflexivity].
  clear -L. induction rows as [|r rows IH]; constructor; [apply row_ok; exact L|exact IH].
Qed.

(** ** The loop *)
Lemma write_loop_ok sz Y er im_end : relaxed Y -> (forall x, ext_spec (y_ext Y x) (sz x)) ->
  forall fs im, frames Y im fs er im_end -> image_ok sz im -> forall fuel image out,
  (ctx_left Y (im_ctx im) < fuel)%nat -> zlen image = im_width im * im_height im ->
  exists im' ls, write_loop fuel Y (im_width im) (im_height im) im image out = Ok (er, im', out ++ concat ls) /\ same_image sz im im' /\
    Forall2 (fun f l => exists rows, zlen rows = im_height im /\ Forall (fun r => zlen r = im_width im) rows /\ f = concat rows /\
      l = head_text (im_width im) (im_height im) ++ concat (rev (map (row_text (y_host Y)) rows))) fs ls.
Proof.
  intros R X. induction fs as [|f fs IH]; intros im F K fuel image out FU ZI;
    (destruct fuel as [|fuel]; [lia|]); cbn [write_loop]; set (wh := im_width im * im_height im) in *.
  all: assert (D := proj1 K); assert (WH : 1 <= wh) by (destruct D as (? & ? & ?); unfold wh; nia).
  all: unfold read_at; rewrite ZI; destruct (Z.ltb_spec wh 0); [lia|]; change (0 <? 0) with false; cbn [orb].
  all: change (skipn (Z.to_nat 0) image) with image; change (firstn (Z.to_nat 0) image) with (@nil (option f32)).
  all: inversion F as [? ? ? ? G|? ? ? ? ? ? G F2]; subst.
  all: destruct (G image) as (t2 & EQ & LT & FT); [unfold zlen in ZI; fold wh; lia|]; rewrite EQ; cbn [bind app].
  all: destruct (gives_same sz Y _ _ _ _ _ R X K G) as (S & OKE & LFT); cbn [negb].
  - exists im_end, []. rewrite app_nil_r. split; [reflexivity|]. split; [exact S|constructor].
  - destruct (FT eq_refl) as (LF & ->). fold wh in LF.
    assert (SK : skipn (Z.to_nat wh) image = []) by (apply skipn_all2; unfold zlen in ZI; lia). cbn [negb Z.eqb RDEOK].
    fold wh. rewrite SK, app_nil_r. destruct D as (D1 & D2 & D3).
    destruct (write_frame_ok (y_host Y) (im_width im) (im_height im) f) as (rows & l & R1 & R2 & R3 & -> & R4); [lia|lia|fold wh; unfold SIZE_MAX in D3; lia|unfold zlen; lia|].
    cbn [bind]. destruct S as (K1 & SB & SF & SW & SH).
    destruct (IH im1 F2 K1 fuel (map Some f) (out ++ l)) as (im' & ls & EL & S' & FF).
    { specialize (LFT eq_refl). lia. } { rewrite SW, SH. fold wh. unfold zlen. rewrite map_length. lia. }
    rewrite SW, SH in EL, FF. rewrite EL. exists im', (l :: ls). split; [cbn [concat]; rewrite <- app_assoc; reflexivity|].
    split; [eapply same_image_trans; [split; [exact K1|]; auto|exact S']|]. constructor; [|exact FF]. exists rows. auto.
Qed.

Lemma written_film H width height fs ls : 1 <= width <= SIZE_MAX -> 1 <= height <= SIZE_MAX -> h_little H = true -> scale_text H true (chars "-1.0") ->
  Forall2 (fun f l => exists rows, zlen rows = height /\ Forall (fun r => zlen r = width) rows /\ f = concat rows /\
      l = head_text width height ++ concat (rev (map (row_text H) rows))) fs ls ->
  pfm_frames H (Some false) width height [] fs (concat ls).
Proof.
  intros W Hh L S F. induction F as [|f l fs ls (rows & A & B & -> & ->) F IH]; [constructor|]. cbn [concat].
  apply pfm_frames_one with (colour := false); [intros k Q; congruence|apply frame_ok; assumption|exact IH].
Qed.

(** ** main *)
Lemma imgread_ok R E Y create file output rest w : env_ok E -> system_ok Y -> relaxed Y -> codes_ok Y ->
  exists im width height ob e0 w1, resdet_open_image R E Y (Some file) None true true w = Ok (im, width, height, ob, e0, w1) /\
  exists c w', imgread_main R E Y create (file :: output :: rest) w = Ok (c, w') /\ holds w' w [] [] /\ cp_status c = 0 /\
  ((im = None /\ e0 <> RDEOK /\ cp_file c = None /\ exists msg, resdet_error_str e0 = Ok msg /\ cp_err c = Some msg) \/
   (exists i, im = Some i /\ create output = false /\ cp_file c = None /\ cp_err c = None) \/
   (exists i fs er i' l, im = Some i /\ create output = true /\ frames Y i fs er i' /\ cp_file c = Some l /\
      (er = RDEOK -> cp_err c = None) /\ (er <> RDEOK -> exists msg, resdet_error_str er = Ok msg /\ cp_err c = Some msg) /\
      1 <= width /\ 1 <= height /\ width * height <= SIZE_MAX /\
      (h_little (y_host Y) = true -> scale_text (y_host Y) true (chars "-1.0") -> pfm_frames (y_host Y) (Some false) width height [] fs l))).
Proof.
  intros EO S RX CO. assert (CF := eo_config _ EO). destruct (ext_sizes Y S) as (sz & X).
  destruct (open_by_ok sz R E Y (Some file) (ByType None) true true w w [] [] CF S RX X (holds_refl w)) as ([[[[[im width] height] ob] e0] w1] & EQ & O).
  pose proof (open_by_code Y CO R E (Some file) (ByType None) true true w) as K0.
  cbn [open_by] in EQ, K0. exists im, width, height, ob, e0, w1. split; [exact EQ|]. unfold imgread_main. rewrite EQ in K0. rewrite EQ. cbn [bind]. cbn in K0.
  destruct O as [(-> & i & -> & W & H & K & PM & _ & b & -> & O)|(NE & -> & -> & -> & -> & O)].
  - cbn [Z.eqb negb RDEOK]. assert (D := proj1 K). rewrite W, H in D. destruct D as (D1 & D2 & D3).
    assert (HH : holds w1 w (image_blocks i ++ [b]) (image_files i ++ [])).
    { eapply holds_perm; [rewrite !app_nil_r in O; rewrite app_nil_r; exact O|]. apply Permutation_cons_append. }
    destruct (create output) eqn:CR; cbn [negb].
    + unfold open_file. set (w2 := mkWorld (w_count w1) (w_live w1) (Datatypes.S (w_nfile w1)) (w_nfile w1 :: w_files w1)).
      destruct (all_frames sz Y RX X (ctx_left Y (im_ctx i)) i K (Nat.le_refl _)) as (fs & er & i' & F & _ & _).
      pose proof (left_bound Y (im_ctx i)) as LB.
      destruct (write_loop_ok sz Y er i' RX X fs i F K (Datatypes.S (frames_bound Y (im_ctx i))) (repeat None (Z.to_nat (width * height))) []) as (im' & ls & EL & SI & FF).
      { lia. } { rewrite zlen_repeat, W, H. nia. }
      rewrite W, H in EL, FF. rewrite EL. cbn [bind app].
      assert (KC : known_code er) by (eapply frames_code; eassumption).
      assert (MSG : exists m, (if er =? 0 then Ok None else m <- error_text er ;; Ok (Some m)) = Ok m /\ (er = RDEOK -> m = None) /\ (er <> RDEOK -> exists msg, resdet_error_str er = Ok msg /\ m = Some msg)).
      { destruct (Z.eqb_spec er 0) as [Q|Q]; [exists None; split; [reflexivity|]; split; [auto|intros N; contradiction N]|].
        destruct (error_text_ok er KC) as (msg & -> & ES). cbn [bind]. exists (Some msg). split; [reflexivity|]. split; [intros N; contradiction Q|eauto]. }
      destruct MSG as (m & -> & M1 & M2). cbn [bind]. destruct SI as (K1 & SB & SF & SW & SH).
      assert (H2 : holds w2 w (image_blocks im' ++ [b]) (image_files im' ++ [w_nfile w1])).
      { rewrite SB, SF. destruct HH as (P1 & P2). split; [exact P1|]. rewrite app_nil_r in P2. cbn [w_files w2]. eapply Permutation_trans; [apply perm_skip; exact P2|].
        rewrite <- app_assoc. cbn [app]. apply Permutation_middle. }
      destruct (close_image_ok sz im' w2 w _ _ K1 H2) as (w3 & -> & H3). cbn [bind].
      destruct (holds_close _ _ _ _ _ H3) as (w4 & -> & H4). cbn [bind fst option_map free_opt].
      destruct (holds_free _ _ _ _ _ H4) as (w5 & -> & H5). cbn [bind]. eexists _, _. split; [reflexivity|]. split; [exact H5|]. split; [reflexivity|]. right. right.
      exists i, fs, er, i', (concat ls). split; [reflexivity|]. split; [reflexivity|]. split; [exact F|]. split; [reflexivity|]. split; [exact M1|]. split; [exact M2|].
      split; [exact D1|]. split; [exact D2|]. split; [lia|]. intros L SC. apply written_film; try assumption; nia.
    + cbn [bind Z.eqb]. destruct (close_image_ok sz i w1 w _ _ K HH) as (w3 & -> & H3). cbn [bind option_map fst free_opt].
      destruct (holds_free _ _ _ _ _ H3) as (w5 & -> & H5). cbn [bind]. eexists _, _. split; [reflexivity|]. split; [exact H5|]. split; [reflexivity|]. right. left. exists i. auto.
  - assert (Z0 : e0 =? 0 = false) by (apply Z.eqb_neq; exact NE). rewrite Z0. cbn [negb bind]. rewrite Z0.
    destruct (error_text_ok e0 K0) as (msg & -> & ES). cbn [bind resdet_close_image option_map free_opt]. eexists _, _. split; [reflexivity|]. split; [exact O|]. split; [reflexivity|].
    left. split; [reflexivity|]. split; [exact NE|]. split; [reflexivity|]. eauto.
Qed.
