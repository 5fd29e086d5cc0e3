(** The libpng reader. *)
From Coq Require Import Permutation Reals Lra.
From Flocq Require Import Core IEEE754.BinarySingleNaN IEEE754.Binary IEEE754.Bits.
From Verif Require Import Base BaseProofs Flt FltProofs Spec Util UtilProofs Methods Analysis WorldProofs Stdio StdioProofs Pgm Pfm Y4m Image
  ImageHistory ImageSafe FrameProofs SpecImage SpecFormats SpecCli PgmFilm FormatProofs Library SpecLibrary LibraryProofs.
Open Scope list_scope.
Open Scope Z_scope.

(** ** Transformations *)
Lemma png_chosen i : png_valid i -> png_updated i (png_choose i) = (0, 8) \/ png_updated i (png_choose i) = (2, 8).
Proof.
  intros (_ & _ & K & T). destruct i as [w h depth color trns inter]. cbn [pi_color pi_depth pi_trns] in *.
  assert (C : In color [0; 2; 3; 4; 6] /\ In depth [1; 2; 4; 8; 16]).
  { destruct K as [(-> & K)|[(-> & K)|[(-> & K)|[(-> & K)|(-> & K)]]]]; cbn [In] in *; intuition lia. }
  destruct trns.
  - specialize (T eq_refl). cbn [In] in T.
    destruct K as [(-> & K)|[(-> & K)|[(-> & K)|[(-> & K)|(-> & K)]]]]; try lia; cbn [In] in K;
      repeat (destruct K as [<-|K]; [vm_compute; tauto|]); contradiction.
  - destruct K as [(-> & K)|[(-> & K)|[(-> & K)|[(-> & K)|(-> & K)]]]]; cbn [In] in K;
      repeat (destruct K as [<-|K]; [vm_compute; tauto|]); contradiction.
Qed.
Lemma png_chosen_bytes i : png_valid i ->
  let color := fst (png_updated i (png_choose i)) in
  (if has color COLOR_MASK_COLOR then 3 else 1) = png_channels color /\ In (png_channels color) [1; 3] /\
  png_rowbytes i (png_choose i) = pi_width i * png_channels color.
Proof.
  intros V. assert (B : forall n, (pi_width i * (n * 8) + 7) / 8 = pi_width i * n).
  { intros n. replace (pi_width i * (n * 8) + 7) with (7 + pi_width i * n * 8) by lia. rewrite Z.div_add by lia. reflexivity. }
  unfold png_rowbytes. destruct (png_chosen i V) as [-> | ->]; cbn [fst]; (split; [reflexivity|]; split; [cbn; tauto|]); apply B.
Qed.

(** ** Rows *)
Lemma png_rows_ok L t d rowsize height : 0 <= rowsize -> height * rowsize < 2^64 ->
  (forall k l, pl_row L t false d k = Some l -> zlen l = rowsize /\ (forall c, In (Some c) l -> 0 <= c < 256) /\ ~ In None l) ->
  forall n y (a : list Z) r, Z.of_nat y + Z.of_nat n = height -> zlen a = Z.of_nat y * rowsize -> zlen r = Z.of_nat n * rowsize ->
  (exists im, png_rows L t d n y (if Z.of_nat y =? height then 0 else Z.of_nat y) height rowsize (map Some a ++ r) = Ok (false, im)) \/
  (exists l, png_rows L t d n y (if Z.of_nat y =? height then 0 else Z.of_nat y) height rowsize (map Some a ++ r) = Ok (true, map Some (a ++ l)) /\
     zlen l = zlen r /\ Forall (fun c => 0 <= c < 256) l).
Proof.
  intros RS HR ROW. induction n as [|n IH]; intros y a r Y A R.
  { right. exists []. cbn [png_rows]. replace r with (@nil (option Z)); [rewrite !app_nil_r; auto|].
    destruct r; [reflexivity|]. rewrite zlen_cons in R. pose proof (zlen_nonneg r). lia. }
  cbn [png_rows]. destruct (pl_row L t false d y) as [l|] eqn:Q; [|left; eexists; reflexivity].
  destruct (ROW y l Q) as (ZL & BY & NN). destruct (all_some l NN) as (l' & ->). rewrite zlen_map in ZL.
  destruct (Z.eqb_spec (Z.of_nat y) height) as [D|D]; [lia|].
  assert (RN : rowsize <= zlen r) by nia.
  assert (W : 0 <= Z.of_nat y * rowsize < 2^64) by nia.
  rewrite wrap_small by exact W. rewrite <- A, store_bytes_app by lia. cbn [bind].
  replace (Z.of_nat y + 1) with (Z.of_nat (S y)) by lia.
  assert (LS : zlen (skipn (length l') r) = Z.of_nat n * rowsize).
  { unfold zlen in *. rewrite skipn_length. nia. }
  destruct (IH (S y) (a ++ l') (skipn (length l') r)) as [(im & E)|(m & E & ZM & BM)].
  - lia.
  - rewrite zlen_app. lia.
  - exact LS.
  - left. exists im. exact E.
  - right. exists (l' ++ m). rewrite E, <- app_assoc. split; [reflexivity|]. rewrite zlen_app, ZM, LS. split; [lia|].
    apply Forall_app. split; [|exact BM]. apply Forall_forall. intros c C. apply BY. apply in_map. exact C.
Qed.
(** the rows of an image *)
Lemma png_rows_image L t d rowsize height : 0 <= rowsize -> height * rowsize < 2^64 ->
  forall (rows : list (list Z)) y (a : list Z) r, Forall (fun l => zlen l = rowsize) rows ->
  (forall j l, nth_error rows j = Some l -> pl_row L t false d (y + j) = Some (map Some l)) ->
  Z.of_nat y + zlen rows = height -> zlen a = Z.of_nat y * rowsize -> zlen r = zlen rows * rowsize ->
  png_rows L t d (length rows) y (if Z.of_nat y =? height then 0 else Z.of_nat y) height rowsize (map Some a ++ r) = Ok (true, map Some (a ++ concat rows)).
Proof.
  intros RS HR. induction rows as [|l rows IH]; intros y a r FR ROW Y A R.
  { cbn [length png_rows concat]. replace r with (@nil (option Z)); [rewrite !app_nil_r; auto|].
    destruct r; [reflexivity|]. rewrite zlen_cons in R; change (zlen (@nil (list Z))) with 0 in R. pose proof (zlen_nonneg r). lia. }
  apply Forall_cons_iff in FR. destruct FR as (F1 & F2). rewrite zlen_cons in Y, R. pose proof (zlen_nonneg rows).
  cbn [length png_rows]. rewrite <- (Nat.add_0_r y) at 1. rewrite (ROW 0%nat l eq_refl).
  destruct (Z.eqb_spec (Z.of_nat y) height) as [D|D]; [lia|].
  assert (RN : zlen l <= zlen r) by nia.
  assert (W : 0 <= Z.of_nat y * rowsize < 2^64) by nia.
  rewrite wrap_small by exact W. rewrite <- A, store_bytes_app by lia. cbn [bind].
  replace (Z.of_nat y + 1) with (Z.of_nat (S y)) by lia.
  rewrite IH; [cbn [concat]; rewrite app_assoc; reflexivity|exact F2| |lia|rewrite zlen_app; lia|].
  - intros j m M. replace (S y + j)%nat with (y + S j)%nat by lia. apply ROW. exact M.
  - unfold zlen in *. rewrite skipn_length. nia.
Qed.

(** ** Pixels *)
Definition byte_float (c : Z) : f32 := fdiv (f32_of_Z c) (f32_of_Z 255).
Definition pixel_value (channels : Z) (bytes : list Z) (i : Z) : f32 :=
  if channels =? 1 then byte_float (at_ 0 bytes i)
  else mean3 (byte_float (at_ 0 bytes (i * 3))) (byte_float (at_ 0 bytes (i * 3 + 1))) (byte_float (at_ 0 bytes (i * 3 + 2))).
Lemma byte_float_quotient c : 0 <= c < 256 -> quotient c 255 (byte_float c).
Proof. intros C. apply quotient_div; lia. Qed.
Lemma fval_inj x y r : fval x r -> fval y r -> x = y.
Proof. intros (F & S & V) (F' & S' & V'). apply B2R_Bsign_inj; [exact F|exact F'|unfold rf in *; congruence|congruence]. Qed.
Lemma fval_nonneg x r : fval x r -> (0 <= r)%R.
Proof. intros (F & S & <-). apply sign_nonneg_f; assumption. Qed.
Lemma fval_fmt x r : fval x r -> rnd32 r = r.
Proof. intros (F & S & <-). apply rnd32_id. apply generic_format_B2R. Qed.
Lemma quotient_fval c m v : quotient c m v -> fval v (rnd32 (IZR c / IZR m)).
Proof. intros (F & S & V). split; [exact F|]. split; [exact S|exact V]. Qed.
Lemma fadd_val x y a b : fval x a -> fval y b -> (a + b <= bpow radix2 127)%R -> fval (fadd x y) (rnd32 (a + b)).
Proof.
  intros Hx Hy Hb. pose proof (fval_nonneg _ _ Hx). pose proof (fval_nonneg _ _ Hy).
  destruct Hx as (Fx & Sx & Ex). destruct Hy as (Fy & Sy & Ey).
  unfold fadd, b32_plus.
  match goal with |- fval (Bplus _ _ ?p1 ?p2 ?n _ _ _) _ =>
    pose proof (Bplus_correct 24 128 p1 p2 n mode_NE x y Fx Fy) as C end.
  change (round_mode mode_NE) with ZnearestE in C. rewrite Ex, Ey in C.
  fold (rnd32 (a + b)) in C. rewrite small_lt_emax32 in C by (rewrite Rabs_pos_eq by lra; exact Hb).
  destruct C as (C1 & C2 & C3). repeat split; try assumption.
  rewrite C3. destruct (Rcompare_spec (a + b) 0); try reflexivity; [lra|].
  rewrite Sx. reflexivity.
Qed.
Lemma one_small : (4 <= bpow radix2 127)%R.
Proof. rewrite bpow_IZR by lia. apply IZR_le. lia. Qed.
Lemma fadd_0_l v r : fval v r -> (r <= 4)%R -> fadd (f32_of_Z 0) v = v.
Proof.
  intros V B. pose proof one_small. apply (fval_inj _ _ r); [|exact V]. rewrite <- (fval_fmt _ _ V).
  replace r with (0 + r)%R at 1 by lra. apply fadd_val; [apply (f32_of_Z_exact 0); lia|exact V|lra].
Qed.
Lemma fdiv_1 v r : fval v r -> (r <= 4)%R -> fdiv v (f32_of_Z 1) = v.
Proof.
  intros V B. pose proof one_small. apply (fval_inj _ _ r); [|exact V]. rewrite <- (fval_fmt _ _ V).
  replace r with (r / 1)%R at 1 by (unfold Rdiv; rewrite Rinv_1; lra).
  apply FilterProofs.fdiv_val; [exact V|apply (f32_of_Z_exact 1); lia|lra|unfold Rdiv; rewrite Rinv_1; lra].
Qed.
Lemma byte_float_val c : 0 <= c < 256 -> exists r, fval (byte_float c) r /\ (0 <= r <= 1)%R.
Proof.
  intros C. pose proof (byte_float_quotient c C) as Q. exists (rnd32 (IZR c / IZR 255)). split; [apply quotient_fval, Q|].
  pose proof (quotient_range c 255 _ ltac:(lia) ltac:(lia) Q) as R. destruct Q as (_ & _ & V). rewrite V in R. exact R.
Qed.

(** the loop over the channels of a pixel *)
Lemma channels_loop bytes channels i : In channels [1; 3] -> Forall (fun c => 0 <= c < 256) bytes ->
  0 <= i -> (i + 1) * channels <= zlen bytes -> zlen bytes < 2^64 ->
  (v <- for_range 0 channels (fun c v =>
           b <- byte_value (map Some bytes) (wrap (wrap (i * channels) + c)) ;;
           Ok (fadd v b)) (f32_of_Z 0) ;; Ok (fdiv v (f32_of_Z channels))) = Ok (pixel_value channels bytes i).
Proof.
  intros CH BY I B S. assert (IN : forall j, 0 <= j < zlen bytes -> 0 <= at_ 0 bytes j < 256).
  { intros j J. rewrite Forall_forall in BY. apply BY. unfold at_. apply nth_In. unfold zlen in J. lia. }
  unfold for_range, pixel_value. destruct CH as [<-|[<-|[]]].
  - change (Z.to_nat (1 - 0)) with 1%nat. cbn [for_n bind]. rewrite (wrap_small (i * 1)), wrap_small by lia. replace (i * 1 + 0) with i by lia.
    rewrite byte_value_at by lia. cbn [bind Z.eqb Pos.eqb]. fold (byte_float (at_ 0 bytes i)).
    destruct (byte_float_val (at_ 0 bytes i)) as (r & V & R); [apply IN; lia|].
    rewrite (fadd_0_l _ r V) by lra. rewrite (fdiv_1 _ r V) by lra. reflexivity.
  - change (Z.to_nat (3 - 0)) with 3%nat.
    cbn [for_n bind]. rewrite (wrap_small (i * 3)), wrap_small by lia. rewrite byte_value_at by lia.
    cbn [for_n bind]. rewrite wrap_small by lia. rewrite byte_value_at by lia.
    cbn [for_n bind]. rewrite wrap_small by lia. rewrite byte_value_at by lia.
    cbn [for_n bind Z.eqb Pos.eqb Z.add]. replace (i * 3 + 0) with (i * 3) by lia.
    change (1 + 1) with 2.
    fold (byte_float (at_ 0 bytes (i * 3))) (byte_float (at_ 0 bytes (i * 3 + 1))) (byte_float (at_ 0 bytes (i * 3 + 2))).
    destruct (byte_float_val (at_ 0 bytes (i * 3))) as (r & V & R); [apply IN; lia|].
    rewrite (fadd_0_l _ r V) by lra. reflexivity.
Qed.
Lemma png_convert_ok bytes channels count buf : In channels [1; 3] -> Forall (fun c => 0 <= c < 256) bytes ->
  0 <= count <= zlen buf -> zlen bytes = count * channels -> zlen bytes < 2^64 ->
  png_convert (map Some bytes) channels count buf = Ok (map Some (map (pixel_value channels bytes) (zrange 0 count)) ++ skipn (Z.to_nat count) buf).
Proof.
  intros CH BY C ZB S. apply store_loop; [exact C|]. intros i im I ZI.
  assert (P : 1 <= channels) by (cbn in CH; lia).
  pose proof (channels_loop bytes channels i CH BY ltac:(lia) ltac:(nia) S) as L.
  destruct (for_range 0 channels _ _) as [v|u]; [|discriminate]. cbn [bind] in *. inversion L as [L1]. rewrite L1. reflexivity.
Qed.

(** ** The reader *)
Definition png_inv (L : png_lib) (width height : Z) (N : nat) (c : png_context) (w0 w : world) : Prop :=
  pl_info L (pn_data c) = Some (pn_info c) /\ pn_trans c = png_choose (pn_info c) /\ pi_interlaced (pn_info c) = false /\
  width = pi_width (pn_info c) /\ height = pi_height (pn_info c) /\ N = (if pn_eof c then 0 else 1)%nat /\
  exists png info, pn_png c = Some png /\ pn_infop c = Some info /\ holds w w0 [info; png; pn_blk c] (opt_list (pn_file c)).

Lemma png_close_ok c w w0 : holds w w0 (opt_list (match pn_png c with Some _ => pn_infop c | None => None end) ++ opt_list (pn_png c) ++ [pn_blk c]) (opt_list (pn_file c)) ->
  exists w', png_close c w = Ok w' /\ holds w' w0 [] [].
Proof.
  intros H. unfold png_close.
  assert (exists w1, (match pn_png c with None => Ok w | Some p => w <- free_opt (pn_infop c) w ;; free_block p w end) = Ok w1 /\
            holds w1 w0 [pn_blk c] (opt_list (pn_file c))) as (w1 & -> & H1).
  { destruct (pn_png c) as [p|]; [|exists w; auto].
    destruct (holds_free_opt _ _ _ _ _ H) as (w1 & -> & H1). cbn [bind]. apply holds_free. exact H1. }
  cbn [bind]. rewrite <- (app_nil_r (opt_list (pn_file c))) in H1.
  destruct (holds_close_stream _ _ _ _ _ H1) as (w2 & -> & H2). cbn [bind]. apply holds_free. exact H2.
Qed.
Lemma png_inv_close L width height N c w0 w : png_inv L width height N c w0 w -> exists w', png_close c w = Ok w' /\ holds w' w0 [] [].
Proof.
  intros (_ & _ & _ & _ & _ & _ & png & info & P & I & H). apply png_close_ok. rewrite P, I. exact H.
Qed.

Lemma png_open_ok L E Y filename w0 : surroundings_ok E Y -> png_ok L -> png_plain L Y filename ->
  exists c width height e w1, png_open L E Y filename w0 = Ok (c, width, height, e, w1) /\ known_code e /\
  match c with
  | None => (e <> RDEOK \/ (width = 0 /\ height = 0)) /\ holds w1 w0 [] []
  | Some c => e = RDEOK /\ is_size width /\ is_size height /\ exists N, png_inv L width height N c w0 w1
  end.
Proof.
  intros (CF & SY & CY) (PV & _) PP. unfold png_open.
  pose proof (holds_alloc (e_alloc E) w0 w0 [] [] (holds_refl w0)) as H1. destruct (alloc (e_alloc E) w0) as [[blk|] w1].
  2: { eexists _, _, _, _, _. split; [reflexivity|]. split; [apply known_rde; unfold RDENOMEM; lia|]. split; [left; discriminate|apply H1]. }
  pose proof (open_stream_ok Y filename w1 w0 [blk] [] SY H1) as H2. unfold open_stream in *.
  assert (MG : forall f s w2, (if String.eqb filename "-" then (inl (None, y_stdin Y (w_count w1)), w1)
      else match y_fopen Y (w_count w1) filename with
           | inr errno => (inr errno, w1)
           | inl s => let '(f, w) := open_file w1 in (inl (Some f, s), w)
           end) = (inl (f, s), w2) -> may_give Y filename s).
  { intros f s w2. unfold may_give. destruct (String.eqb filename "-").
    - intros Q. inversion Q; subst. eauto.
    - destruct (y_fopen Y (w_count w1) filename) as [s'|] eqn:O; cbn [open_file]; intros Q; inversion Q; subst. eauto. }
  assert (EG : forall errno w2, (if String.eqb filename "-" then (inl (None, y_stdin Y (w_count w1)), w1)
      else match y_fopen Y (w_count w1) filename with
           | inr errno => (inr errno, w1)
           | inl s => let '(f, w) := open_file w1 in (inl (Some f, s), w)
           end) = (inr errno, w2) -> 0 < errno <= INT_MAX).
  { intros errno w2. destruct (String.eqb filename "-"); [discriminate|].
    destruct (y_fopen Y (w_count w1) filename) as [s'|] eqn:O; cbn [open_file]; intros Q; inversion Q; subst.
    destruct CY as (CY & _). exact (CY _ _ _ O). }
  destruct (if String.eqb filename "-" then _ else _) as [[(f & s)|errno] w2].
  2: { specialize (EG errno w2 eq_refl). destruct H2 as (_ & H2). destruct (holds_free _ _ _ _ _ H2) as (w3 & -> & H3). cbn [bind].
       eexists _, _, _, _, _. split; [reflexivity|]. split; [unfold known_code, RDENOIMG; lia|]. split; [left; unfold RDEOK; lia|exact H3]. }
  specialize (MG f s w2 eq_refl). clear EG. destruct H2 as (SO & H2 & _). rewrite app_nil_r in H2.
  assert (FAIL : forall png info width height e w, holds w w0 (opt_list (match png with Some _ => info | None => None end) ++ opt_list png ++ [blk]) (opt_list f) ->
      e <> RDEOK -> known_code e -> exists c width' height' e' w1,
      (w <- png_close (mkPng blk f false png info [] no_info no_trans) w ;; Ok (None, width, height, e, w)) = Ok (c, width', height', e', w1) /\ known_code e' /\
      match c with
      | None => (e' <> RDEOK \/ (width' = 0 /\ height' = 0)) /\ holds w1 w0 [] []
      | Some c => e' = RDEOK /\ is_size width' /\ is_size height' /\ exists N, png_inv L width' height' N c w0 w1
      end).
  { intros png info width height e w H D K. destruct (png_close_ok (mkPng blk f false png info [] no_info no_trans) w w0 H) as (w' & -> & H').
    cbn [bind]. eexists _, _, _, _, _. split; [reflexivity|]. split; [exact K|]. split; [left; exact D|exact H']. }
  destruct (fread 8 s) as [header s'] eqn:FR.
  destruct (zlen header =? 8) eqn:Z8; cbn [negb]. 2: { apply FAIL; [exact H2|discriminate|apply known_rde; unfold RDEINVAL; lia]. }
  assert (SR : s_rest s' = skipn 8 (s_rest s)).
  { unfold fread in FR. destruct (zlen (s_rest s) <? 8) eqn:LT; inversion FR; subst; [|reflexivity]. lia. }
  destruct (list_eq_dec Z.eq_dec header png_signature); cbn [negb]. 2: { apply FAIL; [exact H2|discriminate|apply known_rde; unfold RDEINVAL; lia]. }
  pose proof (holds_alloc (e_alloc E) w2 w0 [blk] (opt_list f) H2) as H3. destruct (alloc (e_alloc E) w2) as [[png|] w3].
  2: { apply FAIL; [apply H3|discriminate|apply known_rde; unfold RDENOMEM; lia]. }
  pose proof (holds_alloc (e_alloc E) w3 w0 [png; blk] (opt_list f) H3) as H4. destruct (alloc (e_alloc E) w3) as [[info|] w4].
  2: { apply FAIL; [apply H4|discriminate|apply known_rde; unfold RDENOMEM; lia]. }
  destruct (pl_info L (s_rest s')) as [i|] eqn:PI. 2: { apply FAIL; [exact H4|discriminate|apply known_rde; unfold RDEINVAL; lia]. }
  destruct (pl_update L (s_rest s')); cbn [negb]. 2: { apply FAIL; [exact H4|discriminate|apply known_rde; unfold RDEINVAL; lia]. }
  eexists _, _, _, _, _. split; [reflexivity|]. split; [apply known_ok|]. split; [reflexivity|].
  destruct (PV _ _ PI) as (VW & VH & _). split; [unfold is_size, SIZE_MAX; lia|]. split; [unfold is_size, SIZE_MAX; lia|].
  eexists. split; [exact PI|]. split; [reflexivity|]. cbn [pn_info]. split; [|split; [reflexivity|split; [reflexivity|split; [reflexivity|]]]].
  - rewrite SR in PI. exact (PP s i MG PI).
  - exists png, info. split; [reflexivity|]. split; [reflexivity|]. exact H4.
Qed.

Lemma png_read_ok L E width height N c w0 w buf : png_ok L -> sane width height -> png_inv L width height N c w0 w -> width * height <= zlen buf ->
  exists b e buf' c' w' N', png_read L E c buf width height w = Ok (b, e, buf', c', w') /\
    served width height (IRead (Some buf)) (IFrame b e (Some buf')) /\ png_inv L width height N' c' w0 w' /\
    ((if b : bool then 1 else 0) + N' <= N)%nat.
Proof.
  intros (PV & PR) SN (PI & PT & PL & PW & PH & -> & png & info & PP & PO & H) B. unfold png_read.
  destruct (pn_eof c) eqn:EF.
  { eexists _, _, _, _, _, _. split; [reflexivity|]. split; [cbn; split; [apply known_ok|]; split; [reflexivity|discriminate]|].
    split; [split; [exact PI|]; split; [exact PT|]; split; [exact PL|]; split; [exact PW|]; split; [exact PH|]; split; [reflexivity|]; exists png, info; auto|].
    rewrite EF. lia. }
  cbn [pn_blk pn_file pn_eof pn_png pn_infop pn_data pn_info pn_trans].
  set (c' := mkPng (pn_blk c) (pn_file c) true (pn_png c) (pn_infop c) (pn_data c) (pn_info c) (pn_trans c)).
  assert (DONE : forall w', holds w' w0 [info; png; pn_blk c] (opt_list (pn_file c)) -> png_inv L width height 0 c' w0 w').
  { intros w' H'. split; [exact PI|]. split; [exact PT|]. split; [exact PL|]. split; [exact PW|]. split; [exact PH|]. split; [reflexivity|]. exists png, info. auto. }
  pose proof (holds_alloc (e_alloc E) w w0 _ _ H) as H1. destruct (alloc (e_alloc E) w) as [[blk|] w1].
  2: { eexists _, _, _, _, _, 0%nat. split; [reflexivity|]. split; [cbn; split; [apply known_rde; unfold RDENOMEM; lia|]; split; [reflexivity|discriminate]|].
       split; [apply DONE, H1|cbn; lia]. }
  pose proof (PV _ _ PI) as V. destruct (png_chosen_bytes _ V) as (CH & CH2 & RB). rewrite <- PT in CH, CH2, RB. rewrite CH.
  set (ch := png_channels (fst (png_updated (pn_info c) (pn_trans c)))) in *. clearbody ch.
  assert (C1 : 1 <= ch <= 3) by (cbn in CH2; lia). destruct SN as (S1 & S2 & S3). unfold SIZE_MAX in S3.
  rewrite !(wrap_small (width * height)) by nia. rewrite !(wrap_small (width * height * ch)) by nia. rewrite !(wrap_small (width * ch)) by nia.
  rewrite PL. rewrite Nat.mul_1_l.
  destruct (png_rows_ok L (pn_trans c) (pn_data c) (width * ch) height) with (n := Z.to_nat height) (y := 0%nat) (a := @nil Z) (r := repeat (@None Z) (Z.to_nat (width * height * ch)))
    as [(im & Q)|(l & Q & ZL & BL)].
  - nia.
  - nia.
  - intros k l Q. destruct (PR _ _ _ _ _ _ PI Q) as (Q1 & Q2 & Q3). rewrite Q1, RB, <- PW. auto.
  - lia.
  - reflexivity.
  - rewrite zlen_repeat. nia.
  - destruct (Z.of_nat 0 =? height) eqn:Z0; [lia|]. cbn [map app] in Q. change (Z.of_nat 0) with 0 in Q. rewrite Q. cbn [bind andb].
    destruct (holds_free _ _ _ _ _ H1) as (w2 & -> & H2). cbn [bind].
    eexists _, _, _, _, _, 0%nat. split; [reflexivity|]. split; [cbn; split; [apply known_rde; unfold RDEINVAL; lia|]; split; [reflexivity|discriminate]|].
    split; [apply DONE, H2|cbn; lia].
  - destruct (Z.of_nat 0 =? height) eqn:Z0; [lia|]. cbn [map app] in Q. change (Z.of_nat 0) with 0 in Q. rewrite Q. cbn [bind andb].
    destruct (pl_end L (pn_data c)).
    + assert (Q64 : 0 <= width * height * ch < 2^64) by nia. assert (Q32 : 0 <= width * height) by nia.
      rewrite zlen_repeat, Z2Nat.id in ZL by apply Q64. rewrite png_convert_ok; [|exact CH2|exact BL|lia|lia|lia]. cbn [bind].
      destruct (holds_free _ _ _ _ _ H1) as (w2 & -> & H2). cbn [bind].
      eexists _, _, _, _, _, 0%nat. split; [reflexivity|]. split.
      * cbn. split; [apply known_ok|]. split.
        { rewrite app_length, !map_length, skipn_length. unfold zrange. rewrite length_zseq. unfold zlen in B. lia. }
        intros _. split; [reflexivity|]. eexists. split; [|reflexivity]. rewrite zlen_map, zlen_zrange by nia. lia.
      * split; [apply DONE, H2|cbn; lia].
    + cbn [bind]. destruct (holds_free _ _ _ _ _ H1) as (w2 & -> & H2). cbn [bind].
      eexists _, _, _, _, _, 0%nat. split; [reflexivity|]. split; [cbn; split; [apply known_rde; unfold RDEINVAL; lia|]; split; [reflexivity|discriminate]|].
      split; [apply DONE, H2|cbn; lia].
Qed.

Lemma one_frame_served width height k eof : 0 <= k ->
  served width height (ISeek k) (ISought ((k =? 0) || negb (eof || (k >? 1))) RDEOK (if negb (k =? 0) && negb eof then [1] else [])).
Proof.
  intros K. cbn. split; [apply known_ok|]. split; [reflexivity|].
  destruct (Z.eqb_spec k 0) as [->|D]; cbn [negb andb orb]; [exists 0; split; [lia|]; split; [reflexivity|lia]|].
  destruct eof; cbn [negb andb orb]; [exists 0; split; [lia|]; split; [reflexivity|discriminate]|].
  exists 1. split; [lia|]. split; [reflexivity|]. intros Q. destruct (Z.gtb_spec k 1); [discriminate|lia].
Qed.
Lemma png_seek_ok L width height N c w0 w k : png_inv L width height N c w0 w -> 0 <= k ->
  exists b e calls c' w' N', png_seek c k w = Ok (b, e, calls, c', w') /\
    served width height (ISeek k) (ISought b e calls) /\ png_inv L width height N' c' w0 w' /\ (N' <= N)%nat.
Proof.
  intros (PI & PT & PL & PW & PH & -> & png & info & PP & PO & H) K. unfold png_seek.
  pose proof (one_frame_served width height k (pn_eof c) K) as S.
  destruct (negb (k =? 0) && negb (pn_eof c)).
  - eexists _, _, _, _, _, 0%nat. split; [reflexivity|]. split; [exact S|]. split; [|lia].
    split; [exact PI|]. split; [exact PT|]. split; [exact PL|]. split; [exact PW|]. split; [exact PH|]. split; [reflexivity|]. exists png, info. auto.
  - eexists _, _, _, _, _, _. split; [reflexivity|]. split; [exact S|]. split; [|apply Nat.le_refl].
    split; [exact PI|]. split; [exact PT|]. split; [exact PL|]. split; [exact PW|]. split; [exact PH|]. split; [reflexivity|]. exists png, info. auto.
Qed.

Lemma png_contract L E Y filename : surroundings_ok E Y -> png_ok L -> png_plain L Y filename -> contract (libpng_reader L E Y) E filename.
Proof.
  intros SU PK PP. apply (contract_ok (libpng_reader L E Y) E filename (png_inv L)).
  - apply SU.
  - intros w0. apply png_open_ok; assumption.
  - intros. eapply png_read_ok; eassumption.
  - intros. eapply png_seek_ok; eassumption.
  - intros. eapply png_inv_close; eassumption.
Qed.


(** ** The frame of a file *)
Lemma pixels_values ch : In ch [1; 3] -> forall (px : list (list Z)) vs, Forall2 pixel_of px vs ->
  (forall p, In p px -> zlen p = ch) -> Forall (fun c => 0 <= c < 256) (concat px) ->
  map (pixel_value ch (concat px)) (zrange 0 (zlen px)) = vs.
Proof.
  intros CH. induction 1 as [|p v px vs P F IH]; intros ZP BY; [reflexivity|].
  rewrite zlen_cons. pose proof (zlen_nonneg px). rewrite zrange_cons by lia. cbn [map concat] in *.
  apply Forall_app in BY. destruct BY as (B1 & B2).
  assert (Z1 : zlen p = ch) by (apply ZP; left; reflexivity). assert (C1 : 1 <= ch) by (cbn in CH; lia).
  f_equal.
  - unfold pixel_value. destruct P as [c v Q|r g b x y z Q1 Q2 Q3]; cbn in Z1; subst ch; cbn [Z.eqb Pos.eqb].
    + apply (quotient_unique c 255); [|exact Q]. apply byte_float_quotient. apply Forall_inv in B1. exact B1.
    + inversion B1 as [|? ? R1 B3]; subst. inversion B3 as [|? ? R2 B4]; subst. inversion B4 as [|? ? R3 _]; subst.
      change (at_ 0 ([r; g; b] ++ concat px) (0 * 3)) with r. change (at_ 0 ([r; g; b] ++ concat px) (0 * 3 + 1)) with g.
      change (at_ 0 ([r; g; b] ++ concat px) (0 * 3 + 2)) with b.
      rewrite (quotient_unique r 255 (byte_float r) x (byte_float_quotient r R1) Q1).
      rewrite (quotient_unique g 255 (byte_float g) y (byte_float_quotient g R2) Q2).
      rewrite (quotient_unique b 255 (byte_float b) z (byte_float_quotient b R3) Q3). reflexivity.
  - rewrite (map_zrange_shift (pixel_value ch (p ++ concat px)) 1 0 (zlen px)).
    rewrite <- IH; [|intros q Q; apply ZP; right; exact Q|exact B2].
    apply map_ext_in. intros i I. apply in_zrange in I. unfold pixel_value.
    destruct CH as [<-|[<-|[]]]; cbn [Z.eqb Pos.eqb].
    + rewrite at_app_r by lia. do 2 f_equal. lia.
    + rewrite !at_app_r by lia. f_equal; do 2 f_equal; lia.
Qed.
(** what the reader holds: the frame is still to come, or not *)
Definition png_film_inv (L : png_lib) (i : png_info) (bytes : list (list Z)) (frame : list f32) (c : png_context) (fs : list (list f32)) (w : world) : Prop :=
  pn_info c = i /\ pn_trans c = png_choose i /\ fs = (if pn_eof c then [] else [frame]) /\
  (forall k r, nth_error bytes k = Some r -> pl_row L (png_choose i) false (pn_data c) k = Some (map Some r)) /\ pl_end L (pn_data c) = true.
Lemma shown_seek_one (frame : list f32) (eof : bool) k : 0 <= k ->
  shown RDEOK (ISeek k) (if eof then [] else [frame]) =
    (ISought ((k =? 0) || negb (eof || (k >? 1))) RDEOK (if negb (k =? 0) && negb eof then [1] else []),
     if eof || negb (k =? 0) then [] else [frame]).
Proof.
  intros K. cbn [shown]. destruct eof; cbn [orb negb andb].
  - change (zlen (@nil (list f32))) with 0. rewrite Z.min_r by lia. rewrite zrange_empty by lia. rewrite skipn_nil.
    destruct (Z.eqb_spec k 0) as [->|D]; cbn [negb andb orb]; [reflexivity|]. destruct (Z.leb_spec k 0); [lia|reflexivity].
  - change (zlen [frame]) with 1. destruct (Z.eqb_spec k 0) as [->|D]; cbn [negb andb orb]; [reflexivity|].
    rewrite Z.min_r by lia. change (zrange 1 (1 + 1)) with [1].
    replace (skipn (Z.to_nat k) [frame]) with (@nil (list f32)) by (symmetry; apply skipn_all2; cbn; lia).
    destruct (Z.leb_spec k 1); destruct (Z.gtb_spec k 1); try lia; reflexivity.
Qed.
Lemma png_projects L E Y filename i rows vs : surroundings_ok E Y -> png_ok L -> memory_suffices E ->
  png_file L Y filename i rows -> pi_interlaced i = false -> Forall2 pixel_of (concat rows) vs ->
  projects (libpng_reader L E Y) E filename (pi_width i) (pi_height i) [vs].
Proof.
  intros SU (PV & PR) MS ((s0 & G0) & NO & FILE) PL PX.
  pose proof (FILE s0 G0) as F0. cbv zeta in F0. destruct F0 as (_ & _ & I0 & _ & _ & ZR & RW & _).
  pose proof (PV _ _ I0) as V. destruct V as (VW & VH & _). pose proof (PV _ _ I0) as V.
  destruct (png_chosen_bytes i V) as (CH & CH2 & RB).
  set (ch := png_channels (fst (png_updated i (png_choose i)))) in *.
  set (bytes := map (@concat Z) rows).
  assert (PC : forall r p, In r rows -> In p r -> zlen p = ch).
  { intros r p R P. pose proof (FILE s0 G0) as F0. cbv zeta in F0. destruct F0 as (_ & _ & _ & _ & _ & _ & _ & F1).
    apply In_nth_error in R. destruct R as (k & R). apply (proj1 (F1 (png_choose i) false k r (png_chosen i V) R) p P). }
  assert (BZ : Forall (fun l => zlen l = pi_width i * ch) bytes).
  { unfold bytes. apply Forall_map, Forall_forall. intros r R. rewrite Forall_forall in RW. rewrite <- (RW r R).
    specialize (PC r). assert (PC' : forall p, In p r -> zlen p = ch) by (intros p P; exact (PC p R P)). clear -PC'.
    induction r as [|p r IH]; [reflexivity|]. cbn [concat]. rewrite zlen_app, zlen_cons, IH by (intros q Q; apply PC'; right; exact Q).
    rewrite (PC' p) by (left; reflexivity). lia. }
  assert (BR : Forall (Forall (fun c => 0 <= c < 256)) bytes).
  { unfold bytes. apply Forall_map, Forall_forall. intros r R. apply Forall_forall. intros c C.
    pose proof (FILE s0 G0) as F0. cbv zeta in F0. destruct F0 as (_ & _ & _ & _ & _ & _ & _ & F1).
    apply In_nth_error in R. destruct R as (k & R). destruct (F1 (png_choose i) false k r (png_chosen i V) R) as (_ & Q).
    destruct (PR _ _ _ _ _ _ I0 Q) as (_ & Q2 & _). apply Q2. apply in_map. exact C. }
  assert (BC : concat bytes = concat (concat rows)).
  { unfold bytes. clear. induction rows as [|r rows IH]; [reflexivity|]. cbn [map concat]. rewrite IH, concat_app. reflexivity. }
  assert (ZX : zlen (concat rows) = pi_width i * pi_height i).
  { rewrite <- ZR. clear -RW. induction RW as [|r rows R _ IH]; [cbn; lia|]. cbn [concat]. rewrite zlen_app, zlen_cons, IH, R. lia. }
  apply (projects_ok (libpng_reader L E Y) E filename (pi_width i) (pi_height i) [vs] (png_film_inv L i bytes vs)).
  - apply SU.
  - lia.
  - intros w0. destruct (png_open_ok L E Y filename w0 SU (conj PV PR)) as (c & width & height & e & w1 & O & _ & M).
    { intros s j G J. pose proof (FILE s G) as F. cbv zeta in F. destruct F as (_ & _ & F & _). congruence. }
    cbn [rd_open libpng_reader].
    assert (OK : exists blk f png info d w1', png_open L E Y filename w0 = Ok (Some (mkPng blk f false (Some png) (Some info) d i (png_choose i)), pi_width i, pi_height i, RDEOK, w1') /\
              exists s, may_give Y filename s /\ d = skipn 8 (s_rest s)).
    { unfold png_open. unfold alloc at 1. rewrite MS.
      assert (OS : exists f s w2, open_stream Y filename (mkWorld (S (w_count w0)) (w_count w0 :: w_live w0) (w_nfile w0) (w_files w0)) = (inl (f, s), w2) /\ may_give Y filename s).
      { unfold open_stream, may_give. destruct (String.eqb_spec filename "-") as [->|D]; [eexists _, _, _; split; [reflexivity|eauto]|].
        destruct (y_fopen Y _ filename) as [s|errno] eqn:Q; [|destruct D; eapply NO; exact Q]. cbn [open_file]. eexists _, _, _. split; [reflexivity|eauto]. }
      destruct OS as (f & s & w2 & -> & G). pose proof (FILE s G) as F. cbv zeta in F. destruct F as (F1 & F2 & F3 & F4 & F5 & F6 & F7 & _).
      unfold fread. destruct (zlen (s_rest s) <? 8) eqn:LT; [unfold zlen in LT; lia|].
      change (Z.to_nat 8) with 8%nat. change [137; 80; 78; 71; 13; 10; 26; 10] with png_signature in F1. rewrite F1. change (zlen png_signature =? 8) with true. cbn [negb].
      destruct (list_eq_dec Z.eq_dec png_signature png_signature) as [_|D]; [|contradiction]. cbn [negb].
      unfold alloc at 1. rewrite MS. unfold alloc at 1. rewrite MS. cbn [s_rest with_rest]. rewrite F3, F4. cbn [negb].
      eexists _, _, _, _, _, _. split; [reflexivity|]. exists s. auto. }
    destruct OK as (blk & f & png & info & d & w1' & O' & s & G & ->). rewrite O' in O. inversion O; subst c width height e w1'. clear O.
    destruct M as (_ & _ & _ & N & M). exists (mkPng blk f false (Some png) (Some info) (skipn 8 (s_rest s)) i (png_choose i)), w1.
    split; [exact O'|]. split.
    + pose proof (FILE s G) as F. cbv zeta in F. destruct F as (F1 & F2 & F3 & F4 & F5 & F6 & F7 & F8).
      split; [reflexivity|]. split; [reflexivity|]. split; [reflexivity|]. split; [|exact F5]. intros k r K.
      unfold bytes in K. rewrite nth_error_map in K. destruct (nth_error rows k) as [r'|] eqn:Q; [|discriminate]. inversion K; subst.
      apply (F8 (png_choose i) false k r' (png_chosen i V) Q).
    + destruct (png_inv_close _ _ _ _ _ _ _ M) as (w2 & C & _). exists w2. exact C.
  - intros SN c fs w buf (CI & CT & -> & CR & CE) B. cbn [rd_read libpng_reader]. unfold png_read. destruct (pn_eof c) eqn:EF.
    { eexists _, _, _, _, _, _. split; [reflexivity|]. split; [reflexivity|]. split; [exact CI|]. split; [exact CT|]. rewrite EF. auto. }
    cbn [pn_blk pn_file pn_eof pn_png pn_infop pn_data pn_info pn_trans]. rewrite CI, CT.
    unfold alloc. rewrite MS. rewrite CH. fold ch.
    assert (C1 : 1 <= ch <= 3) by (cbn in CH2; lia). destruct SN as (S1 & S2 & S3). unfold SIZE_MAX in S3.
    set (width := pi_width i) in *. set (height := pi_height i) in *.
    assert (Q64 : 0 <= width * height * ch < 2^64) by nia. assert (Q32 : 0 <= width * height < 2^64) by nia. assert (Q33 : 0 <= width * ch < 2^64) by nia.
    rewrite !(wrap_small (width * height)) by exact Q32. rewrite !(wrap_small (width * height * ch)) by exact Q64. rewrite !(wrap_small (width * ch)) by exact Q33.
    rewrite PL, Nat.mul_1_l.
    pose proof (png_rows_image L (png_choose i) (pn_data c) (width * ch) height ltac:(lia) ltac:(nia) bytes 0%nat [] (repeat None (Z.to_nat (width * height * ch)))
      BZ CR) as Q.
    assert (ZB : zlen bytes = height) by (unfold bytes; rewrite zlen_map; exact ZR).
    specialize (Q ltac:(lia) eq_refl). rewrite zlen_repeat, Z2Nat.id in Q by apply Q64. specialize (Q ltac:(rewrite ZB; lia)).
    destruct (Z.of_nat 0 =? height) eqn:Z0; [lia|]. cbn [map app] in Q. change (Z.of_nat 0) with 0 in Q.
    replace (length bytes) with (Z.to_nat height) in Q by (unfold zlen in ZB; lia). rewrite Q. cbn [bind andb]. rewrite CE.
    assert (ZC : zlen (concat bytes) = width * height * ch).
    { replace (width * height * ch) with (zlen bytes * (width * ch)) by (rewrite ZB; lia). clear -BZ. induction BZ as [|l bytes Z1 _ IH]; [reflexivity|].
      cbn [concat]. rewrite zlen_app, zlen_cons, IH, Z1. lia. }
    assert (BB : Forall (fun c => 0 <= c < 256) (concat bytes)) by (apply Forall_concat; exact BR).
    rewrite png_convert_ok; [|exact CH2|exact BB|lia|exact ZC|lia]. cbn [bind].
    unfold free_block. cbn [w_live remove1]. rewrite Nat.eqb_refl. cbn [bind].
    assert (VS : map (pixel_value ch (concat bytes)) (zrange 0 (width * height)) = vs).
    { rewrite BC, <- ZX. apply pixels_values; [exact CH2|exact PX| |rewrite <- BC; exact BB].
      intros p P. apply in_concat in P. destruct P as (r & R & P). exact (PC r p R P). }
    rewrite VS. eexists _, _, _, _, _, _. split; [reflexivity|].
    assert (LV : length vs = Z.to_nat (width * height)).
    { rewrite <- VS, map_length. unfold zrange. rewrite length_zseq. f_equal. lia. }
    split; [cbn [shown]; rewrite LV; reflexivity|]. split; [reflexivity|]. split; [reflexivity|]. split; [reflexivity|]. split; [exact CR|exact CE].
  - intros SN c fs w k (CI & CT & -> & CR & CE) K. cbn [rd_seek libpng_reader]. unfold png_seek.
    rewrite (shown_seek_one vs (pn_eof c) k K).
    destruct (negb (k =? 0) && negb (pn_eof c)) eqn:Q; eexists _, _, _, _, _, _; (split; [reflexivity|]); (split; [reflexivity|]).
    + apply andb_true_iff in Q. destruct Q as (Q1 & Q2). rewrite Q1, orb_true_r. split; [exact CI|]. split; [exact CT|]. auto.
    + split; [exact CI|]. split; [exact CT|]. split; [|auto].
      destruct (pn_eof c); [reflexivity|]. destruct (k =? 0); [reflexivity|discriminate].
Qed.

(** ** How exact the mean of three channels is *)
Lemma rnd_error_bound k x : -20 <= k <= 20 -> (0 <= x <= bpow radix2 k)%R -> (Rabs (rnd32 x - x) <= bpow radix2 (k - 24))%R.
Proof.
  intros K H. eapply Rle_trans; [apply error_le_half_ulp; typeclasses eauto|].
  assert (U : (ulp radix2 (FLT_exp (-149) 24) x <= bpow radix2 (k - 23))%R).
  { eapply Rle_trans; [apply ulp_le with (y := bpow radix2 k); try typeclasses eauto; rewrite !Rabs_pos_eq; [apply H|apply bpow_ge_0|apply H]|].
    rewrite ulp_bpow. apply bpow_le. unfold FLT_exp. lia. }
  change (round radix2 _ ZnearestE x) with (rnd32 x).
  replace (k - 23) with (k - 24 + 1) in U by lia. rewrite bpow_plus_1 in U. change (IZR radix2) with 2%R in U.
  change (SpecFloat.fexp 24 128) with (FLT_exp (-149) 24). lra.
Qed.
Lemma rnd_between a b x : 0 <= a < 2^24 -> 0 <= b < 2^24 -> (IZR a <= x <= IZR b)%R -> (IZR a <= rnd32 x <= IZR b)%R.
Proof.
  intros A B X. pose proof (rnd32_le _ _ (proj1 X)) as X1. pose proof (rnd32_le _ _ (proj2 X)) as X2. rewrite rnd32_Z in X1, X2 by lia. lra.
Qed.
Lemma quotient_close c v : 0 <= c <= 255 -> quotient c 255 v ->
  (0 <= rf v <= 1 /\ Rabs (rf v - IZR c / 255) <= bpow radix2 (-24))%R.
Proof.
  intros C Q. split; [apply (quotient_range c 255); [lia|lia|exact Q]|]. destruct Q as (_ & _ & V). rewrite V.
  apply (rnd_error_bound 0); [lia|]. cbn [bpow]. assert (0 <= IZR c <= 255)%R by (split; apply IZR_le; lia).
  split; [apply Rmult_le_pos; lra|]. apply Rmult_le_reg_r with 255%R; [lra|]. field_simplify; lra.
Qed.
Lemma pixel_close p v : pixel_of p v -> Forall (fun c => 0 <= c <= 255) p ->
  ffinite v = true /\ (0 <= rf v <= 1)%R /\ (Rabs (rf v - IZR (fold_right Z.add 0%Z p) / (255 * IZR (zlen p))) <= bpow radix2 (-22))%R.
Proof.
  intros P B. assert (B22 : bpow radix2 (-22) = (4 * bpow radix2 (-24))%R).
  { change (-22) with (-24 + 1 + 1). rewrite !bpow_plus_1. change (IZR radix2) with 2%R. lra. }
  assert (B23 : bpow radix2 (-23) = (2 * bpow radix2 (-24))%R).
  { change (-23) with (-24 + 1). rewrite !bpow_plus_1. change (IZR radix2) with 2%R. lra. }
  pose proof (bpow_ge_0 radix2 (-24)) as B0. set (u := bpow radix2 (-24)) in *.
  destruct P as [c v Q|r g b x y z Q1 Q2 Q3].
  - apply Forall_inv in B. destruct (quotient_close c v B Q) as (R & E). split; [apply Q|]. split; [exact R|].
    cbn [fold_right]. rewrite Z.add_0_r. change (zlen [c]) with 1. rewrite Rmult_1_r. fold u in E. lra.
  - inversion B as [|? ? R1 B3]; subst. inversion B3 as [|? ? R2 B4]; subst. inversion B4 as [|? ? R3 _]; subst. clear B B3 B4.
    destruct (quotient_close r x R1 Q1) as (X1 & X2). destruct (quotient_close g y R2 Q2) as (Y1 & Y2). destruct (quotient_close b z R3 Q3) as (Z1 & Z2).
    fold u in X2, Y2, Z2. pose proof one_small as S4.
    assert (VX : fval x (rf x)) by (destruct Q1 as (? & ? & _); repeat split; assumption).
    assert (VY : fval y (rf y)) by (destruct Q2 as (? & ? & _); repeat split; assumption).
    assert (VZ : fval z (rf z)) by (destruct Q3 as (? & ? & _); repeat split; assumption).
    pose proof (fadd_val _ _ _ _ VX VY ltac:(lra)) as VS. set (s := rnd32 (rf x + rf y)) in *.
    assert (S1 : (0 <= s <= 2)%R) by (apply (rnd_between 0 2); [lia|lia|lra]).
    assert (S2 : (Rabs (s - (rf x + rf y)) <= 2 * u)%R).
    { rewrite <- B23. apply (rnd_error_bound 1); [lia|]. change (bpow radix2 1) with 2%R. lra. }
    pose proof (fadd_val _ _ _ _ VS VZ ltac:(lra)) as VT. set (t := rnd32 (s + rf z)) in *.
    assert (T1 : (0 <= t <= 3)%R) by (apply (rnd_between 0 3); [lia|lia|lra]).
    assert (T2 : (Rabs (t - (s + rf z)) <= 4 * u)%R).
    { rewrite <- B22. apply (rnd_error_bound 2); [lia|]. change (bpow radix2 2) with 4%R. lra. }
    pose proof (FilterProofs.fdiv_val _ _ _ _ VT (f32_of_Z_exact 3 ltac:(lia)) ltac:(lra) ltac:(lra)) as VM.
    destruct VM as (F & _ & VM). fold (mean3 x y z) in F, VM. split; [exact F|]. rewrite VM.
    assert (D3 : (0 <= t / 3 <= 1)%R) by lra.
    split; [apply (rnd_between 0 1); [lia|lia|exact D3]|].
    pose proof (rnd_error_bound 0 (t / 3) ltac:(lia)) as E. cbn [bpow] in E. specialize (E D3). change (0 - 24) with (-24) in E. fold u in E.
    cbn [fold_right]. change (zlen [r; g; b]) with 3. rewrite Z.add_0_r, !plus_IZR, B22.
    apply Rabs_le_inv in X2. apply Rabs_le_inv in Y2. apply Rabs_le_inv in Z2. apply Rabs_le_inv in S2. apply Rabs_le_inv in T2. apply Rabs_le_inv in E.
    apply Rabs_le. replace ((IZR r + (IZR g + IZR b)) / (255 * 3))%R with ((IZR r / 255 + IZR g / 255 + IZR b / 255) / 3)%R by field.
    lra.
Qed.
