(** Buffers as sequences, iteration over images, method objects. *)
From Coq Require Import Permutation String.
From Flocq Require Import IEEE754.Binary.
From Verif Require Import Base BaseProofs Flt FltProofs Util Methods Analysis Resdetect History Spec SpecAnalysis SpecUtil SpecReport WorldProofs UtilProofs AnalysisProofs
  Stdio Pgm Pfm Y4m Image ImageHistory SpecImage SpecFormats ImageSafe FrameProofs ImageApi FileProofs FormatProofs SpecCli CodeProofs CliProofs SpecTools ProfileProofs StatRun SelectProofs
  Bindings SpecBindings BindingProofs BindingRun Handles SpecHandles HandleProofs.
Open Scope string_scope.
Open Scope list_scope.
Open Scope Z_scope.

(** ** list(buffer) *)
Lemma concat_length (n : Z) : forall fs : list (list f32), Forall (fun f => Z.of_nat (length f) = n) fs -> Z.of_nat (length (concat fs)) = n * Z.of_nat (length fs).
Proof. induction fs as [|f fs IH]; intros F; cbn [concat length]; [lia|]. inversion F; subst. rewrite app_length. specialize (IH H2). lia. Qed.

Lemma nth_split_skipn {A} (l : list A) : forall k v, nth_error l k = Some v -> skipn k l = v :: skipn (Datatypes.S k) l.
Proof. induction l as [|a l IH]; intros [|k] v H; try discriminate; cbn in H |- *; [inversion H; reflexivity|]. apply IH in H. exact H. Qed.

Lemma list_ok b width height fs : contains b width height fs -> py_list_buffer b = Ok (Return (concat fs)).
Proof.
  intros (D & P & W & H & S & FL & blk & rest & BD). pose proof (concat_length _ _ FL) as CL.
  unfold py_list_buffer. rewrite BD.
  assert (L : forall k fuel, (k <= length (concat fs))%nat -> (length (concat fs) - k < fuel)%nat -> py_items fuel b (Z.of_nat k) = Ok (Return (skipn k (concat fs)))).
  { intros k fuel. revert k. induction fuel as [|fuel IH]; intros k K F; [lia|]. cbn [py_items py_getitem]. rewrite D. unfold py_flat. rewrite Z.geb_leb, BD.
    destruct (Z.leb_spec (width * height * Z.of_nat (length fs)) (Z.of_nat k)).
    - cbn [bind]. rewrite skipn_all2 by lia. reflexivity.
    - destruct (Z.ltb_spec (Z.of_nat k) (- 2^63)); [lia|]. destruct (Z.leb_spec (2^63) (Z.of_nat k)); [lia|]. cbn [orb].
      assert (KL : (k < length (concat fs))%nat) by lia.
      destruct (nth_error (concat fs) k) as [v|] eqn:NE; [|apply nth_error_None in NE; lia].
      assert (G : get (map Some (concat fs) ++ rest) (Z.of_nat k) = Ok (Some v)).
      { unfold get, in_range. destruct (Z.leb_spec 0 (Z.of_nat k)); [|lia]. cbn [andb].
        unfold zlen. destruct (Z.ltb_spec (Z.of_nat k) (Z.of_nat (length (map Some (concat fs) ++ rest)))) as [_|A]; [|rewrite app_length, map_length in A; lia].
        rewrite Nat2Z.id. rewrite nth_error_app1 by (rewrite map_length; lia). rewrite nth_error_map, NE. reflexivity. }
      rewrite G. cbn [bind]. replace (Z.of_nat k + 1) with (Z.of_nat (Datatypes.S k)) by lia. rewrite IH by lia. cbn [bind].
      rewrite (nth_split_skipn _ _ _ NE). reflexivity. }
  apply (L 0%nat); [lia|]. rewrite app_length, map_length. lia.
Qed.

(** ** Iteration *)
Lemma numpy_loop_ok sz Y er im_end : relaxed Y -> (forall x, ext_spec (y_ext Y x) (sz x)) -> known_code er ->
  forall fs im, frames Y im fs er im_end -> image_ok sz im -> forall fuel b blk l,
  (ctx_left Y (im_ctx im) < fuel)%nat -> zlen l = im_width im * im_height im -> ib_data b = Some (blk, l) -> ib_passed b = None ->
  ib_dims b = Some (im_width im, im_height im, 1) ->
  exists x im' b' l', numpy_loop fuel Y im b = Ok (map (mkNd [im_width im; im_height im] 4) fs, x, im', b') /\ same_image sz im im' /\
    ib_data b' = Some (blk, l') /\ ended er x.
Proof.
  intros R X KE. induction fs as [|f fs IH]; intros im F K fuel b blk l FU ZI BD BP DM;
    (destruct fuel as [|fuel]; [lia|]); cbn [numpy_loop]; unfold py_read_frame; rewrite BP, BD; cbn [option_map snd]; set (wh := im_width im * im_height im) in *.
  all: assert (D := proj1 K); assert (WH : 1 <= wh) by (destruct D as (? & ? & ?); unfold wh; nia).
  all: inversion F as [? ? ? ? G|? ? ? ? ? ? G F2]; subst.
  all: destruct (G l) as (t2 & EQ & LT & FT); [unfold zlen in ZI; fold wh; lia|]; rewrite EQ; cbn [bind].
  all: destruct (gives_same sz Y _ _ _ _ _ R X K G) as (S & OKE & LFT).
  - destruct (Z.eqb_spec er 0) as [->|NE]; cbn [negb bind map].
    + eexists _, _, _, _. split; [reflexivity|]. split; [exact S|]. split; reflexivity.
    + destruct (exception_ok er KE NE) as (y & Q & RF). rewrite Q. cbn [bind]. eexists _, _, _, _. split; [reflexivity|]. split; [exact S|]. split; [reflexivity|]. split; assumption.
  - cbn [Z.eqb RDEOK negb bind ib_data]. destruct (FT eq_refl) as (LF & ->). fold wh in LF. fold wh.
    assert (SK : skipn (Z.to_nat wh) l = []) by (apply skipn_all2; unfold zlen in ZI; lia). rewrite SK, app_nil_r.
    unfold py_as_ndarray, py_shape. cbn [ib_dims ib_data]. rewrite DM. change (1 >? 1) with false. cbn [app].
    assert (PR : Z.to_nat (product [im_width im; im_height im]) = length (map (@Some f32) f)). { cbn [product fold_right]. rewrite map_length, Z.mul_1_r. fold wh. lia. }
    rewrite PR, Nat.ltb_irrefl, firstn_all, filled_some. cbn [bind].
    destruct S as (K1 & SB & SF & SW & SH).
    destruct (IH im1 F2 K1 fuel (mkBuf (Some (blk, map Some f)) None (Some (im_width im, im_height im, 1))) blk (map Some f)) as (x & im' & b' & l' & -> & S' & BD' & RS); try reflexivity; try assumption.
    { specialize (LFT eq_refl). lia. } { rewrite SW, SH. fold wh. unfold zlen. rewrite map_length. lia. } { rewrite SW, SH. reflexivity. }
    cbn [bind map]. rewrite SW, SH. eexists _, _, _, _. split; [reflexivity|]. split; [eapply same_image_trans; [split; [exact K1|]; auto|exact S']|]. split; [exact BD'|exact RS].
Qed.

Lemma numpy_iterate_ok R E Y f t name w : env_ok E -> machine_ok Y ->
  exists r w', numpy_iterate R E Y f t name w = Ok (r, w') /\ holds w' w [] [] /\
    ((exists width height fs er x, r = Return (map (mkNd [width; height] 4) fs, x) /\ opens_to R E Y f t name width height fs er /\ ended er x) \/
     (exists e x, r = Raise x /\ reflects e x)).
Proof.
  intros EO MO. assert (MO' := MO). destruct MO' as [S RX CO SF FI]. destruct (ext_sizes Y S) as (sz & X). unfold numpy_iterate.
  destruct (py_open_ok sz R E Y f t name w EO MO X) as [(i & blk & w1 & OQ & -> & K & H)|(e & x & w1 & _ & -> & _ & RF & H)]; cbn [bind].
  2: { eexists _, _. split; [reflexivity|]. split; [exact H|]. right. eauto. }
  destruct (all_frames sz Y RX X _ i K (Nat.le_refl _)) as (fs & er & i' & F & _ & _).
  pose proof (left_bound Y (im_ctx i)) as LB.
  destruct (numpy_loop_ok sz Y er i' RX X (frames_code _ _ _ _ _ CO F) fs i F K (Datatypes.S (frames_bound Y (im_ctx i)))
     (mkBuf (Some (blk, repeat None (Z.to_nat (im_width i * im_height i)))) None (Some (im_width i, im_height i, 1))) blk (repeat None (Z.to_nat (im_width i * im_height i))))
     as (x & im' & b' & l' & -> & SI & BD & EN); try reflexivity.
  { lia. } { rewrite zlen_repeat. destruct K as ((? & ? & _) & _). nia. }
  cbn [bind]. destruct SI as (K1 & SB & SFI & _).
  destruct (session_end sz (Some im') b' blk l' w1 w) as (w3 & b2 & w4 & -> & Q2 & H4).
  { intros j Q. inversion Q; subst. exact K1. } { exact BD. } { cbn [im_blocks im_files]. rewrite SB, SFI. exact H. }
  cbn [bind]. rewrite Q2. cbn [bind]. eexists _, _. split; [reflexivity|]. split; [exact H4|]. left. exists (im_width i), (im_height i), fs, er, x.
  split; [reflexivity|]. split; [|exact EN]. unfold opens_to. fold (opening t name). eexists _, i, _, _, i'. eauto.
Qed.

(** ** Methods *)
Lemma null_list {A} (l : list A) : up_to_null (map Some l ++ [None]) = Ok l.
Proof. induction l as [|a l IH]; [reflexivity|]. cbn [map app up_to_null]. rewrite IH. reflexivity. Qed.

Lemma div_entry p base k o : 0 < p -> 0 <= o < 3 * p -> (base + 3 * p * k + o - base) / entry_size p = k /\ (base + 3 * p * k + o - base) mod entry_size p = o.
Proof.
  intros P O. unfold entry_size. replace (base + 3 * p * k + o - base) with (o + k * (3 * p)) by ring.
  rewrite Z.div_add, Z.mod_add, Z.div_small, Z.mod_small by lia. lia.
Qed.
Lemma load_name_ok p base k m : 0 < p -> method_entry k = Some m -> load_name p base (base + 3 * p * k) = Ok (option_map method_name m).
Proof.
  intros P M. unfold load_name, load. destruct (div_entry p base k 0) as (A & B); [lia|lia|]. rewrite Z.add_0_r in A, B. rewrite A, B, M. reflexivity.
Qed.
Lemma load_float_ok p base k m : 0 < p -> method_entry k = Some (Some m) -> load_float p base (base + 3 * p * k + 2 * p) = Ok (method_threshold m).
Proof.
  intros P M. unfold load_float, load. destruct (div_entry p base k (2 * p)) as (A & B); [lia|lia|]. rewrite A, B, M.
  destruct (Z.eqb_spec (2 * p) 0); [lia|]. destruct (Z.eqb_spec (2 * p) p); [lia|]. rewrite Z.eqb_refl. reflexivity.
Qed.
Definition object_of (p base : Z) (m : method) : method_object := mkMethod (method_name m) (f64_of_f32 (method_threshold m)) (address_of p base m).
Lemma address_entry p base m : exists k, address_of p base m = base + 3 * p * k /\ method_entry k = Some (Some m).
Proof. destruct m; [exists 0|exists 1|exists 2|exists 3]; split; reflexivity. Qed.
Lemma read_method_ok p base m : 0 < p -> read_method p base (2 * p) (address_of p base m) = Ok (object_of p base m).
Proof.
  intros P. unfold object_of. destruct (address_entry p base m) as (k & -> & M). unfold read_method.
  rewrite (load_name_ok p base k _ P M), (load_float_ok p base k _ P M). reflexivity.
Qed.
Lemma walk_ok p base : 0 < p -> walk_methods 9 p base (3 * p) (2 * p) base = Ok (map (object_of p base) resdet_methods).
Proof.
  intros P.
  assert (ST : forall fuel k m, method_entry k = Some (Some m) -> address_of p base m = base + 3 * p * k ->
    walk_methods (Datatypes.S fuel) p base (3 * p) (2 * p) (base + 3 * p * k) =
    (l <- walk_methods fuel p base (3 * p) (2 * p) (base + 3 * p * (k + 1)) ;; Ok (object_of p base m :: l))).
  { intros fuel k m M A. cbn [walk_methods]. rewrite (load_name_ok p base k _ P M). cbn [bind option_map]. rewrite <- A, (read_method_ok p base m P). cbn [bind]. rewrite A.
    replace (base + 3 * p * k + 3 * p) with (base + 3 * p * (k + 1)) by ring. reflexivity. }
  replace base with (base + 3 * p * 0) at 2 by ring. rewrite (ST _ 0 Msign), (ST _ 1 Mmag), (ST _ 2 Morig), (ST _ 3 Mzerox) by reflexivity.
  cbn [walk_methods]. change (3 + 1) with 4. rewrite (load_name_ok p base 4 None P eq_refl). reflexivity.
Qed.
Lemma describes_ok p base m : 0 < p -> describes p base (object_of p base m) m.
Proof.
  intros P. split; [reflexivity|]. split.
  - cbn [object_of mo_threshold]. apply f64_of_f32_finite. destruct m; vm_compute; reflexivity.
  - cbn [method_arg object_of mo_pointer]. destruct (address_entry p base m) as (k & -> & M). unfold method_at.
    destruct (div_entry p base k 0) as (A & B); [lia|lia|]. rewrite Z.add_0_r in A, B. rewrite A, B, M. reflexivity.
Qed.
Lemma get_ok name : (exists m, resdet_get_method (Some name) = Some m /\ method_name m = name) \/ (resdet_get_method (Some name) = None /\ ~ In name method_names).
Proof.
  cbn [resdet_get_method]. destruct (find _ _) as [m|] eqn:F.
  - left. exists m. split; [reflexivity|]. apply find_some in F. apply String.eqb_eq, F.
  - right. split; [reflexivity|]. intros I. change method_names with (map method_name resdet_methods) in I. apply in_map_iff in I. destruct I as (m & <- & I).
    apply (find_none _ _ F) in I. rewrite String.eqb_refl in I. discriminate.
Qed.
Lemma numpy_film_ok R E Y f w s width height name limit fs : env_ok E -> machine_ok Y -> provides R name -> delivers Y f s ->
  1 <= width <= SIZE_MAX -> 1 <= height <= SIZE_MAX -> film E (y_host Y) width height (s_rest s) name limit fs ->
  exists r w', numpy_iterate R E Y f None (Some name) w = Ok (r, w') /\ holds w' w [] [] /\
    ((limit /\ exists x, r = Return (map (mkNd [width; height] 4) fs, x) /\ ended (film_end name s) x) \/
     (exists e x, r = Raise x /\ reflects e x /\ ((e = RDENOMEM /\ exists k, e_alloc E k = false) \/ (e = RDETOOBIG /\ ~ limit)))).
Proof.
  intros EO MO PR DL W H FM. assert (MO' := MO). destruct MO' as [S RX CO SF FI]. destruct (ext_sizes Y S) as (sz & X). unfold numpy_iterate.
  assert (NM : opening None (Some name) = ByReader (Some name)). { unfold opening. destruct FM; reflexivity. }
  pose proof (film_program R E Y f true w s width height name limit fs (eo_config _ EO) S PR DL W H FM) as (im & wi & he & ob & e & wd & EQ & C).
  destruct (py_open_ok sz R E Y f None (Some name) w EO MO X) as [(i & blk & w1 & OQ & -> & K & HH)|(e' & x & w1 & OQ & -> & NE & RF & HH)]; cbn [bind].
  all: rewrite NM in OQ; cbn [open_by] in OQ; rewrite EQ in OQ; inversion OQ; subst; clear OQ.
  - destruct C as [(Q & _)|[(Q & _)|(_ & <- & <- & L & i' & Q & (i2 & FR) & SC)]]; [discriminate|discriminate|]. inversion Q; subst i'. clear Q.
    pose proof (left_bound Y (im_ctx i)) as LB.
    destruct (numpy_loop_ok sz Y (film_end name s) i2 RX X (frames_code _ _ _ _ _ CO FR) fs i FR K (Datatypes.S (frames_bound Y (im_ctx i)))
       (mkBuf (Some (blk, repeat None (Z.to_nat (im_width i * im_height i)))) None (Some (im_width i, im_height i, 1))) blk (repeat None (Z.to_nat (im_width i * im_height i))))
       as (x & im' & b' & l' & -> & SI & BD & EN); try reflexivity.
    { lia. } { rewrite zlen_repeat. destruct K as ((? & ? & _) & _). nia. }
    cbn [bind]. destruct SI as (K1 & SB & SFI & _).
    destruct (session_end sz (Some im') b' blk l' w1 w) as (w3 & b2 & w4 & -> & Q2 & H4).
    { intros j Q. inversion Q; subst. exact K1. } { exact BD. } { cbn [im_blocks im_files]. rewrite SB, SFI. exact HH. }
    cbn [bind]. rewrite Q2. cbn [bind]. eexists _, _. split; [reflexivity|]. split; [exact H4|]. left. eauto.
  - eexists _, _. split; [reflexivity|]. split; [exact HH|]. right. eexists _, _. split; [reflexivity|]. split; [exact RF|].
    destruct C as [(-> & _ & A)|[(-> & _ & A)|(-> & _)]]; [left; auto|right; auto|contradiction].
Qed.

Lemma pil_map width height fs : map pil_fromarray (map (mkNd [width; height] 4) fs) = map (fun f => Some (mkPil height width f)) fs.
Proof. rewrite map_map. reflexivity. Qed.
Lemma pil_iterate_ok R E Y f t name w : env_ok E -> machine_ok Y ->
  exists r w', pil_iterate R E Y f t name w = Ok (r, w') /\ holds w' w [] [] /\
    ((exists width height fs er x, r = Return (map (fun f => Some (mkPil height width f)) fs, x) /\ opens_to R E Y f t name width height fs er /\ ended er x) \/
     (exists e x, r = Raise x /\ reflects e x)).
Proof.
  intros EO MO. destruct (numpy_iterate_ok R E Y f t name w EO MO) as (r & w' & EQ & HH & C). unfold pil_iterate. rewrite EQ. cbn [bind].
  eexists _, _. split; [reflexivity|]. split; [exact HH|]. destruct C as [(wi & he & fs & er & x & -> & O & EN)|(e & x & -> & RF)].
  - left. rewrite pil_map. eauto 10.
  - right. eauto.
Qed.

Lemma null_method_sign E w h p wd : resdet_create_analysis E None w h p wd = resdet_create_analysis E (Some Msign) w h p wd.
Proof. reflexivity. Qed.
Lemma list_methods_ok p base : pointer_size p -> exists l, py_methods p base = Ok l /\ Forall2 (describes p base) l resdet_methods.
Proof.
  intros P. assert (0 < p) by (destruct P; lia). exists (map (object_of p base) resdet_methods). split; [apply walk_ok; assumption|].
  repeat constructor; apply describes_ok; assumption.
Qed.
Lemma js_methods_py base : js_methods base = py_methods 4 base. Proof. reflexivity. Qed.
Lemma js_get_py base name : js_get_method base name = py_get_method 4 base name. Proof. reflexivity. Qed.
Lemma get_method_ok p base name : pointer_size p ->
  (exists l o, In name method_names /\ py_methods p base = Ok l /\ py_get_method p base name = Ok (Some o) /\ In o l /\ mo_name o = name) \/
  (~ In name method_names /\ py_get_method p base name = Ok None).
Proof.
  intros P. assert (0 < p) by (destruct P; lia). unfold py_get_method. destruct (get_ok name) as [(m & -> & <-)|(-> & N)]; [left|right; auto].
  rewrite read_method_ok by assumption. cbn [bind]. unfold py_methods. rewrite walk_ok by assumption. eexists _, _. split.
  - change method_names with (map method_name resdet_methods). apply in_map. destruct m; cbn; auto.
  - split; [reflexivity|]. split; [reflexivity|]. split; [|reflexivity]. apply in_map. destruct m; cbn; auto.
Qed.

(** ** A seek beyond the end *)
Lemma seek_shows err fs buf z progress cs rs : py_shows err true fs buf (PySeek (PyInt z) progress :: cs) rs -> Z.of_nat (length fs) < z mod 2^64 ->
  exists r rs', rs = PySought r (if progress then zrange 1 (Z.of_nat (length fs) + 1) else []) :: rs' /\ answers err false r /\ py_shows err true [] buf cs rs'.
Proof.
  remember (PySeek (PyInt z) progress :: cs) as c eqn:C. remember true as o eqn:O. intros H L. destruct H as [| | |fs buf k z' pr cs' rs' Q K H|fs buf z' pr r cs' rs' Q A H|o fs buf v pr cs' rs' N H| | |]; try discriminate.
  - assert (z' = z) by congruence. subst z'. lia.
  - assert (pr = progress) by congruence. assert (cs' = cs) by congruence. subst. eauto.
  - assert (v = PyInt z) by congruence. exfalso. eapply N. eassumption.
Qed.
Lemma negative_shows fs buf z rs : py_shows RDEOK true fs buf [PySeek (PyInt z) true; PyRead] rs -> Z.of_nat (length fs) < z mod 2^64 ->
  rs = [PySought (Return false) (zrange 1 (Z.of_nat (length fs) + 1)); PyFrame (Return false) buf].
Proof.
  intros H L. destruct (seek_shows _ _ _ _ _ _ _ H L) as (r & rs' & -> & A & H'). destruct A as [_|x N]; [|congruence].
  inversion H' as [| |? r' ? rs'' A2 H2| | | | | |]; subst. destruct A2 as [_|x N]; [|congruence]. inversion H2; subst. reflexivity.
Qed.
