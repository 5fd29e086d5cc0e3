(** The KISS transform with floating point scalars of every format. *)
From Coq Require Import Reals Lra Lia Psatz List.
From Flocq Require Import Core IEEE754.BinarySingleNaN IEEE754.Binary.
From Verif Require Import Base Flt Util Methods Analysis Precision Kiss KissPrecision Spec SpecTransform SpecAccuracy SpecPrecision SpecKissPrecision.
From Verif Require Import BaseProofs FltProofs ProfileProofs PrecisionProofs PrecisionErrorProofs.
From Verif Require Import KissProofs KissFactor KissTransform KissExact KissAccuracy UpscaleProofs UpscaleDetect.
Import ListNotations.
Open Scope Z_scope.

(** ** Coefficients of another type than the scalars *)
Definition map_res {A B} (g : A -> B) (r : res A) : res B := match r with Ok a => Ok (g a) | Undef u => Undef u end.
Lemma get_mapped {A B} (g : A -> B) l i : get (map g l) i = map_res g (get l i).
Proof.
  unfold get, in_range. rewrite zlen_map. destruct ((0 <=? i) && (i <? zlen l)); [|reflexivity].
  rewrite nth_error_map. destruct (nth_error l (Z.to_nat i)); reflexivity.
Qed.
Lemma upd_mapped {A B} (g : A -> B) : forall l n a, upd (map g l) n (g a) = map g (upd l n a).
Proof. induction l as [|b l IH]; intros [|n] a; cbn; try reflexivity. rewrite IH. reflexivity. Qed.
Lemma set_mapped {A B} (g : A -> B) l i a : set (map g l) i (g a) = map_res (map g) (set l i a).
Proof.
  unfold set, in_range. rewrite zlen_map. destruct ((0 <=? i) && (i <? zlen l)); [|reflexivity].
  cbn. rewrite upd_mapped. reflexivity.
Qed.
Lemma for_n_mapped {A B} (g : A -> B) b b' : (forall j s, b' j (g s) = map_res g (b j s)) ->
  forall n i s, for_n n i b' (g s) = map_res g (for_n n i b s).
Proof.
  intros H. induction n as [|n IH]; intros i s; cbn [for_n]; [reflexivity|].
  rewrite H. destruct (b i s) as [s'|u]; cbn [map_res bind]; [apply IH|reflexivity].
Qed.
Lemma for_range_mapped {A B} (g : A -> B) b b' lo hi s : (forall j s, b' j (g s) = map_res g (b j s)) ->
  for_range lo hi b' (g s) = map_res g (for_range lo hi b s).
Proof. intros H. apply for_n_mapped, H. Qed.

Section Mixed.
Context {T C : Type} (K : ops T) (load : C -> T) (store : T -> C) (Hback : forall x, load (store x) = x).

Definition stored (s : dct_state (T := T)) : mixed_state (T := T) (C := C) :=
  let '(f, mirror, F, tmp, wd) := s in (map store f, mirror, F, tmp, wd).

Lemma mixed_dct_stored al d n length stride dist s :
  mixed_dct K load store al d n length stride dist (stored s) = map_res stored (kiss_dct K al d n length stride dist s).
Proof.
  unfold mixed_dct, kiss_dct. apply for_range_mapped. intros j ((((f & mirror) & F) & tmp) & wd). cbn [stored].
  match goal with |- bind ?a _ = map_res _ (bind ?b _) => assert (E : a = b) end.
  { apply for_range_ext. intros i m _. rewrite get_mapped. destruct (get f _) as [v|u]; cbn [map_res bind]; [|reflexivity].
    rewrite !Hback. reflexivity. }
  rewrite E. clear E.
  destruct (for_range 0 length _ mirror) as [mirror'|u]; cbn [bind map_res]; [|reflexivity].
  destruct (kiss_fftr K al (dr_cfg d) mirror' tmp F wd) as [((F' & tmp') & wd')|u]; cbn [bind map_res]; [|reflexivity].
  match goal with |- bind ?a _ = map_res _ (bind ?b _) => assert (E : a = map_res (map store) b) end.
  { apply (for_range_mapped (map store)). intros i f1. destruct (get F' i) as [z|u]; cbn [bind map_res]; [|reflexivity].
    destruct (get (dr_shift d) i) as [z'|u]; cbn [bind map_res]; [|reflexivity]. apply set_mapped. }
  rewrite E. clear E. destruct (for_range 0 length _ f) as [f'|u]; cbn [bind map_res]; reflexivity.
Qed.

Lemma mixed_transform_stored al w h f mirror F tmp0 tmp1 wd :
  mixed_transform K load store al w h (map store f) mirror F tmp0 tmp1 wd =
  map_res (fun r => (map store (fst r), snd r)) (kiss_transform K al w h f mirror F tmp0 tmp1 wd).
Proof.
  unfold mixed_transform, kiss_transform.
  destruct (make_direction K w) as [[d0|]|u]; cbn [bind map_res]; try reflexivity;
    destruct (if w =? h then _ else _) as [[d1|]|u]; cbn [bind map_res]; try reflexivity.
  change (map store f, mirror, F, tmp0, wd) with (stored (f, mirror, F, tmp0, wd)). rewrite mixed_dct_stored.
  destruct (kiss_dct K al d0 h w 1 w (f, mirror, F, tmp0, wd)) as [((((f1 & mirror1) & F1) & t1) & wd1)|u]; cbn [bind map_res stored]; [|reflexivity].
  match goal with |- bind (mixed_dct _ _ _ _ _ _ _ _ _ (map store f1, ?a, ?b, ?c, ?e)) _ = _ =>
    change (map store f1, a, b, c, e) with (stored (f1, a, b, c, e)) end.
  rewrite mixed_dct_stored.
  destruct (kiss_dct K al d1 w h w 1 _) as [((((f2 & mirror2) & F2) & t2) & wd2)|u]; cbn [bind map_res stored]; reflexivity.
Qed.
End Mixed.

(** ** Formats *)
Lemma scalar_roomy p : roomy (kiss_scalar p).
Proof. destruct p; [apply roomy32|apply roomy64|apply roomy64]. Qed.
Lemma scalar_wider p : wider binary32_format (kiss_scalar p).
Proof. destruct p; split; cbn; lia. Qed.

(** ** Accuracy *)
Section Image.
Context (S C : format) (RS : roomy S) (WS : wider binary32_format S) (load : num C -> num S) (store : num S -> num C).
Context (CV : conversions S C load store).
Context (u : R) (HL : (bpow radix2 (- f_prec S) <= u)%R) (HU : (u <= / 1048576)%R).
Context (twiddle super shift : number_table S).

Lemma coefficients_near al w h image g M lw lh m W t wd : (forall k, al k = true) ->
  length_ok u w -> length_ok u h ->
  tables_within S u twiddle super shift w -> tables_within S u twiddle super shift h ->
  (1 <= M <= 1048576)%R -> kf_factor w = Ok lw -> kf_factor h = Ok lh -> has_samples w h image g M ->
  exists f wd', coefficients load store (number_ops S twiddle super shift) al w h image m W t wd = Ok (f, wd') /\ zlen f = w * h /\
    forall y x, 0 <= y < h -> 0 <= x < w ->
      within_unit C (error_of u w h (radices_of lw) (radices_of lh) M) (at_ (n0 C) f (y * w + x)) (dct_2d w h g y x).
Proof.
  intros Hal (Hw & Nw) (Hh & Nh) Tw Th HM Ew Eh (HL' & Hg).
  assert (NM : (IZR (Z.max w h) * u <= / 16)%R) by (destruct (Z.max_spec w h) as [(_ & ->)|(_ & ->)]; assumption).
  set (fi := firstn (Z.to_nat (w * h)) image). set (f := map (convert binary32_format S) fi).
  assert (LI : zlen fi = w * h) by (unfold fi, zlen in *; rewrite firstn_length; lia).
  assert (LF : zlen f = w * h) by (unfold f; rewrite zlen_map; exact LI).
  assert (AI : forall i, 0 <= i < w * h -> at_ f0 fi i = at_ f0 image i).
  { intros i Hi. unfold fi, at_. rewrite <- (firstn_skipn (Z.to_nat (w * h)) image) at 2. rewrite app_nth1; [reflexivity|].
    unfold zlen in LI. fold fi. lia. }
  assert (AF : forall i, 0 <= i < w * h -> at_ (n0 S) f i = convert binary32_format S (at_ f0 image i)).
  { intros i Hi. rewrite <- AI by exact Hi. unfold f, at_. rewrite (nth_indep _ (n0 S) (convert binary32_format S f0)); [apply map_nth|].
    rewrite map_length. assert (X : (Z.to_nat i < length fi)%nat) by (unfold zlen in LI; lia). exact X. }
  assert (HS : forall y x, 0 <= y < h -> 0 <= x < w ->
     finite S (at_ (n0 S) f (y * w + x)) = true /\ real S (at_ (n0 S) f (y * w + x)) = g y x /\ (Rabs (g y x) <= M)%R).
  { intros y x Hy Hx. destruct (Hg y x Hy Hx) as (A & B & D). rewrite AF by nia.
    destruct (convert_up binary32_format S _ WS A) as (A1 & A2 & _). split; [exact A1|]. split; [rewrite A2; exact B|exact D]. }
  destruct (transform_near S RS u (Z.max w h) HL HU ltac:(lia) NM twiddle super shift al w h f (repeat m (Z.to_nat (2 * Z.max w h))) (repeat W (Z.to_nat (Z.max w h + 1)))
     (repeat t (Z.to_nat w)) (repeat t (Z.to_nat h)) wd M lw lh Hal ltac:(lia) ltac:(lia) Tw Th LF) as (f' & wd' & E & LF' & H).
  1-4: unfold zlen; rewrite repeat_length; lia.
  - exact HM.
  - intros i Hi. pose proof (Z.mod_pos_bound i w ltac:(lia)). pose proof (Z.div_mod i w ltac:(lia)).
    assert (0 <= i / w < h) by (split; [apply Z.div_pos; lia|apply Z.div_lt_upper_bound; lia]).
    destruct (HS (i / w) (i mod w)) as (A & B & D); try assumption.
    replace (i / w * w + i mod w) with i in A, B by lia. split; [exact A|]. rewrite B. exact D.
  - exact Ew.
  - exact Eh.
  - exists (map store f'), wd'. split.
    { unfold coefficients. fold fi. rewrite <- (map_map (convert binary32_format S) store). fold f.
      rewrite (mixed_transform_stored _ _ _ (cv_back _ _ _ _ CV)). rewrite E. reflexivity. }
    split; [rewrite zlen_map; exact LF'|]. intros y x Hy Hx. destruct (H y x Hy Hx) as (A & B).
    assert (AT : at_ (n0 C) (map store f') (y * w + x) = store (at_ (n0 S) f' (y * w + x))).
    { unfold at_. rewrite (nth_indep _ (n0 C) (store (n0 S))); [apply map_nth|]. rewrite map_length. unfold zlen in LF'. nia. }
    rewrite AT. destruct (cv_kept _ _ _ _ CV _ A) as (K1 & K2). split; [exact K1|]. rewrite K2.
    replace (dct_2d w h g y x) with (dct_2d w h (fun y x => real S (at_ (n0 S) f (y * w + x))) y x); [exact B|].
    unfold dct_2d. f_equal. apply rsum_ext. intros y' Hy'. apply rsum_ext. intros x' Hx'.
    destruct (HS y' x' Hy' Hx') as (_ & -> & _). reflexivity.
Qed.
End Image.

Lemma within_sign F e v r : within_unit F e v r -> (e < Rabs r)%R -> same_sign F v r.
Proof.
  intros (A & B) H. split; [exact A|]. apply Rabs_le_inv in B. unfold Rabs in H. destruct (Rcase_abs r); nra.
Qed.
Lemma same_sign_sign F v r : same_sign F v r -> (nsign F v = false /\ 0 < r \/ nsign F v = true /\ r < 0)%R.
Proof.
  intros (A & B). unfold finite, real, nsign in *. destruct v as [s|s|s pl H|s m e H]; try discriminate.
  - cbn in B. lra.
  - destruct s; cbn [Bsign B2R cond_Zopp] in *.
    + right. split; [reflexivity|]. assert (N : (F2R (Float radix2 (Zneg m) e) < 0)%R) by (apply F2R_lt_0; reflexivity).
      change (Z.opp (Zpos m)) with (Zneg m) in B. nra.
    + left. split; [reflexivity|]. assert (N : (0 < F2R (Float radix2 (Zpos m) e))%R) by (apply F2R_gt_0; reflexivity). nra.
Qed.
Lemma opposite_numbers F a b r r' c : same_sign F a r -> same_sign F b r' -> (0 < c)%R -> (r' = - c * r)%R -> xorb (nsign F a) (nsign F b) = true.
Proof.
  intros A B Pc E. apply same_sign_sign in A. apply same_sign_sign in B.
  destruct A as [(-> & A)|(-> & A)], B as [(-> & B)|(-> & B)]; try reflexivity; exfalso; nra.
Qed.

(** ** Tables with the nearest numbers *)
Section Nearest.
Context (F : format) (RM : roomy F).
Notation p := (f_prec F).
Definition nearest (r : R) : num F := binary_normalize (f_prec F) (f_emax F) (f_pos F) (f_room F) mode_NE (ZnearestE (r * bpow radix2 p)) (- p) false.
Lemma nearest_close r : (Rabs r <= 1)%R -> within_unit F (bpow radix2 (- p)) (nearest r) r.
Proof.
  intros H. unfold nearest. set (b := bpow radix2 p). set (m := ZnearestE (r * b)).
  assert (P : (0 < b)%R) by apply bpow_gt_0.
  assert (D : (Rabs (IZR m - r * b) <= /2)%R) by (unfold m; rewrite Rabs_minus_sym; apply Znearest_half).
  assert (IB : b = IZR (2 ^ p)) by (apply bpow_IZR; destruct RM; lia).
  assert (MB : Z.abs m <= 2 ^ p).
  { apply Rabs_le_inv in D. apply Rabs_le_inv in H. assert (X : (- b <= r * b <= b)%R) by nra. apply Z.abs_le. split; apply Z.lt_succ_r; apply lt_IZR; rewrite ?succ_IZR, ?opp_IZR, <- IB; lra. }
  assert (V : F2R (Float radix2 m (- p)) = (IZR m / b)%R).
  { unfold F2R. cbn [Fnum Fexp]. rewrite bpow_opp. reflexivity. }
  assert (G : generic_format radix2 (SpecFloat.fexp (f_prec F) (f_emax F)) (F2R (Float radix2 m (- p)))).
  { destruct (Z.eq_dec (Z.abs m) (2 ^ p)) as [E|N].
    - assert (C : m = 2 ^ p \/ m = - 2 ^ p) by lia. rewrite V. destruct C as [->| ->].
      + rewrite <- IB. replace (b / b)%R with (bpow radix2 0) by (cbn; field; lra). apply (fmt_bpow F RM); destruct RM; lia.
      + rewrite opp_IZR, <- IB. replace (- b / b)%R with (- bpow radix2 0)%R by (cbn; field; lra). apply generic_format_opp. apply (fmt_bpow F RM); destruct RM; lia.
    - rewrite fx_flt. apply generic_format_FLT. exists (Float radix2 m (- p)); cbn [Fnum Fexp]; [reflexivity| |destruct RM; lia].
      change (Z.abs m < 2 ^ p). lia. }
  pose proof (binary_normalize_correct (f_prec F) (f_emax F) (f_pos F) (f_room F) mode_NE m (- p) false) as C.
  change (round_mode mode_NE) with ZnearestE in C. fold (rn F (F2R (Float radix2 m (- p)))) in C.
  rewrite (rn_id F _ G) in C.
  assert (S : (Rabs (IZR m / b - r) <= bpow radix2 (- p))%R).
  { replace (IZR m / b - r)%R with ((IZR m - r * b) / b)%R by (field; lra).
    unfold Rdiv. rewrite bpow_opp. fold b. pose proof (Rinv_0_lt_compat b P). rewrite Rabs_mult, (Rabs_pos_eq (/ b)) by lra. nra. }
  rewrite Rlt_bool_true in C.
  - destruct C as (C1 & C2 & _). split; [exact C2|]. unfold real. rewrite C1, V. exact S.
  - rewrite V. apply Rle_lt_trans with 2%R.
    + replace (IZR m / b)%R with ((IZR m / b - r) + r)%R by ring. eapply Rle_trans; [apply Rabs_triang|].
      assert (bpow radix2 (- p) <= 1)%R by (change 1%R with (bpow radix2 0); apply bpow_le; destruct RM; lia). lra.
    + change 2%R with (bpow radix2 1). apply bpow_lt. destruct RM; lia.
Qed.
Definition nearest_of (e : Z -> Z -> cx) : number_table F := fun n i => (nearest (fst (e n i)), nearest (snd (e n i))).
Lemma nearest_cis u t : (bpow radix2 (- p) <= u)%R -> pair_within F u (nearest (fst (cis t)), nearest (snd (cis t))) (cis t).
Proof.
  intros Hu. split; cbn [fst snd cis].
  - destruct (nearest_close (cos t)) as (A & B); [apply Rabs_le; pose proof (COS_bound t); lra|]. split; [exact A|lra].
  - destruct (nearest_close (sin t)) as (A & B); [apply Rabs_le; pose proof (SIN_bound t); lra|]. split; [exact A|lra].
Qed.
Lemma nearest_within u n : (bpow radix2 (- p) <= u)%R ->
  tables_within F u (nearest_of (o_twiddle exact_ops)) (nearest_of (o_super exact_ops)) (nearest_of (o_shift exact_ops)) n.
Proof. intros Hu i Hi. split; [|split]; apply nearest_cis, Hu. Qed.
End Nearest.

(** ** Conversions that keep the payload of a NaN *)
Section Keeping.
Context (F G : format).
Definition keeping (x : num F) : num G :=
  match x with
  | B754_nan _ _ s pl _ =>
      match Bool.bool_dec (nan_pl (f_prec G) pl) true with
      | left H => B754_nan (f_prec G) (f_emax G) s pl H
      | right _ => n0 G
      end
  | _ => convert F G x
  end.
End Keeping.
Lemma keeping_conversions S C : wider S C -> conversions S C (keeping C S) (keeping S C).
Proof.
  intros W. constructor.
  - intros x. destruct x as [s|s|s pl H|s m e H].
    + reflexivity.
    + reflexivity.
    + cbn [keeping]. destruct (Bool.bool_dec (nan_pl (f_prec C) pl) true) as [H1|H1].
      * cbn [keeping]. destruct (Bool.bool_dec (nan_pl (f_prec S) pl) true) as [H2|H2]; [|contradiction].
        f_equal. apply Eqdep_dec.UIP_dec, Bool.bool_dec.
      * exfalso. apply H1. unfold nan_pl in *. apply Z.ltb_lt in H. apply Z.ltb_lt. destruct W. lia.
    + set (x := B754_finite (f_prec S) (f_emax S) s m e H).
      destruct (convert_up S C x W eq_refl) as (A & _ & _).
      pose proof (roundtrip S C W x eq_refl) as R.
      change (keeping S C x) with (convert S C x).
      destruct (convert S C x) as [s'|s'|s' pl' H'|s' m' e' H']; try discriminate A; exact R.
  - intros x A. destruct x as [s|s|s pl H|s m e H]; try discriminate A;
      (destruct (convert_up S C _ W A) as (B & D & _); split; [exact B|exact D]).
Qed.
Lemma plain_conversions F : conversions F F (fun x => x) (fun x => x).
Proof. constructor; auto. Qed.

(** ** Smaller units *)
Lemma loss_mono u v l : (0 <= u <= v)%R -> Forall (fun p => 1 <= p) l -> (0 <= loss_of u l <= loss_of v l)%R.
Proof.
  intros Huv HF. unfold loss_of.
  assert (X : (1 <= fold_right (fun p g => (1 + IZR (2 * p + 50) * u) * g) (1 + 32 * u) l <= fold_right (fun p g => (1 + IZR (2 * p + 50) * v) * g) (1 + 32 * v) l)%R).
  { induction HF as [|p l Hp HF IH]; cbn [fold_right]; [lra|].
    assert (P : (0 <= IZR (2 * p + 50))%R) by (apply IZR_le; lia).
    assert (Q : (1 <= 1 + IZR (2 * p + 50) * u <= 1 + IZR (2 * p + 50) * v)%R) by nra.
    split; [|apply Rmult_le_compat; lra]. nra. }
  lra.
Qed.
Lemma error_mono u v w h lw lh M : (0 <= u <= v)%R -> 0 <= w -> 0 <= h -> (0 <= M)%R -> Forall (fun p => 1 <= p) lw -> Forall (fun p => 1 <= p) lh ->
  (error_of u w h lw lh M <= error_of v w h lw lh M)%R.
Proof.
  intros Huv Hw Hh HM Fw Fh. unfold error_of. pose proof (loss_mono u v lw Huv Fw). pose proof (loss_mono u v lh Huv Fh).
  assert (0 <= IZR w)%R by (apply IZR_le; lia). assert (0 <= IZR h)%R by (apply IZR_le; lia).
  assert (0 <= 4 * IZR w * IZR h * M)%R. { apply Rmult_le_pos; [|exact HM]. apply Rmult_le_pos; lra. }
  apply Rmult_le_compat_l; [assumption|].
  assert ((1 + loss_of u lw) * (1 + loss_of u lh) <= (1 + loss_of v lw) * (1 + loss_of v lh))%R by (apply Rmult_le_compat; lra). lra.
Qed.
Lemma factor_radices : forall l n, factor_table n l -> Forall (fun p => 1 <= p) (radices_of l).
Proof.
  fix IH 1. intros [|p [|m rest]] n H; cbn [radices_of factor_table] in *; [constructor|constructor|].
  destruct H as (_ & Hp & _ & [(_ & ->)|(_ & H)]); constructor; try exact Hp; [constructor|exact (IH rest m H)].
Qed.

(** ** Series of upscales *)
Lemma forall2_layout {A B D} (P : A -> Prop) (Q : A -> B -> Prop) (Z : B -> D -> Prop) (k : B -> D) l l' :
  (forall a, In a l -> P a) -> Forall2 Q l l' -> (forall a b, P a -> Q a b -> Z b (k b)) -> Forall2 Z l' (map k l').
Proof.
  intros HP HQ HK. induction HQ as [|a b l l' H1 H2 IH]; cbn [map]; constructor.
  - apply (HK a b); [apply HP; left; reflexivity|exact H1].
  - apply IH. intros; apply HP; right; assumption.
Qed.
Lemma forall2_in {A B} (Q : A -> B -> Prop) l l' b : Forall2 Q l l' -> In b l' -> exists a, In a l /\ Q a b.
Proof.
  intros H. induction H as [|a b' l l' H1 H2 IH]; intros I; [destruct I|]. destruct I as [<-|I].
  - exists a. split; [left; reflexivity|exact H1].
  - destruct (IH I) as (a' & I' & H'). exists a'. split; [right; exact I'|exact H'].
Qed.

Section Upscales.
Context (S C I : format) (RS : roomy S) (RC : roomy C) (RI : roomy I) (WS : wider binary32_format S) (WI : wider C I) (W32 : wider binary32_format I).
Context (load : num C -> num S) (store : num S -> num C) (CV : conversions S C load store).
Context (u : R) (HL : (bpow radix2 (- f_prec S) <= u)%R) (HU : (u <= / 1048576)%R).
Context (twiddle super shift : number_table S) (al : oracle) (Hal : forall k, al k = true) (m : num S) (W t : num S * num S).

Definition computed (w h : Z) (image : list f32) (f : list (num C)) : Prop :=
  exists wd wd', coefficients load store (number_ops S twiddle super shift) al w h image m W t wd = Ok (f, wd').

(** planes of one size whose pairs around N are all inverted *)
Lemma unanimous_planes c fs len n stride dist range N Ds :
  series C I c Msign fs Ds len n stride dist range -> range < N < len - range -> zlen fs <= 2 ^ f_prec I ->
  (forall D, In D Ds -> s_lines D = n /\ forall y i, 0 <= y < n -> 1 <= i <= range -> xorb (nsign C (s_coef D y (N - i))) (nsign C (s_coef D y (N + i))) = true) ->
  exists result, prun_all C I c Msign fs len n stride dist range (repeat (n0 I) (Z.to_nat (len - 2 * range))) = Ok result /\
    B2R 24 128 (pconfidence I (at_ (n0 I) result (N - range)) (zlen fs)) = 1%R.
Proof.
  intros HS HN HK HD. destruct (series_confidence _ _ _ _ _ _ _ _ _ _ _ RC RI WI W32 HS) as (result & E & _ & _).
  exists result. split; [exact E|].
  destruct (series_unanimous _ _ _ _ _ _ _ _ _ _ _ result (N - range) RC RI WI W32 HS E ltac:(lia)) as (A & _).
  apply A; [|exact HK]. intros D ID. destruct (HD D ID) as (L & X). replace (range + (N - range)) with N by lia.
  cbn [counted met tried]. unfold inverted. rewrite L. destruct HS. apply how_many_pairs_all; [lia|lia|exact X].
Qed.

Lemma clear_width c s N h range images fs :
  1 <= s -> length_ok u (s * N) -> length_ok u h -> 1 <= range -> range < N < s * N - range -> h * range < storage_mod c ->
  tables_within S u twiddle super shift (s * N) -> tables_within S u twiddle super shift h ->
  images <> [] -> zlen images <= 2 ^ f_prec I -> zlen images < 2^64 ->
  (forall image, In image images -> clear_x u s N h range image) ->
  Forall2 (computed (s * N) h) images fs ->
  exists result, prun_all C I c Msign fs (s * N) h (s * N) 1 range (repeat (n0 I) (Z.to_nat (s * N - 2 * range))) = Ok result /\
    B2R 24 128 (pconfidence I (at_ (n0 I) result (N - range)) (zlen images)) = 1%R.
Proof.
  intros Hs W1 Hh Hr HN HC Tw Th NE LK L64 HI HF. pose proof (proj1 W1) as W2. pose proof (proj1 Hh) as HH.
  assert (LEN : zlen images = zlen fs) by (unfold zlen; f_equal; exact (same_number _ _ _ HF)).
  set (span_of := fun f => mkSpan C (s * N) h (fun y x => at_ (n0 C) f (y * (s * N) + x * 1))).
  assert (SZ : forall image f, clear_x u s N h range image -> computed (s * N) h image f ->
    zlen f = s * N * h /\ forall y i, 0 <= y < h -> 1 <= i <= range ->
      xorb (nsign C (s_coef (span_of f) y (N - i))) (nsign C (s_coef (span_of f) y (N + i))) = true).
  { intros image f (g & M & lw & lh & HM & Ew & Eh & HSm & HA) (wd & wd' & E).
    destruct (coefficients_near S C RS WS load store CV u HL HU twiddle super shift al (s * N) h image (widened s g) M lw lh m W t wd
      Hal W1 Hh Tw Th HM Ew Eh HSm) as (f' & wd1 & E' & LF & V).
    rewrite E in E'. injection E' as <- _. split; [exact LF|]. intros y i Hy Hi. cbn [span_of s_coef].
    destruct (HA y i Hy Hi) as (A1 & A2).
    destruct (widened_mirror s N h g y i) as (k & Pk & EK); try lia.
    replace (y * (s * N) + (N - i) * 1) with (y * (s * N) + (N - i)) by ring. replace (y * (s * N) + (N + i) * 1) with (y * (s * N) + (N + i)) by ring.
    eapply opposite_numbers; [|  |exact Pk|exact EK]; (eapply within_sign; [apply V; lia|assumption]). }
  rewrite LEN in *.
  apply (unanimous_planes c fs (s * N) h (s * N) 1 range N (map span_of fs)); try lia.
  - pose proof (p_big I RI). constructor; try lia.
    + eapply (forall2_layout _ _ _ span_of images fs HI HF). intros image f H1 H2. destruct (SZ image f H1 H2) as (L & _). unfold zlen in L.
      split; [|reflexivity]. constructor; cbn [span_of s_len s_lines s_coef]; try lia; try nia.
      intros; reflexivity.
    + intros ->. apply NE. destruct images; [reflexivity|]. inversion HF.
    + unfold zlen in L64. exact L64.
    + intros X; discriminate X.
  - intros D ID. apply in_map_iff in ID. destruct ID as (f & <- & If). split; [reflexivity|].
    destruct (forall2_in _ _ _ f HF If) as (image & Ii & Cf). apply (SZ image f (HI image Ii) Cf).
Qed.

Lemma clear_height c s N w range images fs :
  1 <= s -> length_ok u (s * N) -> length_ok u w -> 1 <= range -> range < N < s * N - range -> w * range < storage_mod c ->
  tables_within S u twiddle super shift w -> tables_within S u twiddle super shift (s * N) ->
  images <> [] -> zlen images <= 2 ^ f_prec I -> zlen images < 2^64 ->
  (forall image, In image images -> clear_y u s N w range image) ->
  Forall2 (computed w (s * N)) images fs ->
  exists result, prun_all C I c Msign fs (s * N) w 1 w range (repeat (n0 I) (Z.to_nat (s * N - 2 * range))) = Ok result /\
    B2R 24 128 (pconfidence I (at_ (n0 I) result (N - range)) (zlen images)) = 1%R.
Proof.
  intros Hs W1 Hh Hr HN HC Tw Th NE LK L64 HI HF. pose proof (proj1 W1) as W2. pose proof (proj1 Hh) as HH.
  assert (LEN : zlen images = zlen fs) by (unfold zlen; f_equal; exact (same_number _ _ _ HF)).
  set (span_of := fun f => mkSpan C (s * N) w (fun y x => at_ (n0 C) f (y * 1 + x * w))).
  assert (SZ : forall image f, clear_y u s N w range image -> computed w (s * N) image f ->
    zlen f = w * (s * N) /\ forall y i, 0 <= y < w -> 1 <= i <= range ->
      xorb (nsign C (s_coef (span_of f) y (N - i))) (nsign C (s_coef (span_of f) y (N + i))) = true).
  { intros image f (g & M & lw & lh & HM & Ew & Eh & HSm & HA) (wd & wd' & E).
    destruct (coefficients_near S C RS WS load store CV u HL HU twiddle super shift al w (s * N) image (heightened s g) M lw lh m W t wd
      Hal Hh W1 Tw Th HM Ew Eh HSm) as (f' & wd1 & E' & LF & V).
    rewrite E in E'. injection E' as <- _. split; [exact LF|]. intros y i Hy Hi. cbn [span_of s_coef].
    destruct (HA y i Hy Hi) as (A1 & A2).
    destruct (heightened_mirror s N w g i y) as (k & Pk & EK); try lia.
    replace (y * 1 + (N - i) * w) with ((N - i) * w + y) by ring. replace (y * 1 + (N + i) * w) with ((N + i) * w + y) by ring.
    eapply opposite_numbers; [|  |exact Pk|exact EK]; (eapply within_sign; [apply V; lia|assumption]). }
  rewrite LEN in *.
  apply (unanimous_planes c fs (s * N) w 1 w range N (map span_of fs)); try lia.
  - pose proof (p_big I RI). constructor; try lia.
    + eapply (forall2_layout _ _ _ span_of images fs HI HF). intros image f H1 H2. destruct (SZ image f H1 H2) as (L & _). unfold zlen in L.
      split; [|reflexivity]. constructor; cbn [span_of s_len s_lines s_coef]; try lia; try nia.
      intros; reflexivity.
    + intros ->. apply NE. destruct images; [reflexivity|]. inversion HF.
    + unfold zlen in L64. exact L64.
    + intros X; discriminate X.
  - intros D ID. apply in_map_iff in ID. destruct ID as (f & <- & If). split; [reflexivity|].
    destruct (forall2_in _ _ _ f HF If) as (image & Ii & Cf). apply (SZ image f (HI image Ii) Cf).
Qed.
End Upscales.
