(** The methods compute the ratios of SpecPrecision.v in every precision, and what rounding
    does to their means. *)
From Coq Require Import ZArith Reals Lia Lra Psatz Bool List.
From Flocq Require Import Core Relative IEEE754.BinarySingleNaN IEEE754.Binary IEEE754.Bits.
From Verif Require Import Base Flt Util Methods Precision Spec SpecAnalysis SpecPrecision BaseProofs FltProofs MethodsProofs.
Import ListNotations.
Open Scope list_scope.
Open Scope R_scope.

(** formats with enough room for every count of this program *)
Definition roomy (F : format) : Prop := (24 <= f_prec F <= 113 /\ 2 * f_prec F + 64 < f_emax F)%Z.
Definition wider (C I : format) : Prop := (f_prec C <= f_prec I /\ f_emax C <= f_emax I)%Z.

Section Format.
Context (F : format) (RM : roomy F).
Notation p := (f_prec F).
Notation em := (f_emax F).
Notation fx := (SpecFloat.fexp (f_prec F) (f_emax F)).
Notation FLT := (FLT_exp (3 - f_emax F - f_prec F) (f_prec F)).
Definition rn (x : R) : R := round radix2 fx ZnearestE x.

Lemma fx_flt : fx = FLT. Proof. reflexivity. Qed.
Local Instance pp : Prec_gt_0 p := f_pos F.
Global Instance vx : Valid_exp fx.
Proof. rewrite fx_flt. apply FLT_exp_valid. exact (f_pos F). Qed.
Global Instance mx : Monotone_exp fx.
Proof. rewrite fx_flt. apply FLT_exp_monotone. Qed.

Lemma rn_le x y : x <= y -> rn x <= rn y.
Proof. apply round_le; typeclasses eauto. Qed.
Lemma rn_id x : generic_format radix2 fx x -> rn x = x.
Proof. apply round_generic; typeclasses eauto. Qed.
Lemma fmt_bpow e : (3 - em - p <= e)%Z -> generic_format radix2 fx (bpow radix2 e).
Proof. intros H. apply generic_format_bpow. rewrite fx_flt. unfold FLT_exp. destruct RM. lia. Qed.
Lemma fmt_Z z : (Z.abs z <= 2 ^ p)%Z -> generic_format radix2 fx (IZR z).
Proof.
  intros H. destruct RM as [P1 P2].
  destruct (Z.eq_dec (Z.abs z) (2^p)) as [E|N].
  - assert (C : z = (2^p)%Z \/ z = (- 2^p)%Z) by lia.
    assert (G : generic_format radix2 fx (IZR (2^p))). { rewrite <- bpow_IZR by lia. apply fmt_bpow. lia. }
    destruct C as [->| ->]; [exact G|]. rewrite opp_IZR. apply generic_format_opp. exact G.
  - rewrite fx_flt. apply generic_format_FLT. exists (Float radix2 z 0).
    + unfold F2R; simpl; lra.
    + change (Z.abs z < 2 ^ p)%Z. lia.
    + change (3 - em - p <= 0)%Z. lia.
Qed.
Lemma rn_Z z : (Z.abs z <= 2 ^ p)%Z -> rn (IZR z) = IZR z.
Proof. intros; apply rn_id, fmt_Z; assumption. Qed.
Lemma p_big : (2 ^ 24 <= 2 ^ p)%Z.
Proof. apply Z.pow_le_mono_r; destruct RM; lia. Qed.
Lemma rn_0 : rn 0 = 0. Proof. apply (rn_Z 0). pose proof p_big. lia. Qed.
Lemma rn_1 : rn 1 = 1. Proof. apply (rn_Z 1). pose proof p_big. lia. Qed.
Lemma rn_nonneg x : 0 <= x -> 0 <= rn x.
Proof. intros H. rewrite <- rn_0. apply rn_le. exact H. Qed.
Lemma rn_top x : Rabs x <= bpow radix2 (em - 1) -> Rlt_bool (Rabs (rn x)) (bpow radix2 em) = true.
Proof.
  intros H. apply Rlt_bool_true. apply Rle_lt_trans with (bpow radix2 (em - 1)).
  - apply abs_round_le_generic; try typeclasses eauto; [apply fmt_bpow; destruct RM; lia|exact H].
  - apply bpow_lt. lia.
Qed.

(** 2^prec + 1 is halfway between 2^prec and 2^prec + 2, and goes to the even one *)
Lemma halfway m : Z.even m = true -> ZnearestE (IZR m + / 2) = m.
Proof.
  intros E. assert (Fl : Zfloor (IZR m + / 2) = m). { apply Zfloor_imp. rewrite plus_IZR. lra. }
  unfold Znearest. rewrite Fl. replace (IZR m + / 2 - IZR m) with (/ 2) by lra.
  rewrite Rcompare_Eq by reflexivity. rewrite E. reflexivity.
Qed.
Lemma rn_stuck : rn (IZR (2 ^ p) + 1) = IZR (2 ^ p).
Proof.
  destruct RM as [P1 P2]. pose proof p_big as B.
  assert (M : mag radix2 (IZR (2 ^ p) + 1) = (p + 1)%Z :> Z).
  { apply mag_unique. rewrite Rabs_pos_eq by (rewrite <- plus_IZR; apply IZR_le; lia). split.
    - replace (p + 1 - 1)%Z with p by lia. rewrite bpow_IZR by lia. lra.
    - rewrite bpow_IZR by lia. rewrite <- plus_IZR. apply IZR_lt. rewrite Z.pow_add_r by lia. lia. }
  unfold rn, round, scaled_mantissa, cexp. rewrite M, fx_flt.
  replace (FLT (p + 1)) with 1%Z by (unfold FLT_exp; lia).
  change (bpow radix2 (- (1))) with (/ 2).
  replace ((IZR (2 ^ p) + 1) * / 2) with (IZR (2 ^ (p - 1)) + / 2).
  - rewrite halfway.
    + unfold F2R. cbn [Fnum Fexp]. change (bpow radix2 1) with 2. rewrite <- mult_IZR. f_equal.
      replace (2 ^ p)%Z with (2 ^ (p - 1 + 1))%Z by (f_equal; lia). rewrite Z.pow_add_r by lia. reflexivity.
    + rewrite Z.even_pow by lia. reflexivity.
  - replace (2 ^ p)%Z with (2 ^ (p - 1 + 1))%Z by (f_equal; lia). rewrite Z.pow_add_r by lia. rewrite mult_IZR. lra.
Qed.

(** a non-negative finite number with a given value *)
Definition val (x : num F) (r : R) : Prop := finite F x = true /\ nsign F x = false /\ real F x = r.

Lemma val_nonneg x r : val x r -> 0 <= r.
Proof.
  intros (Hf & Hs & <-). unfold finite, nsign, real in *.
  destruct x as [s|s|s pl H|s m e H]; simpl in *; try discriminate.
  - lra.
  - subst s. apply F2R_ge_0. simpl. lia.
Qed.
Lemma val_inj x y r : val x r -> val y r -> x = y.
Proof. intros (F1 & S1 & E1) (F2 & S2 & E2). unfold finite, nsign, real in *. apply B2R_Bsign_inj; try assumption; congruence. Qed.
Lemma val_fmt x r : val x r -> rn r = r.
Proof. intros (_ & _ & <-). apply rn_id. apply generic_format_B2R. Qed.

Lemma of_Z_val z : (0 <= z <= 2 ^ (em - 1))%Z -> val (num_of_Z F z) (rn (IZR z)).
Proof.
  intros H. destruct RM as [P1 P2].
  pose proof (binary_normalize_correct p em (f_pos F) (f_room F) mode_NE z 0 false) as C.
  change (round_mode mode_NE) with ZnearestE in C.
  replace (F2R {| Fnum := z; Fexp := 0 |}) with (IZR z) in C by (unfold F2R; simpl; lra).
  fold (rn (IZR z)) in C. rewrite rn_top in C.
  - destruct C as (C1 & C2 & C3). repeat split; try assumption.
    unfold nsign, num_of_Z. rewrite C3. destruct (Rcompare_spec (IZR z) 0) as [L| |]; try reflexivity.
    apply lt_IZR in L. lia.
  - rewrite Rabs_pos_eq by (apply IZR_le; lia). rewrite bpow_IZR by lia. apply IZR_le. lia.
Qed.
Lemma of_Z_exact z : (0 <= z <= 2 ^ p)%Z -> val (num_of_Z F z) (IZR z).
Proof.
  intros H. rewrite <- (rn_Z z) by lia. apply of_Z_val. split; [lia|].
  eapply Z.le_trans; [apply H|]. apply Z.pow_le_mono_r; destruct RM; lia.
Qed.
Lemma n0_val : val (n0 F) 0.
Proof. apply (of_Z_exact 0). pose proof p_big. lia. Qed.

Lemma add_val x y a b : val x a -> val y b -> a + b <= bpow radix2 (em - 1) -> val (nadd F x y) (rn (a + b)).
Proof.
  intros Hx Hy Hb. pose proof (val_nonneg _ _ Hx). pose proof (val_nonneg _ _ Hy).
  destruct Hx as (Fx & Sx & Ex). destruct Hy as (Fy & Sy & Ey). unfold real, finite, nsign in *.
  pose proof (Bplus_correct p em (f_pos F) (f_room F) (f_nan2 F) mode_NE x y Fx Fy) as C.
  change (round_mode mode_NE) with ZnearestE in C. rewrite Ex, Ey in C.
  fold (rn (a + b)) in C. rewrite rn_top in C by (rewrite Rabs_pos_eq by lra; exact Hb).
  destruct C as (C1 & C2 & C3). split; [exact C2|]. split; [|exact C1].
  unfold nsign, nadd. rewrite C3. destruct (Rcompare_spec (a + b) 0); try reflexivity; [lra|].
  rewrite Sx. reflexivity.
Qed.
Lemma div_val x y a b : val x a -> val y b -> 0 < b -> a / b <= bpow radix2 (em - 1) -> val (ndiv F x y) (rn (a / b)).
Proof.
  intros Hx Hy Hb0 Hb. pose proof (val_nonneg _ _ Hx).
  destruct Hx as (Fx & Sx & Ex). destruct Hy as (Fy & Sy & Ey). unfold real, finite, nsign in *.
  pose proof (Bdiv_correct p em (f_pos F) (f_room F) (f_nan2 F) mode_NE x y) as C.
  change (round_mode mode_NE) with ZnearestE in C. rewrite Ex, Ey in C. specialize (C ltac:(lra)).
  fold (rn (a / b)) in C. rewrite rn_top in C.
  - destruct C as (C1 & C2 & C3).
    assert (Hf : finite F (ndiv F x y) = true) by (unfold finite, ndiv; etransitivity; [exact C2|exact Fx]).
    split; [exact Hf|]. split; [|exact C1]. unfold nsign, ndiv. rewrite C3.
    + rewrite Sx, Sy. reflexivity.
    + unfold finite, ndiv in Hf. match goal with |- is_nan _ _ ?t = false => destruct t; try reflexivity; discriminate end.
  - rewrite Rabs_pos_eq; [exact Hb|]. apply Rmult_le_pos; [lra|]. left. apply Rinv_0_lt_compat. exact Hb0.
Qed.
Lemma mul_val x y a b : val x a -> val y b -> a * b <= bpow radix2 (em - 1) -> val (nmul F x y) (rn (a * b)).
Proof.
  intros Hx Hy Hb. pose proof (val_nonneg _ _ Hx). pose proof (val_nonneg _ _ Hy).
  destruct Hx as (Fx & Sx & Ex). destruct Hy as (Fy & Sy & Ey). unfold real, finite, nsign in *.
  pose proof (Bmult_correct p em (f_pos F) (f_room F) (f_nan2 F) mode_NE x y) as C.
  change (round_mode mode_NE) with ZnearestE in C. rewrite Ex, Ey in C.
  fold (rn (a * b)) in C. rewrite rn_top in C.
  - destruct C as (C1 & C2 & C3).
    assert (Hf : finite F (nmul F x y) = true).
    { unfold finite, nmul; etransitivity; [exact C2|]. rewrite Fx, Fy. reflexivity. }
    split; [exact Hf|]. split; [|exact C1]. unfold nsign, nmul. rewrite C3.
    + rewrite Sx, Sy. reflexivity.
    + unfold finite, nmul in Hf. match goal with |- is_nan _ _ ?t = false => destruct t; try reflexivity; discriminate end.
  - rewrite Rabs_pos_eq; [exact Hb|]. apply Rmult_le_pos; lra.
Qed.
Lemma add_0_r x r : val x r -> nadd F x (n0 F) = x.
Proof.
  intros (Hf & Hs & _). destruct x as [s|s|s pl H|s m e H]; try discriminate; simpl in Hs; subst s; reflexivity.
Qed.

Lemma gt_lt a b : ngt F a b = nlt F b a.
Proof. unfold ngt, nlt. rewrite (Bcompare_swap p em a b). destruct (Bcompare p em a b) as [[]|]; reflexivity. Qed.
Lemma lt_spec a b : finite F a = true -> finite F b = true -> nlt F a b = true <-> real F a < real F b.
Proof.
  intros Fa Fb. unfold nlt. rewrite Bcompare_correct by assumption. unfold real.
  destruct (Rcompare_spec (B2R p em a) (B2R p em b)); split; intros; try reflexivity; try discriminate; lra.
Qed.
Lemma ge_spec a b : finite F a = true -> finite F b = true -> nge F a b = true <-> real F b <= real F a.
Proof.
  intros Fa Fb. unfold nge, ngt, neq. rewrite Bcompare_correct by assumption. unfold real.
  destruct (Rcompare_spec (B2R p em a) (B2R p em b)); simpl; split; intros; try reflexivity; try discriminate; lra.
Qed.
Lemma abs_finite x : finite F x = true -> finite F (nabs F x) = true /\ real F (nabs F x) = Rabs (real F x).
Proof. intros H. unfold nabs, finite, real. rewrite is_finite_Babs. split; [exact H|]. apply B2R_Babs. Qed.
Lemma abs_sign x : finite F x = true -> nsign F (nabs F x) = false.
Proof. destruct x; simpl; try discriminate; reflexivity. Qed.
Lemma copysign_abs b : finite F b = true -> ncopysign F (nabs F b) b = b.
Proof. destruct b; simpl; try discriminate; reflexivity. Qed.
Lemma epsilon_val : val (nepsilon F) (bpow radix2 (1 - p)).
Proof.
  pose proof (binary_normalize_correct p em (f_pos F) (f_room F) mode_NE 1 (1 - p) false) as C.
  change (round_mode mode_NE) with ZnearestE in C.
  rewrite F2R_bpow in C. fold (rn (bpow radix2 (1 - p))) in C.
  rewrite (rn_id (bpow radix2 (1 - p))) in C by (apply fmt_bpow; destruct RM; lia).
  rewrite Rlt_bool_true in C.
  - destruct C as (C1 & C2 & C3). split; [exact C2|]. split; [|exact C1].
    unfold nsign, nepsilon. rewrite C3. rewrite Rcompare_Gt; [reflexivity|]. apply bpow_gt_0.
  - rewrite Rabs_pos_eq by apply bpow_ge_0. apply bpow_lt. destruct RM. lia.
Qed.
Lemma frexp_spec special x : finite F x = true -> (nfrexp_exp F special x <=? 0)%Z = true <-> Rabs (real F x) < 1.
Proof.
  intros Hf. unfold finite, real in *. destruct x as [s|s|s pl H|s m e H]; try discriminate.
  - simpl. rewrite Rabs_R0. split; intros; [lra|reflexivity].
  - pose proof (Bfrexp_correct p em (f_pos F) ltac:(destruct RM; lia) (B754_finite p em s m e H) eq_refl) as C.
    cbv zeta in C. destruct C as (_ & _ & C). unfold nfrexp_exp. rewrite C.
    set (x := B2R p em (B754_finite p em s m e H)) in *.
    assert (N : x <> 0). { unfold x; simpl. intros Z. apply eq_0_F2R in Z. destruct s; discriminate. }
    rewrite Z.leb_le. split; intros G.
    + eapply Rlt_le_trans; [apply (bpow_mag_gt radix2)|]. change 1 with (bpow radix2 0). apply bpow_le. exact G.
    + apply mag_le_bpow; assumption.
Qed.
End Format.

(** ** Conversions *)
Section Conversions.
Context (F G : format) (RF : roomy F) (RG : roomy G).

Lemma convert_up x : wider F G -> finite F x = true ->
  finite G (convert F G x) = true /\ real G (convert F G x) = real F x /\ nsign G (convert F G x) = nsign F x.
Proof.
  intros [W1 W2]. unfold finite, real, nsign. destruct x as [s|s|s pl H|s m e H]; simpl; try discriminate; intros _.
  - auto.
  - pose proof (binary_normalize_correct (f_prec G) (f_emax G) (f_pos G) (f_room G) mode_NE (cond_Zopp s (Zpos m)) e s) as C.
    set (x := F2R {| Fnum := cond_Zopp s (Zpos m); Fexp := e |}) in *.
    change (round_mode mode_NE) with ZnearestE in C.
    assert (Fm : generic_format radix2 (SpecFloat.fexp (f_prec F) (f_emax F)) x) by exact (generic_format_B2R _ _ (B754_finite _ _ s m e H)).
    assert (Gm : generic_format radix2 (SpecFloat.fexp (f_prec G) (f_emax G)) x).
    { apply generic_inclusion_mag with (fexp1 := SpecFloat.fexp (f_prec F) (f_emax F)); try typeclasses eauto; [|exact Fm].
      intros _. rewrite !fx_flt. unfold FLT_exp. lia. }
    fold (rn G x) in C. rewrite (rn_id G x Gm) in C.
    assert (B : Rabs x < bpow radix2 (f_emax F)) by (exact (abs_B2R_lt_emax _ _ (B754_finite _ _ s m e H))).
    rewrite Rlt_bool_true in C.
    + destruct C as (C1 & C2 & C3). split; [exact C2|]. split; [exact C1|].
      etransitivity; [exact C3|]. destruct s; simpl.
      * rewrite Rcompare_Lt; [reflexivity|]. apply F2R_lt_0. simpl. lia.
      * rewrite Rcompare_Gt; [reflexivity|]. apply F2R_gt_0. simpl. lia.
    + eapply Rlt_le_trans; [exact B|]. apply bpow_le. lia.
Qed.
Lemma convert_val x r : val F x r -> r <= bpow radix2 (f_emax G - 1) -> val G (convert F G x) (rn G r).
Proof.
  intros (Hf & Hs & E) Hr. unfold finite, nsign, real in *. destruct x as [s|s|s pl H|s m e H]; try discriminate; simpl in Hs; subst s.
  - simpl in E. subst r. rewrite rn_0 by exact RG. repeat split.
  - pose proof (binary_normalize_correct (f_prec G) (f_emax G) (f_pos G) (f_room G) mode_NE (cond_Zopp false (Zpos m)) e false) as C.
    change (round_mode mode_NE) with ZnearestE in C.
    change (F2R {| Fnum := cond_Zopp false (Zpos m); Fexp := e |}) with (B2R _ _ (B754_finite (f_prec F) (f_emax F) false m e H)) in C.
    rewrite E in C. fold (rn G r) in C.
    assert (P : 0 < r). { rewrite <- E. apply F2R_gt_0. simpl. lia. }
    rewrite (rn_top G RG) in C by (rewrite Rabs_pos_eq; [exact Hr|lra]).
    destruct C as (C1 & C2 & C3). split; [exact C2|]. split; [|exact C1].
    etransitivity; [exact C3|]. rewrite Rcompare_Gt; [reflexivity|exact P].
Qed.
End Conversions.

Section Methods.
Context (C I : format) (RC : roomy C) (RI : roomy I) (W : wider C I).

Lemma roundtrip x : finite C x = true -> convert I C (convert C I x) = x.
Proof.
  intros Hf. destruct (convert_up C I x W Hf) as (F' & E & S').
  unfold finite, real, nsign in *. destruct x as [s|s|s pl H|s m e H]; try discriminate; [reflexivity|].
  set (x := B754_finite (f_prec C) (f_emax C) s m e H) in *.
  destruct (convert C I x) as [s'|s'|s' pl' H'|s' m' e' H'] eqn:EQ; try discriminate.
  - exfalso. assert (N : B2R _ _ x <> 0). { unfold x; simpl. intros Z. apply eq_0_F2R in Z. destruct s; discriminate. }
    apply N. rewrite <- E. reflexivity.
  - unfold convert.
    pose proof (binary_normalize_correct (f_prec C) (f_emax C) (f_pos C) (f_room C) mode_NE (cond_Zopp s' (Zpos m')) e' s') as K.
    change (round_mode mode_NE) with ZnearestE in K.
    change (F2R {| Fnum := cond_Zopp s' (Zpos m'); Fexp := e' |}) with (B2R _ _ (B754_finite (f_prec I) (f_emax I) s' m' e' H')) in K.
    rewrite E in K. fold (rn C (B2R (f_prec C) (f_emax C) x)) in K.
    rewrite (rn_id C (B2R (f_prec C) (f_emax C) x)) in K by apply generic_format_B2R.
    rewrite Rlt_bool_true in K by apply abs_B2R_lt_emax.
    destruct K as (C1 & C2 & C3).
    apply B2R_Bsign_inj; [exact C2|exact Hf|exact C1|].
    rewrite C3. unfold x; simpl. destruct s; simpl.
    + rewrite Rcompare_Lt; [reflexivity|]. apply F2R_lt_0. simpl. lia.
    + rewrite Rcompare_Gt; [reflexivity|]. apply F2R_gt_0. simpl. lia.
Qed.

Lemma tiny_val : val C (tiny C I) (bpow radix2 (1 - f_prec I)).
Proof.
  unfold tiny. destruct RC, RI.
  rewrite <- (rn_id C (bpow radix2 (1 - f_prec I))) by (apply (fmt_bpow C RC); lia).
  apply (convert_val I C RC); [apply epsilon_val; exact RI|]. apply bpow_le. lia.
Qed.

Lemma away_ok b : let ab := convert C I (nabs C b) in
  ncopysign C (convert I C (if ngt I ab (nepsilon I) then ab else nepsilon I)) b = away_from_zero C I b.
Proof.
  cbv zeta. unfold away_from_zero. fold (tiny C I).
  destruct (finite C b) eqn:Fb.
  - destruct (abs_finite C b Fb) as (FA & EA).
    destruct (convert_up C I _ W FA) as (FD & ED & SD).
    destruct (epsilon_val I RI) as (FE & _ & EE). destruct tiny_val as (Fe & _ & Ee).
    assert (Q : ngt I (convert C I (nabs C b)) (nepsilon I) = ngt C (nabs C b) (tiny C I)).
    { rewrite !gt_lt. apply Bool.eq_iff_eq_true. rewrite !lt_spec by assumption. rewrite ED, EE, Ee. reflexivity. }
    rewrite Q. destruct (ngt C (nabs C b) (tiny C I)); [|reflexivity].
    rewrite roundtrip by exact FA. apply copysign_abs. exact Fb.
  - destruct (epsilon_val I RI) as (FE & SE & EE). destruct tiny_val as (Fe & Se & Ee).
    destruct b as [s|s|s pl H|s m e H]; try discriminate.
    + replace (ngt I (convert C I (nabs C (B754_infinity _ _ s))) (nepsilon I)) with true.
      2:{ cbn [nabs Babs convert]. destruct (nepsilon I); try discriminate FE; reflexivity. }
      replace (ngt C (nabs C (B754_infinity _ _ s)) (tiny C I)) with true.
      2:{ cbn [nabs Babs]. destruct (tiny C I); try discriminate Fe; reflexivity. }
      reflexivity.
    + replace (ngt C (nabs C (B754_nan _ _ s pl H)) (tiny C I)) with false by (unfold ngt, nabs; destruct (tiny C I); reflexivity).
      replace (ngt I (convert C I (nabs C (B754_nan _ _ s pl H))) (nepsilon I)) with false; [reflexivity|].
      unfold nabs, Babs. destruct (f_nan1 C _) as [[| |t q Hq|] N]; try discriminate N. unfold build_nan, convert.
      destruct (f_nan I) as [[| |t' q' Hq'|] N']; try discriminate N'. reflexivity.
Qed.
Lemma matches_ok special a b : pmag_matches C I special a b = opposite C I (special <=? 0)%Z a b.
Proof.
  unfold pmag_matches, opposite. pose proof (away_ok b) as A. cbv zeta in A. rewrite A.
  set (s := nadd C (ndiv C a (away_from_zero C I b)) (num_of_Z C 1)). cbv zeta.
  destruct (finite C s) eqn:Hf.
  - destruct (convert_up C I s W Hf) as (FD & ED & _).
    destruct (abs_finite C s Hf) as (FA & EA).
    destruct (of_Z_exact C RC 1) as (F1 & _ & E1). { pose proof (p_big C RC). lia. }
    apply Bool.eq_iff_eq_true. rewrite frexp_spec by assumption.
    rewrite lt_spec by assumption. rewrite ED, EA, E1. reflexivity.
  - destruct s as [t|t|t pl H|t m e H]; try discriminate; cbn [convert nfrexp_exp]; [reflexivity|].
    destruct (f_nan I) as [[| |t' q' Hq'|] N']; try discriminate N'. reflexivity.
Qed.

(** ** Counting *)
Open Scope Z_scope.
Lemma layout_get f n stride dist D y x k : layout C f n stride dist D ->
  0 <= y < n -> 0 <= x < s_len D -> k = y * stride + x * dist -> get f (wrap k) = Ok (s_coef D y x).
Proof.
  intros G Hy Hx ->. pose proof (l_in _ _ _ _ _ _ G y x Hy Hx). pose proof (l_size _ _ _ _ _ _ G).
  fold (zlen f) in *. rewrite wrap_small by lia. rewrite (get_at (n0 C)) by lia.
  rewrite (l_coef _ _ _ _ _ _ G) by assumption. reflexivity.
Qed.
Lemma differs_xorb a b : psign_differs C a b = xorb (nsign C a) (nsign C b).
Proof. unfold psign_differs. destruct (nsign C a), (nsign C b); reflexivity. Qed.
Lemma pcount_sign_ok sm f n stride dist D range x :
  layout C f n stride dist D -> 0 <= range -> range <= x -> x + range < s_len D -> n * range < sm ->
  pcount_sign C sm f n stride dist range x = Ok (inverted C D range x).
Proof.
  intros G Hr Hx Hx' Hs. unfold pcount_sign, inverted. rewrite (l_n _ _ _ _ _ _ G).
  pose proof (l_lines _ _ _ _ _ _ G).
  apply (for_count2 sm); try lia. intros y i acc Hy Hi.
  rewrite (layout_get f n stride dist D y (x - i)) by (assumption || lia || ring). cbn [bind].
  rewrite (layout_get f n stride dist D y (x + i)) by (assumption || lia || ring). cbn [bind].
  rewrite differs_xorb. reflexivity.
Qed.
Lemma pcount_mag_ok special sm f n stride dist D range x :
  layout C f n stride dist D -> 0 <= range -> range <= x -> x + range < s_len D -> n * range < sm ->
  pcount_mag C I special sm f n stride dist range x = Ok (matching C I (special <=? 0) D range x).
Proof.
  intros G Hr Hx Hx' Hs. unfold pcount_mag, matching. rewrite (l_n _ _ _ _ _ _ G).
  pose proof (l_lines _ _ _ _ _ _ G).
  apply (for_count2 sm); try lia. intros y i acc Hy Hi.
  rewrite (layout_get f n stride dist D y (x - i)) by (assumption || lia || ring). cbn [bind].
  rewrite (layout_get f n stride dist D y (x + i)) by (assumption || lia || ring). cbn [bind].
  rewrite matches_ok. reflexivity.
Qed.
Lemma pcount_zerox_ok sm f n stride dist D x :
  layout C f n stride dist D -> 1 <= x -> x + 1 < s_len D -> n < sm ->
  pcount_zerox C sm f n stride dist x = Ok (crossings C D x).
Proof.
  intros G Hx Hx' Hs. unfold pcount_zerox, crossings. rewrite (l_n _ _ _ _ _ _ G).
  pose proof (l_lines _ _ _ _ _ _ G).
  rewrite (for_count sm (fun y => crosses C (s_coef D y (x - 1)) (s_coef D y x) (s_coef D y (x + 1)))); try lia.
  - f_equal; lia.
  - intros y acc Hy.
    rewrite (layout_get f n stride dist D y (x - 1)) by (assumption || lia || ring). cbn [bind].
    rewrite (layout_get f n stride dist D y x) by (assumption || lia || ring). cbn [bind].
    rewrite (layout_get f n stride dist D y (x + 1)) by (assumption || lia || ring). cbn [bind].
    unfold pzero_crosses, crosses. rewrite differs_xorb, !gt_lt. reflexivity.
Qed.

Lemma padd_result_ok result i v : 0 <= i < zlen result ->
  padd_result I result i v = Ok (upd result (Z.to_nat i) (nadd I (at_ (n0 I) result i) v)).
Proof.
  intros H. unfold padd_result. rewrite (get_at (n0 I)) by exact H. cbn [bind]. apply set_upd. exact H.
Qed.
Lemma paccumulate_ok (t : Z -> bool) (v : Z -> num I) body start end_ result :
  0 <= start <= end_ -> end_ < 2^64 -> zlen result = end_ - start ->
  (forall x r, start <= x < end_ ->
     body x r = if t x then padd_result I r (wrap (x - start)) (v x) else Ok r) ->
  exists result', for_range start end_ body result = Ok result' /\
     zlen result' = zlen result /\
     forall i, 0 <= i < zlen result ->
      at_ (n0 I) result' i = if t (start + i) then nadd I (at_ (n0 I) result i) (v (start + i)) else at_ (n0 I) result i.
Proof.
  intros Hs He Hl Hb.
  destruct (for_range_inv (fun x r => zlen r = zlen result /\
     forall i, 0 <= i < zlen result ->
       at_ (n0 I) r i = if (start + i <? x) && t (start + i)
                    then nadd I (at_ (n0 I) result i) (v (start + i)) else at_ (n0 I) result i)
     body start end_ result) as (r & E & L & A).
  - lia.
  - split; [reflexivity|]. intros i Hi. replace (start + i <? start) with false by lia. reflexivity.
  - intros x r Hx (L & A). rewrite Hb by exact Hx. destruct (t x) eqn:T.
    + rewrite wrap_small by lia. rewrite padd_result_ok by lia.
      eexists. split; [reflexivity|]. split; [rewrite zlen_upd; exact L|].
      intros i Hi. rewrite at_upd by lia.
      destruct (Z.eqb_spec i (x - start)) as [->|N].
      * replace (start + (x - start)) with x by lia. rewrite T.
        replace (x <? x + 1) with true by lia. cbn [andb].
        rewrite A by lia. replace (start + (x - start) <? x) with false by lia. reflexivity.
      * rewrite A by lia. replace (start + i <? x + 1) with (start + i <? x) by lia. reflexivity.
    + exists r. split; [reflexivity|]. split; [exact L|]. intros i Hi. rewrite A by lia.
      destruct (Z.eq_dec (start + i) x) as [->|N].
      * rewrite T, !andb_false_r. reflexivity.
      * replace (start + i <? x + 1) with (start + i <? x) by lia. reflexivity.
  - exists r. split; [exact E|]. split; [exact L|]. intros i Hi. rewrite A by exact Hi.
    replace (start + i <? end_) with true by lia. reflexivity.
Qed.

Lemma porig_sums_ok f n stride dist D : layout C f n stride dist D -> s_len D < 2^64 ->
  exists sum, porig_sums C I f (s_len D) n stride dist = Ok sum /\
     zlen sum = s_len D /\ forall x, 0 <= x < s_len D -> at_ (n0 I) sum x = mean_size C I D x.
Proof.
  intros G Hl. pose proof (l_len _ _ _ _ _ _ G) as L0. pose proof (l_lines _ _ _ _ _ _ G) as N0.
  unfold porig_sums.
  set (part := fun k x => fold_left (fun s y => nadd I s (nabs I (convert C I (s_coef D y x)))) (zrange 0 k) (n0 I)).
  destruct (for_range_inv (fun y s => zlen s = s_len D /\
     forall x, 0 <= x < s_len D -> at_ (n0 I) s x = part y x)
     (fun y sum => for_range 0 (s_len D) (fun x sum =>
             v <- get f (wrap (y*stride + x*dist)) ;;
             padd_result I sum x (nabs I (convert C I v))) sum) 0 n (repeat (n0 I) (Z.to_nat (s_len D)))) as (s1 & E1 & L1 & A1).
  - lia.
  - split; [rewrite zlen_repeat; lia|]. intros x Hx. rewrite at_repeat. reflexivity.
  - intros y s Hy (L & A).
    destruct (paccumulate_ok (fun _ => true) (fun x => nabs I (convert C I (s_coef D y x)))
       (fun x sum => v <- get f (wrap (y*stride + x*dist)) ;;
             padd_result I sum x (nabs I (convert C I v))) 0 (s_len D) s) as (s' & E & L' & A'); try lia.
    + intros x r Hx. rewrite (layout_get f n stride dist D y x) by (assumption || lia || ring).
      cbn [bind]. rewrite Z.sub_0_r, wrap_small by lia. reflexivity.
    + exists s'. split; [exact E|]. split; [lia|]. intros x Hx.
      rewrite A' by lia. rewrite A by lia. unfold part.
      rewrite zrange_snoc by lia. rewrite fold_left_app. reflexivity.
  - rewrite E1. cbn [bind].
    destruct (for_range_inv (fun k s => zlen s = s_len D /\
     forall x, 0 <= x < s_len D -> at_ (n0 I) s x = if x <? k then mean_size C I D x else part n x)
      (fun x sum => s <- get sum x ;; set sum x (ndiv I s (num_of_Z I n))) 0 (s_len D) s1) as (s2 & E2 & L2 & A2).
    + lia.
    + split; [exact L1|]. intros x Hx. replace (x <? 0) with false by lia. apply A1. exact Hx.
    + intros x s Hx (L & A). rewrite (get_at (n0 I)) by lia. cbn [bind]. rewrite set_upd by lia.
      eexists. split; [reflexivity|]. split; [rewrite zlen_upd; exact L|].
      intros i Hi. rewrite at_upd by lia. destruct (Z.eqb_spec i x) as [->|N].
      * replace (x <? x + 1) with true by lia. rewrite A by lia.
        replace (x <? x) with false by lia. unfold mean_size, part. rewrite (l_n _ _ _ _ _ _ G). reflexivity.
      * rewrite A by lia. replace (i <? x + 1) with (i <? x) by lia. reflexivity.
    + exists s2. split; [exact E2|]. split; [exact L2|]. intros x Hx. rewrite A2 by exact Hx.
      replace (x <? s_len D) with true by lia. reflexivity.
Qed.
Lemma porig_test_ok D sum range x :
  zlen sum = s_len D -> s_len D < 2^64 ->
  (forall x, 0 <= x < s_len D -> at_ (n0 I) sum x = mean_size C I D x) ->
  0 <= range -> range <= x -> x + range < s_len D ->
  porig_test I sum range x = Ok (dips C I D range x).
Proof.
  intros L Hl A Hr Hx Hx'. unfold porig_test.
  rewrite (get_at (n0 I)) by lia. cbn [bind]. rewrite A by lia.
  rewrite (for_range_fold (fun i '(l, r) => (nadd I l (mean_size C I D (x + (-1) * i)), nadd I r (mean_size C I D (x + 1 * i))))).
  - assert (FE : forall l a b, fold_left (fun s j => let '(l, r) := s in
        (nadd I l (mean_size C I D (x + -1 * j)), nadd I r (mean_size C I D (x + 1 * j)))) l (a, b) =
        (fold_left (fun s i => nadd I s (mean_size C I D (x + -1 * i))) l a,
         fold_left (fun s i => nadd I s (mean_size C I D (x + 1 * i))) l b)).
    { induction l as [|h t IH]; intros a b; simpl fold_left; [reflexivity|]. apply IH. }
    rewrite FE. reflexivity.
  - intros i [l r] Hi. rewrite wrap_small by lia. rewrite (get_at (n0 I)) by lia. cbn [bind].
    rewrite wrap_small by lia. rewrite (get_at (n0 I)) by lia. cbn [bind].
    rewrite !A by lia. do 4 f_equal; lia.
Qed.

(** ** Ratios *)
Definition pratio (k : criterion) (D : span C) (range x : Z) : num I :=
  match k with
  | ZeroCrossing => ndiv I (num_of_Z I (met C I k D range x)) (num_of_Z I (s_lines D))
  | _ => ndiv I (num_of_Z I (met C I k D range x)) (nmul I (num_of_Z I (s_lines D)) (num_of_Z I range))
  end.
Notation P := (2 ^ f_prec I).
Lemma product_room a b : 0 <= a <= P -> 0 <= b <= P -> a * b <= 2 ^ (2 * f_prec I).
Proof. intros A B. replace (2 * f_prec I) with (f_prec I + f_prec I) by lia. destruct RI. rewrite Z.pow_add_r by lia. nia. Qed.
Lemma pdenominator n range : 0 < n <= P -> 0 < range <= P ->
  val I (nmul I (num_of_Z I n) (num_of_Z I range)) (rn I (IZR (n * range))).
Proof.
  intros Hn Hr. rewrite mult_IZR. apply mul_val; [exact RI|apply of_Z_exact; [exact RI|lia]|apply of_Z_exact; [exact RI|lia]|].
  rewrite <- mult_IZR. destruct RI. rewrite bpow_IZR by lia. apply IZR_le.
  eapply Z.le_trans; [apply product_room; lia|]. apply Z.pow_le_mono_r; lia.
Qed.
Lemma rn_pos z : 1 <= z -> (1 <= rn I (IZR z))%R.
Proof. intros H. rewrite <- (rn_1 I RI). apply rn_le. apply IZR_le. lia. Qed.
Lemma top64 k : 0 <= k <= 2 ^ (2 * f_prec I) -> 0 <= k <= 2 ^ (f_emax I - 1).
Proof. intros H. split; [lia|]. eapply Z.le_trans; [apply H|]. destruct RI. apply Z.pow_le_mono_r; lia. Qed.
Lemma le_top r : (r <= 1)%R -> (r <= bpow radix2 (f_emax I - 1))%R.
Proof. intros H. apply Rle_trans with (bpow radix2 0); [exact H|]. destruct RI. apply bpow_le. lia. Qed.
Lemma pquotient k d y : 0 <= k <= d -> 1 <= d <= 2 ^ (2 * f_prec I) -> val I y (rn I (IZR d)) ->
  val I (ndiv I (num_of_Z I k) y) (rn I (rn I (IZR k) / rn I (IZR d))) /\
  (rn I (rn I (IZR k) / rn I (IZR d)) <= 1)%R.
Proof.
  intros Hk Hd Hy. pose proof (rn_pos d ltac:(lia)) as PD.
  assert (Q : (rn I (IZR k) / rn I (IZR d) <= 1)%R).
  { apply Rmult_le_reg_r with (rn I (IZR d)); [lra|].
    unfold Rdiv. rewrite Rmult_assoc, Rinv_l, Rmult_1_r, Rmult_1_l by lra. apply rn_le. apply IZR_le. lia. }
  split.
  - apply div_val; [exact RI|apply of_Z_val; [exact RI|apply top64; lia]|exact Hy|lra|apply le_top; exact Q].
  - rewrite <- (rn_1 I RI). apply rn_le. exact Q.
Qed.
Lemma pzero_quotient y d : val I y d -> (0 < d)%R -> ndiv I (num_of_Z I 0) y = n0 I.
Proof.
  intros Hy Hd. eapply val_inj; [|apply n0_val; exact RI].
  assert (V := div_val I RI (num_of_Z I 0) y 0 d (n0_val I RI) Hy Hd).
  replace (rn I (0 / d)) with 0%R in V.
  - apply V. unfold Rdiv. rewrite Rmult_0_l. apply bpow_ge_0.
  - unfold Rdiv. rewrite Rmult_0_l. symmetry. apply rn_0. exact RI.
Qed.
Lemma mul_comm_Z n range : 0 < n <= P -> 0 < range <= P ->
  nmul I (num_of_Z I range) (num_of_Z I n) = nmul I (num_of_Z I n) (num_of_Z I range).
Proof.
  intros Hn Hr. eapply val_inj; [apply pdenominator; lia|]. rewrite Z.mul_comm. apply pdenominator; lia.
Qed.
Lemma met_bounds k D range x : 0 <= s_lines D -> 0 <= range -> 0 <= met C I k D range x <= tried C k D range.
Proof.
  intros Hn Hr. destruct k; unfold met, tried.
  - apply how_many_pairs_bounds; assumption.
  - apply how_many_pairs_bounds; assumption.
  - destruct (dips C I D range x); [apply how_many_pairs_bounds; assumption|]. nia.
  - pose proof (how_many_bounds (fun y => crosses C (s_coef D y (x - 1)) (s_coef D y x) (s_coef D y (x + 1))) 0 (s_lines D) Hn).
    unfold crossings. lia.
Qed.
Lemma pratio_val k D range x : 0 < s_lines D <= P -> 0 < range <= P ->
  let v := rn I (rn I (IZR (met C I k D range x)) / rn I (IZR (tried C k D range))) in
  val I (pratio k D range x) v /\ (0 <= v <= 1)%R.
Proof.
  intros Hn Hr v. pose proof (met_bounds k D range x ltac:(lia) ltac:(lia)) as B.
  assert (R1 : 1 <= tried C k D range <= 2 ^ (2 * f_prec I)).
  { unfold tried. pose proof (product_room (s_lines D) range ltac:(lia) ltac:(lia)).
    destruct k; nia. }
  assert (Q : val I (pratio k D range x) v /\ (v <= 1)%R).
  { unfold pratio, v. destruct k; apply pquotient; try assumption; unfold tried; try (apply pdenominator; lia).
    apply of_Z_val; [exact RI|]. apply top64. cbn [tried] in R1. lia. }
  destruct Q as (V & U). split; [exact V|]. split; [exact (val_nonneg _ _ _ V)|exact U].
Qed.

Section Run.
Context (c : config) (m : method) (n stride dist range len : Z).
Hypothesis Hlen : len < 2^64.
Hypothesis Hrange : 1 <= range.
Hypothesis Hwin : 2 * range < len.
Hypothesis Hsm : n * range < storage_mod c.
Hypothesis Hn : n <= P.
Hypothesis Hr : range <= P.
Hypothesis Hzerox : m = Mzerox -> range = 1.
Notation crit := (criterion_of c m).

Lemma prun_ok f D result : layout C f n stride dist D -> s_len D = len -> zlen result = len - 2 * range ->
  (forall i, 0 <= i < zlen result -> exists r, val I (at_ (n0 I) result i) r) ->
  exists result', prun_method C I c m f len n stride dist range result range (len - range) = Ok result' /\
    zlen result' = zlen result /\
    forall i, 0 <= i < zlen result -> at_ (n0 I) result' i = nadd I (at_ (n0 I) result i) (pratio crit D range (range + i)).
Proof.
  intros G EL Hres Hfin. pose proof (l_lines _ _ _ _ _ _ G) as N0. pose proof (l_n _ _ _ _ _ _ G) as GN.
  unfold prun_method. destruct m eqn:Em; cbn [criterion_of].
  - unfold pdetect_sign. apply (paccumulate_ok (fun _ => true) (fun x => pratio Sign D range x)); try lia.
    intros x r Hx. rewrite (pcount_sign_ok _ _ _ _ _ D) by (assumption || lia).
    cbn [bind]. unfold pratio, met. rewrite GN. reflexivity.
  - unfold pdetect_magnitude. apply (paccumulate_ok (fun _ => true) (fun x => pratio (Magnitude (c_frexp_special c <=? 0)) D range x)); try lia.
    intros x r Hx. rewrite (pcount_mag_ok _ _ _ _ _ _ D) by (assumption || lia).
    cbn [bind]. unfold pratio, met. rewrite GN. reflexivity.
  - unfold pdetect_original. replace (wrap (range * 2) >=? len) with false by (rewrite wrap_small; lia).
    destruct (porig_sums_ok f n stride dist D G ltac:(lia)) as (sum & ES & LS & AS).
    rewrite EL in ES. rewrite ES. cbn [bind]. rewrite wrap_small by lia.
    match goal with |- exists r, for_range _ _ ?b _ = _ /\ _ =>
      destruct (paccumulate_ok (dips C I D range) (fun x => pratio Original D range x) b range (len - range) result) as (r' & E & L & A); try lia end.
    + intros x r Hx. rewrite (porig_test_ok D) by (assumption || lia). cbn [bind].
      destruct (dips C I D range x) eqn:Edip; [|reflexivity].
      rewrite (pcount_sign_ok _ _ _ _ _ D) by (assumption || lia). cbn [bind].
      unfold pratio, met. rewrite Edip, GN, mul_comm_Z by lia. reflexivity.
    + exists r'. split; [exact E|]. split; [exact L|].
      intros i Hi. rewrite A by exact Hi. destruct (dips C I D range (range + i)) eqn:Edip; [reflexivity|].
      destruct (Hfin i Hi) as (v & Hv). unfold pratio, met. rewrite Edip, GN.
      rewrite (pzero_quotient _ _ (pdenominator n range ltac:(lia) ltac:(lia))).
      * symmetry. eapply add_0_r. exact Hv.
      * pose proof (rn_pos (n * range) ltac:(nia)). lra.
  - unfold pdetect_zerocrossing. rewrite (Hzerox eq_refl) in *.
    apply (paccumulate_ok (fun _ => true) (fun x => pratio ZeroCrossing D 1 x)); try lia.
    intros x r Hx. rewrite (pcount_zerox_ok _ _ _ _ _ D) by (assumption || lia).
    cbn [bind]. unfold pratio, met. rewrite GN. reflexivity.
Qed.

Definition ptotal (Ds : list (span C)) (x : Z) : num I :=
  fold_left (fun s D => nadd I s (pratio crit D range x)) Ds (n0 I).
Lemma ptotal_snoc Ds D x : ptotal (Ds ++ [D]) x = nadd I (ptotal Ds x) (pratio crit D range x).
Proof. unfold ptotal. rewrite fold_left_app. reflexivity. Qed.

(** k terms of at most 1 never make more than k, nor more than 2^prec *)
Lemma rn_sum_le a k : 0 <= k -> (0 <= a <= IZR (Z.min k P) + 1)%R -> (0 <= rn I a <= IZR (Z.min (k + 1) P))%R.
Proof.
  intros Hk Ha. pose proof (p_big I RI). split; [apply rn_nonneg; [exact RI|apply Ha]|].
  destruct (Z.le_gt_cases P k) as [B|B].
  - rewrite Z.min_r in Ha by lia. rewrite Z.min_r by lia.
    apply Rle_trans with (rn I (IZR P + 1)); [apply rn_le; lra|]. rewrite rn_stuck by exact RI. lra.
  - rewrite Z.min_l in Ha by lia. rewrite Z.min_l by lia.
    rewrite <- (rn_Z I RI (k + 1)) by lia. apply rn_le. rewrite plus_IZR. lra.
Qed.
Lemma ptotal_val Ds x : (forall D, In D Ds -> s_lines D = n) -> 0 < n ->
  exists s, val I (ptotal Ds x) s /\ (0 <= s <= IZR (Z.min (zlen Ds) P))%R.
Proof.
  intros HD Hn0. induction Ds as [|D Ds IH] using rev_ind.
  - exists 0%R. split; [apply n0_val; exact RI|]. change (zlen []) with 0. pose proof (p_big I RI). rewrite Z.min_l by lia. lra.
  - destruct IH as (s & V & B). { intros D' ID. apply HD. apply in_or_app. left. exact ID. }
    assert (ED : s_lines D = n) by (apply HD, in_or_app; right; left; reflexivity).
    destruct (pratio_val crit D range x ltac:(lia) ltac:(lia)) as (VR & BR). cbv zeta in VR, BR. set (r := rn I (_ / _)) in *.
    rewrite ptotal_snoc, zlen_app. change (zlen [D]) with 1.
    pose proof (zlen_nonneg Ds).
    exists (rn I (s + r)). split; [|apply rn_sum_le; [lia|lra]].
    apply add_val; [exact RI|exact V|exact VR|].
    apply Rle_trans with (IZR (P + 1)).
    + rewrite plus_IZR. apply Rle_trans with (IZR (Z.min (zlen Ds) P) + 1)%R; [lra|]. apply Rplus_le_compat_r. apply IZR_le. lia.
    + destruct RI. rewrite bpow_IZR by lia. apply IZR_le.
      apply Z.le_trans with (2 ^ (f_prec I + 1)); [rewrite Z.pow_add_r by lia; pose proof (p_big I RI); lia|apply Z.pow_le_mono_r; lia].
Qed.
Lemma prun_all_ok fs Ds : 0 < n -> Forall2 (fun f D => layout C f n stride dist D /\ s_len D = len) fs Ds ->
  exists result, prun_all C I c m fs len n stride dist range (repeat (n0 I) (Z.to_nat (len - 2 * range))) = Ok result /\
    zlen result = len - 2 * range /\
    forall i, 0 <= i < zlen result -> at_ (n0 I) result i = ptotal Ds (range + i).
Proof.
  intros Hn0.
  assert (GEN : forall fs Ds, Forall2 (fun f D => layout C f n stride dist D /\ s_len D = len) fs Ds ->
    forall Es result, (forall D, In D Es -> s_lines D = n) -> zlen result = len - 2 * range ->
      (forall i, 0 <= i < zlen result -> at_ (n0 I) result i = ptotal Es (range + i)) ->
      exists result', prun_all C I c m fs len n stride dist range result = Ok result' /\
        zlen result' = len - 2 * range /\
        forall i, 0 <= i < zlen result' -> at_ (n0 I) result' i = ptotal (Es ++ Ds) (range + i)).
  { clear fs Ds. intros fs Ds H2. induction H2 as [|f D fs Ds [G EL] H2 IH]; intros Es result HE LR AR.
    - exists result. cbn [prun_all]. rewrite app_nil_r. auto.
    - cbn [prun_all].
      destruct (prun_ok f D result G EL LR) as (r' & E & L & A).
      + intros i Hi. rewrite AR by exact Hi. destruct (ptotal_val Es (range + i) HE Hn0) as (s & V & _). exists s. exact V.
      + rewrite E. cbn [bind]. destruct (IH (Es ++ [D]) r') as (r'' & E' & L' & A').
        * intros D' ID. apply in_app_or in ID. destruct ID as [ID|[<-|[]]]; [apply HE, ID|exact (l_n _ _ _ _ _ _ G)].
        * lia.
        * intros i Hi. rewrite A by lia. rewrite AR by lia. rewrite ptotal_snoc. reflexivity.
        * exists r''. split; [exact E'|]. split; [exact L'|]. intros i Hi. rewrite A' by exact Hi.
          rewrite <- app_assoc. reflexivity. }
  intros H2. apply (GEN fs Ds H2 [] (repeat (n0 I) (Z.to_nat (len - 2 * range)))).
  - intros D [].
  - rewrite zlen_repeat. lia.
  - intros i Hi. rewrite at_repeat. reflexivity.
Qed.

(** ** Means *)
Lemma pmean_val r s K : val I r s -> 1 <= K <= 2 ^ 64 -> (0 <= s <= IZR (Z.min K P))%R ->
  val I (pmean I r K) (rn I (s / rn I (IZR K))) /\ (0 <= rn I (s / rn I (IZR K)) <= 1)%R.
Proof.
  intros V HK Hs. pose proof (rn_pos K ltac:(lia)) as K1.
  assert (T : K <= 2 ^ (f_emax I - 1)). { eapply Z.le_trans; [apply HK|]. destruct RI. apply Z.pow_le_mono_r; lia. }
  assert (Q : (s <= rn I (IZR K))%R).
  { apply Rle_trans with (IZR (Z.min K P)); [apply Hs|]. rewrite <- (rn_Z I RI (Z.min K P)).
    - apply rn_le, IZR_le. lia.
    - pose proof (p_big I RI). lia. }
  assert (U : (s / rn I (IZR K) <= 1)%R).
  { apply Rmult_le_reg_r with (rn I (IZR K)); [lra|]. unfold Rdiv. rewrite Rmult_assoc, Rinv_l by lra. lra. }
  assert (VV : val I (pmean I r K) (rn I (s / rn I (IZR K)))).
  { apply div_val; [exact RI|exact V|apply of_Z_val; [exact RI|lia]|lra|apply le_top; exact U]. }
  split; [exact VV|]. split; [exact (val_nonneg _ _ _ VV)|]. rewrite <- (rn_1 I RI). apply rn_le. exact U.
Qed.
End Run.
End Methods.

Lemma roomy32 : roomy binary32_format. Proof. split; cbn; lia. Qed.
Lemma roomy64 : roomy binary64_format. Proof. split; cbn; lia. Qed.
Lemma roomy87 : roomy x87_format. Proof. split; cbn; lia. Qed.
Lemma roomy128 : roomy quad_format. Proof. split; cbn; lia. Qed.
Lemma roomy_of L p : long_double L -> roomy (format_of L p).
Proof. intros [->|[->| ->]]; destruct p; auto using roomy32, roomy64, roomy87, roomy128. Qed.
Lemma wider_rule L c i : long_double L -> wider (format_of L c) (format_of L (inter_precision c i)).
Proof. intros [->|[->| ->]]; destruct c, i; split; cbn; lia. Qed.
Lemma wider32 L p : long_double L -> wider binary32_format (format_of L p).
Proof. intros [->|[->| ->]]; destruct p; split; cbn; lia. Qed.

Lemma pconfidence_val I r K v : roomy I -> val I (pmean I r K) v -> (0 <= v <= 1)%R ->
  ffinite (pconfidence I r K) = true /\ rf (pconfidence I r K) = rnd32 v /\ (0 <= rnd32 v <= 1)%R.
Proof.
  intros RI V B. destruct (convert_val I binary32_format roomy32 _ _ V) as (A1 & A2 & A3).
  { apply Rle_trans with (bpow radix2 0); [apply B|]. apply bpow_le. cbn. lia. }
  split; [exact A1|]. split; [exact A3|]. split; [apply rnd32_nonneg, B|]. rewrite <- rnd32_1. apply rnd32_le, B.
Qed.
