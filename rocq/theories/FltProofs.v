(** Facts about the floating-point operations of Flt.v. *)
From Coq Require Import ZArith Reals Lia Lra Psatz Bool.
From Flocq Require Import Core IEEE754.BinarySingleNaN IEEE754.Binary IEEE754.Bits.
From Flocq Require Import Relative.
From Verif Require Import Flt.
Open Scope R_scope.

Notation rd := (B2R 53 1024).
Notation rf := (B2R 24 128).
Notation fexp64 := (SpecFloat.fexp 53 1024).
Notation fexp32 := (SpecFloat.fexp 24 128).
Definition rnd64 (x : R) : R := round radix2 fexp64 ZnearestE x.
Definition rnd32 (x : R) : R := round radix2 fexp32 ZnearestE x.
Definition dfin (x : f64) : bool := is_finite 53 1024 x.

Global Instance valid64 : Valid_exp fexp64.
Proof. change fexp64 with (FLT_exp (-1074) 53). apply FLT_exp_valid. reflexivity. Qed.
Global Instance valid32 : Valid_exp fexp32.
Proof. change fexp32 with (FLT_exp (-149) 24). apply FLT_exp_valid. reflexivity. Qed.
Global Instance mono64 : Monotone_exp fexp64.
Proof. change fexp64 with (FLT_exp (-1074) 53). apply FLT_exp_monotone. Qed.
Global Instance mono32 : Monotone_exp fexp32.
Proof. change fexp32 with (FLT_exp (-149) 24). apply FLT_exp_monotone. Qed.

(** ** Rounding *)
Lemma rnd64_le x y : x <= y -> rnd64 x <= rnd64 y.
Proof. apply round_le; typeclasses eauto. Qed.
Lemma rnd32_le x y : x <= y -> rnd32 x <= rnd32 y.
Proof. apply round_le; typeclasses eauto. Qed.
Lemma rnd64_id x : generic_format radix2 fexp64 x -> rnd64 x = x.
Proof. apply round_generic; typeclasses eauto. Qed.
Lemma rnd32_id x : generic_format radix2 fexp32 x -> rnd32 x = x.
Proof. apply round_generic; typeclasses eauto. Qed.

Lemma fmt64_bpow e : (-1074 <= e)%Z -> generic_format radix2 fexp64 (bpow radix2 e).
Proof.
  intros H. apply generic_format_bpow. change fexp64 with (FLT_exp (-1074) 53).
  unfold FLT_exp. lia.
Qed.
Lemma fmt32_bpow e : (-149 <= e)%Z -> generic_format radix2 fexp32 (bpow radix2 e).
Proof.
  intros H. apply generic_format_bpow. change fexp32 with (FLT_exp (-149) 24).
  unfold FLT_exp. lia.
Qed.

Lemma fmt64_Z z : (Z.abs z <= 2^53)%Z -> generic_format radix2 fexp64 (IZR z).
Proof.
  intros H.
  assert (G : forall z, (Z.abs z < 2^53)%Z -> generic_format radix2 fexp64 (IZR z)).
  { intros y Hy. change fexp64 with (FLT_exp (-1074) 53). apply generic_format_FLT.
    exists (Float radix2 y 0); simpl; try lia. unfold F2R; simpl; lra. }
  destruct (Z.eq_dec (Z.abs z) (2^53)) as [E|N].
  - assert (C : z = (2^53)%Z \/ z = (- 2^53)%Z) by lia. destruct C as [->| ->].
    + change (IZR (2^53)) with (IZR (Zpower radix2 53)). rewrite IZR_Zpower by lia. apply fmt64_bpow. lia.
    + rewrite opp_IZR. apply generic_format_opp.
      change (IZR (2^53)) with (IZR (Zpower radix2 53)). rewrite IZR_Zpower by lia. apply fmt64_bpow. lia.
  - apply G. lia.
Qed.
Lemma fmt32_Z z : (Z.abs z < 2^24)%Z -> generic_format radix2 fexp32 (IZR z).
Proof.
  intros H. change fexp32 with (FLT_exp (-149) 24). apply generic_format_FLT.
  exists (Float radix2 z 0); simpl; try lia. unfold F2R; simpl; lra.
Qed.

Lemma rnd64_Z z : (Z.abs z <= 2^53)%Z -> rnd64 (IZR z) = IZR z.
Proof. intros; apply rnd64_id, fmt64_Z; assumption. Qed.
Lemma rnd32_Z z : (Z.abs z < 2^24)%Z -> rnd32 (IZR z) = IZR z.
Proof. intros; apply rnd32_id, fmt32_Z; assumption. Qed.
Lemma rnd64_0 : rnd64 0 = 0. Proof. apply (rnd64_Z 0). lia. Qed.
Lemma rnd64_1 : rnd64 1 = 1. Proof. apply (rnd64_Z 1). lia. Qed.
Lemma rnd32_0 : rnd32 0 = 0. Proof. apply (rnd32_Z 0). lia. Qed.
Lemma rnd32_1 : rnd32 1 = 1. Proof. apply (rnd32_Z 1). lia. Qed.
Lemma rnd64_nonneg x : 0 <= x -> 0 <= rnd64 x.
Proof. intros H. rewrite <- rnd64_0. apply rnd64_le. exact H. Qed.
Lemma rnd32_nonneg x : 0 <= x -> 0 <= rnd32 x.
Proof. intros H. rewrite <- rnd32_0. apply rnd32_le. exact H. Qed.

Lemma bpow_IZR e : (0 <= e)%Z -> bpow radix2 e = IZR (2 ^ e).
Proof. intros H. rewrite <- (IZR_Zpower radix2 e H). reflexivity. Qed.

Lemma small_lt_emax64 x : Rabs x <= bpow radix2 1023 -> Rlt_bool (Rabs (rnd64 x)) (bpow radix2 1024) = true.
Proof.
  intros H. apply Rlt_bool_true. apply Rle_lt_trans with (bpow radix2 1023).
  - apply abs_round_le_generic; try typeclasses eauto; [apply fmt64_bpow; lia|exact H].
  - apply bpow_lt. lia.
Qed.
Lemma small_lt_emax32 x : Rabs x <= bpow radix2 127 -> Rlt_bool (Rabs (rnd32 x)) (bpow radix2 128) = true.
Proof.
  intros H. apply Rlt_bool_true. apply Rle_lt_trans with (bpow radix2 127).
  - apply abs_round_le_generic; try typeclasses eauto; [apply fmt32_bpow; lia|exact H].
  - apply bpow_lt. lia.
Qed.

(** a non-negative finite double / float with a given value *)
Definition dval (x : f64) (r : R) : Prop := dfin x = true /\ Bsign 53 1024 x = false /\ rd x = r.
Definition fval (x : f32) (r : R) : Prop := ffinite x = true /\ Bsign 24 128 x = false /\ rf x = r.

Lemma sign_nonneg_d (x : f64) : dfin x = true -> Bsign 53 1024 x = false -> 0 <= rd x.
Proof.
  destruct x as [s|s|s pl H|s m e H]; simpl; try discriminate; intros _ Hs.
  - lra.
  - subst s. apply F2R_ge_0. simpl. lia.
Qed.
Lemma sign_nonneg_f (x : f32) : ffinite x = true -> Bsign 24 128 x = false -> 0 <= rf x.
Proof.
  destruct x as [s|s|s pl H|s m e H]; simpl; try discriminate; intros _ Hs.
  - lra.
  - subst s. apply F2R_ge_0. simpl. lia.
Qed.

Lemma dval_nonneg x r : dval x r -> 0 <= r.
Proof. intros (F & S & <-). apply sign_nonneg_d; assumption. Qed.
Lemma dval_inj x y r : dval x r -> dval y r -> x = y.
Proof.
  intros (F1 & S1 & E1) (F2 & S2 & E2). apply B2R_Bsign_inj; try assumption; congruence.
Qed.
Lemma dval_fmt x r : dval x r -> rnd64 r = r.
Proof. intros (F & S & <-). apply rnd64_id. apply generic_format_B2R. Qed.

(** ** Integer conversions *)
Lemma f64_of_Z_val z : (0 <= z <= 2^64)%Z -> dval (f64_of_Z z) (rnd64 (IZR z)).
Proof.
  intros H. unfold f64_of_Z.
  pose proof (binary_normalize_correct 53 1024 eq_refl eq_refl mode_NE z 0 false) as C.
  change (round_mode mode_NE) with ZnearestE in C.
  replace (F2R {| Fnum := z; Fexp := 0 |}) with (IZR z) in C by (unfold F2R; simpl; lra).
  fold (rnd64 (IZR z)) in C.
  rewrite small_lt_emax64 in C.
  - destruct C as (C1 & C2 & C3). repeat split; try assumption.
    rewrite C3. destruct (Rcompare_spec (IZR z) 0); try reflexivity.
    apply lt_IZR in H0. lia.
  - rewrite Rabs_pos_eq by (apply IZR_le; lia).
    apply Rle_trans with (IZR (2^64)); [apply IZR_le; lia|].
    rewrite <- bpow_IZR by lia. apply bpow_le. lia.
Qed.
Lemma f64_of_Z_exact z : (0 <= z <= 2^53)%Z -> dval (f64_of_Z z) (IZR z).
Proof.
  intros H. rewrite <- (rnd64_Z z) by lia. apply f64_of_Z_val. lia.
Qed.
Lemma f32_of_Z_val z : (0 <= z <= 2^64)%Z -> fval (f32_of_Z z) (rnd32 (IZR z)).
Proof.
  intros H. unfold f32_of_Z.
  pose proof (binary_normalize_correct 24 128 eq_refl eq_refl mode_NE z 0 false) as C.
  change (round_mode mode_NE) with ZnearestE in C.
  replace (F2R {| Fnum := z; Fexp := 0 |}) with (IZR z) in C by (unfold F2R; simpl; lra).
  fold (rnd32 (IZR z)) in C.
  rewrite small_lt_emax32 in C.
  - destruct C as (C1 & C2 & C3). repeat split; try assumption.
    rewrite C3. destruct (Rcompare_spec (IZR z) 0); try reflexivity.
    apply lt_IZR in H0. lia.
  - rewrite Rabs_pos_eq by (apply IZR_le; lia).
    apply Rle_trans with (IZR (2^64)); [apply IZR_le; lia|].
    rewrite <- bpow_IZR by lia. apply bpow_le. lia.
Qed.
Lemma f32_of_Z_exact z : (0 <= z < 2^24)%Z -> fval (f32_of_Z z) (IZR z).
Proof. intros H. rewrite <- (rnd32_Z z) by lia. apply f32_of_Z_val. lia. Qed.

(** ** Operations on non-negative doubles *)
Lemma dadd_val x y a b : dval x a -> dval y b -> a + b <= bpow radix2 1023 ->
  dval (dadd x y) (rnd64 (a + b)).
Proof.
  intros Hx Hy Hb. pose proof (dval_nonneg _ _ Hx). pose proof (dval_nonneg _ _ Hy).
  destruct Hx as (Fx & Sx & Ex). destruct Hy as (Fy & Sy & Ey).
  unfold dadd, b64_plus.
  match goal with |- dval (Bplus _ _ ?p1 ?p2 ?n _ _ _) _ =>
    pose proof (Bplus_correct 53 1024 p1 p2 n mode_NE x y Fx Fy) as C end.
  change (round_mode mode_NE) with ZnearestE in C. rewrite Ex, Ey in C.
  fold (rnd64 (a + b)) in C. rewrite small_lt_emax64 in C by (rewrite Rabs_pos_eq by lra; exact Hb).
  destruct C as (C1 & C2 & C3). repeat split; try assumption.
  rewrite C3. destruct (Rcompare_spec (a + b) 0); try reflexivity; [lra|].
  rewrite Sx. reflexivity.
Qed.

Lemma ddiv_val x y a b : dval x a -> dval y b -> 0 < b -> a / b <= bpow radix2 1023 ->
  dval (ddiv x y) (rnd64 (a / b)).
Proof.
  intros Hx Hy Hb0 Hb. pose proof (dval_nonneg _ _ Hx).
  destruct Hx as (Fx & Sx & Ex). destruct Hy as (Fy & Sy & Ey).
  unfold ddiv, b64_div.
  match goal with |- dval (Bdiv _ _ ?p1 ?p2 ?n _ _ _) _ =>
    pose proof (Bdiv_correct 53 1024 p1 p2 n mode_NE x y) as C end.
  change (round_mode mode_NE) with ZnearestE in C. rewrite Ex, Ey in C.
  specialize (C ltac:(lra)).
  fold (rnd64 (a / b)) in C. rewrite small_lt_emax64 in C.
  - destruct C as (C1 & C2 & C3).
    assert (F : dfin (Bdiv 53 1024 eq_refl eq_refl binop_nan_pl64 mode_NE x y) = true) by (unfold dfin; etransitivity; [exact C2|exact Fx]).
    repeat split; try assumption.
    etransitivity; [apply C3|].
    + unfold dfin in F. match goal with |- is_nan _ _ ?t = false => destruct t; try reflexivity; discriminate end.
    + rewrite Sx, Sy. reflexivity.
  - rewrite Rabs_pos_eq; [exact Hb|]. apply Rmult_le_pos; [lra|]. left. apply Rinv_0_lt_compat. exact Hb0.
Qed.

Lemma dmul_val x y a b : dval x a -> dval y b -> a * b <= bpow radix2 1023 ->
  dval (dmul x y) (rnd64 (a * b)).
Proof.
  intros Hx Hy Hb. pose proof (dval_nonneg _ _ Hx). pose proof (dval_nonneg _ _ Hy).
  destruct Hx as (Fx & Sx & Ex). destruct Hy as (Fy & Sy & Ey).
  unfold dmul, b64_mult.
  match goal with |- dval (Bmult _ _ ?p1 ?p2 ?n _ _ _) _ =>
    pose proof (Bmult_correct 53 1024 p1 p2 n mode_NE x y) as C end.
  change (round_mode mode_NE) with ZnearestE in C. rewrite Ex, Ey in C.
  fold (rnd64 (a * b)) in C. rewrite small_lt_emax64 in C.
  - destruct C as (C1 & C2 & C3).
    assert (F : dfin (Bmult 53 1024 eq_refl eq_refl binop_nan_pl64 mode_NE x y) = true).
    { unfold dfin; etransitivity; [exact C2|]. unfold dfin in Fx, Fy. rewrite Fx, Fy. reflexivity. }
    repeat split; try assumption.
    etransitivity; [apply C3|].
    + unfold dfin in F. match goal with |- is_nan _ _ ?t = false => destruct t; try reflexivity; discriminate end.
    + rewrite Sx, Sy. reflexivity.
  - rewrite Rabs_pos_eq; [exact Hb|]. apply Rmult_le_pos; lra.
Qed.

Lemma dadd_0_r x r : dval x r -> dadd x d0 = x.
Proof.
  intros (F & S & E). destruct x as [s|s|s pl H|s m e H]; try discriminate; simpl in S; subst s; reflexivity.
Qed.
Lemma d0_val : dval d0 0.
Proof. repeat split. Qed.

(** ** Conversions between formats *)
Lemma f64_of_f32_finite (x : f32) : ffinite x = true ->
  dfin (f64_of_f32 x) = true /\ rd (f64_of_f32 x) = rf x /\ Bsign 53 1024 (f64_of_f32 x) = Bsign 24 128 x.
Proof.
  destruct x as [s|s|s pl H|s m e H]; simpl; try discriminate; intros _.
  - auto.
  - unfold f64_of_f32.
    pose proof (binary_normalize_correct 53 1024 eq_refl eq_refl mode_NE (cond_Zopp s (Zpos m)) e s) as C.
    set (x := F2R {| Fnum := cond_Zopp s (Zpos m); Fexp := e |}) in *.
    change (round_mode mode_NE) with ZnearestE in C.
    assert (Fm : generic_format radix2 fexp32 x).
    { pose proof (generic_format_B2R 24 128 (B754_finite 24 128 s m e H)) as G. exact G. }
    assert (Fm64 : generic_format radix2 fexp64 x).
    { apply generic_inclusion_mag with (fexp1 := fexp32); try typeclasses eauto; [|exact Fm].
      intros _. change fexp64 with (FLT_exp (-1074) 53). change fexp32 with (FLT_exp (-149) 24).
      unfold FLT_exp. lia. }
    fold (rnd64 x) in C. rewrite (rnd64_id x Fm64) in C.
    assert (B : Rabs x < bpow radix2 128) by (exact (abs_B2R_lt_emax 24 128 (B754_finite 24 128 s m e H))).
    rewrite Rlt_bool_true in C.
    + destruct C as (C1 & C2 & C3). split; [exact C2|]. split; [exact C1|].
      etransitivity; [exact C3|]. destruct s; simpl.
      * rewrite Rcompare_Lt; [reflexivity|]. apply F2R_lt_0. simpl. lia.
      * rewrite Rcompare_Gt; [reflexivity|]. apply F2R_gt_0. simpl. lia.
    + eapply Rlt_trans; [exact B|]. apply bpow_lt. lia.
Qed.
Lemma f64_of_f32_val x r : fval x r -> dval (f64_of_f32 x) r.
Proof.
  intros (F & S & E). destruct (f64_of_f32_finite x F) as (A & B & C).
  repeat split; congruence.
Qed.

Lemma f32_of_f64_val x r : dval x r -> r <= bpow radix2 127 -> fval (f32_of_f64 x) (rnd32 r).
Proof.
  intros (F & S & E) Hr. destruct x as [s|s|s pl H|s m e H]; try discriminate; simpl in S; subst s.
  - simpl in E. subst r. rewrite rnd32_0. repeat split.
  - unfold f32_of_f64.
    pose proof (binary_normalize_correct 24 128 eq_refl eq_refl mode_NE (cond_Zopp false (Zpos m)) e false) as C.
    change (round_mode mode_NE) with ZnearestE in C.
    change (F2R {| Fnum := cond_Zopp false (Zpos m); Fexp := e |}) with (rd (B754_finite 53 1024 false m e H)) in C.
    rewrite E in C. fold (rnd32 r) in C.
    assert (0 <= r). { rewrite <- E. apply F2R_ge_0. simpl. lia. }
    rewrite small_lt_emax32 in C by (rewrite Rabs_pos_eq; assumption).
    destruct C as (C1 & C2 & C3). repeat split; try assumption.
    etransitivity; [exact C3|]. rewrite <- E. rewrite Rcompare_Gt; [reflexivity|].
    apply F2R_gt_0. simpl. lia.
Qed.

Lemma f32_f64_roundtrip x : ffinite x = true -> f32_of_f64 (f64_of_f32 x) = x.
Proof.
  intros F. destruct (f64_of_f32_finite x F) as (F' & E & S).
  destruct x as [s|s|s pl H|s m e H]; try discriminate; [reflexivity|].
  set (x := B754_finite 24 128 s m e H) in *.
  destruct (f64_of_f32 x) as [s'|s'|s' pl' H'|s' m' e' H'] eqn:EQ; try discriminate.
  - exfalso. assert (N : rf x <> 0).
    { unfold x; simpl. intros Z. apply eq_0_F2R in Z. destruct s; discriminate. }
    apply N. rewrite <- E. reflexivity.
  - unfold f32_of_f64.
    pose proof (binary_normalize_correct 24 128 eq_refl eq_refl mode_NE (cond_Zopp s' (Zpos m')) e' s') as C.
    change (round_mode mode_NE) with ZnearestE in C.
    change (F2R {| Fnum := cond_Zopp s' (Zpos m'); Fexp := e' |}) with (rd (B754_finite 53 1024 s' m' e' H')) in C.
    rewrite E in C. fold (rnd32 (rf x)) in C.
    rewrite (rnd32_id (rf x)) in C by apply generic_format_B2R.
    rewrite Rlt_bool_true in C by apply abs_B2R_lt_emax.
    destruct C as (C1 & C2 & C3).
    apply B2R_Bsign_inj; [exact C2|exact F|exact C1|].
    rewrite C3. unfold x; simpl. destruct s; simpl.
    + rewrite Rcompare_Lt; [reflexivity|]. apply F2R_lt_0. simpl. lia.
    + rewrite Rcompare_Gt; [reflexivity|]. apply F2R_gt_0. simpl. lia.
Qed.

(** ** Comparisons *)
Lemma fgt_flt a b : fgt a b = flt b a.
Proof.
  unfold fgt, flt, b32_compare. rewrite (Bcompare_swap 24 128 a b).
  destruct (Bcompare 24 128 a b) as [[]|]; reflexivity.
Qed.
Lemma dgt_dlt a b : dgt a b = dlt b a.
Proof.
  unfold dgt, dlt, b64_compare. rewrite (Bcompare_swap 53 1024 a b).
  destruct (Bcompare 53 1024 a b) as [[]|]; reflexivity.
Qed.
Lemma flt_spec a b : ffinite a = true -> ffinite b = true -> flt a b = true <-> rf a < rf b.
Proof.
  intros Fa Fb. unfold flt, b32_compare. rewrite Bcompare_correct by assumption.
  destruct (Rcompare_spec (rf a) (rf b)); split; intros; try reflexivity; try discriminate; lra.
Qed.
Lemma dlt_spec a b : dfin a = true -> dfin b = true -> dlt a b = true <-> rd a < rd b.
Proof.
  intros Fa Fb. unfold dlt, b64_compare. rewrite Bcompare_correct by assumption.
  destruct (Rcompare_spec (rd a) (rd b)); split; intros; try reflexivity; try discriminate; lra.
Qed.
Lemma dge_spec a b : dfin a = true -> dfin b = true -> dge a b = true <-> rd b <= rd a.
Proof.
  intros Fa Fb. unfold dge, dgt, deq, b64_compare. rewrite Bcompare_correct by assumption.
  destruct (Rcompare_spec (rd a) (rd b)); simpl; split; intros; try reflexivity; try discriminate; lra.
Qed.
Lemma deq_spec a b : dfin a = true -> dfin b = true -> deq a b = true <-> rd a = rd b.
Proof.
  intros Fa Fb. unfold deq, b64_compare. rewrite Bcompare_correct by assumption.
  destruct (Rcompare_spec (rd a) (rd b)); split; intros; try reflexivity; try discriminate; lra.
Qed.
Lemma feq_spec a b : ffinite a = true -> ffinite b = true -> feq a b = true <-> rf a = rf b.
Proof.
  intros Fa Fb. unfold feq, b32_compare. rewrite Bcompare_correct by assumption.
  destruct (Rcompare_spec (rf a) (rf b)); split; intros; try reflexivity; try discriminate; lra.
Qed.

(** ** |x| and copysign *)
Lemma fabsf_finite x : ffinite x = true -> ffinite (fabsf x) = true /\ rf (fabsf x) = Rabs (rf x).
Proof.
  intros F. unfold fabsf, b32_abs, ffinite. rewrite is_finite_Babs. split; [exact F|]. apply B2R_Babs.
Qed.
Lemma fcopysign_abs b : fisnan b = false -> fcopysign (fabsf b) b = b.
Proof. destruct b; simpl; try discriminate; reflexivity. Qed.

(** ** DBL_EPSILON and frexp *)
Lemma DBL_EPSILON_fin : dfin DBL_EPSILON = true /\ rd DBL_EPSILON = bpow radix2 (-52).
Proof.
  unfold DBL_EPSILON.
  pose proof (binary_normalize_correct 53 1024 eq_refl eq_refl mode_NE 1 (-52) false) as C.
  change (round_mode mode_NE) with ZnearestE in C.
  rewrite F2R_bpow in C. fold (rnd64 (bpow radix2 (-52))) in C.
  rewrite (rnd64_id (bpow radix2 (-52))) in C by (apply fmt64_bpow; lia).
  rewrite Rlt_bool_true in C.
  - destruct C as (C1 & C2 & _). split; assumption.
  - rewrite Rabs_pos_eq by apply bpow_ge_0. apply bpow_lt. lia.
Qed.

Lemma f32_of_f64_eps : ffinite (f32_of_f64 DBL_EPSILON) = true /\
  rf (f32_of_f64 DBL_EPSILON) = bpow radix2 (-52).
Proof.
  assert (V : dval DBL_EPSILON (bpow radix2 (-52))).
  { destruct DBL_EPSILON_fin as (F & E). repeat split; assumption. }
  destruct (f32_of_f64_val _ _ V) as (F & S & E).
  - apply bpow_le. lia.
  - split; [exact F|]. rewrite E. apply rnd32_id. apply fmt32_bpow. lia.
Qed.

Lemma frexp_exp_spec special x : dfin x = true -> (frexp_exp special x <=? 0)%Z = true <->
  Rabs (rd x) < 1.
Proof.
  intros F. destruct x as [s|s|s pl H|s m e H]; try discriminate.
  - simpl. rewrite Rabs_R0. split; intros; [lra|reflexivity].
  - pose proof (Bfrexp_correct 53 1024 eq_refl eq_refl (B754_finite 53 1024 s m e H) eq_refl) as C.
    cbv zeta in C. destruct C as (_ & _ & C). unfold frexp_exp. rewrite C.
    set (x := rd (B754_finite 53 1024 s m e H)) in *.
    assert (N : x <> 0).
    { unfold x; simpl. intros Z. apply eq_0_F2R in Z. destruct s; discriminate. }
    rewrite Z.leb_le. split; intros G.
    + eapply Rlt_le_trans; [apply (bpow_mag_gt radix2)|]. change 1 with (bpow radix2 0).
      apply bpow_le. exact G.
    + apply mag_le_bpow; assumption.
Qed.
