(** The compression filter. *)
From Coq Require Import ZArith Reals Lra Lia Psatz Bool.
From Flocq Require Import Core Relative IEEE754.BinarySingleNaN IEEE754.Binary IEEE754.Bits.
From Verif Require Import Base Flt Util Methods Analysis Spec SpecAnalysis BaseProofs FltProofs AnalysisProofs.
Open Scope R_scope.

Lemma fdiv_val x y a b : fval x a -> fval y b -> 0 < b -> a / b <= bpow radix2 127 ->
  fval (fdiv x y) (rnd32 (a / b)).
Proof.
  intros Hx Hy Hb0 Hb. assert (0 <= a). { destruct Hx as (? & ? & <-). apply sign_nonneg_f; assumption. }
  destruct Hx as (Fx & Sx & Ex). destruct Hy as (Fy & Sy & Ey).
  unfold fdiv, b32_div.
  match goal with |- fval (Bdiv _ _ ?p1 ?p2 ?n _ _ _) _ =>
    pose proof (Bdiv_correct 24 128 p1 p2 n mode_NE x y) as C end.
  change (round_mode mode_NE) with ZnearestE in C. rewrite Ex, Ey in C.
  specialize (C ltac:(lra)).
  fold (rnd32 (a / b)) in C. rewrite small_lt_emax32 in C.
  - destruct C as (C1 & C2 & C3).
    assert (F : ffinite (Bdiv 24 128 eq_refl eq_refl binop_nan_pl32 mode_NE x y) = true) by (unfold ffinite; etransitivity; [exact C2|exact Fx]).
    repeat split; try assumption.
    etransitivity; [apply C3|].
    + unfold ffinite in F. match goal with |- is_nan _ _ ?t = false => destruct t; try reflexivity; discriminate end.
    + rewrite Sx, Sy. reflexivity.
  - rewrite Rabs_pos_eq; [exact Hb|]. apply Rmult_le_pos; [lra|]. left. apply Rinv_0_lt_compat. exact Hb0.
Qed.

Lemma fmul_val x y a b : fval x a -> fval y b -> a * b <= bpow radix2 127 ->
  fval (fmul x y) (rnd32 (a * b)).
Proof.
  intros Hx Hy Hb. assert (0 <= a). { destruct Hx as (? & ? & <-). apply sign_nonneg_f; assumption. }
  assert (0 <= b). { destruct Hy as (? & ? & <-). apply sign_nonneg_f; assumption. }
  destruct Hx as (Fx & Sx & Ex). destruct Hy as (Fy & Sy & Ey).
  unfold fmul, b32_mult.
  match goal with |- fval (Bmult _ _ ?p1 ?p2 ?n _ _ _) _ =>
    pose proof (Bmult_correct 24 128 p1 p2 n mode_NE x y) as C end.
  change (round_mode mode_NE) with ZnearestE in C. rewrite Ex, Ey in C.
  fold (rnd32 (a * b)) in C. rewrite small_lt_emax32 in C.
  - destruct C as (C1 & C2 & C3).
    assert (F : ffinite (Bmult 24 128 eq_refl eq_refl binop_nan_pl32 mode_NE x y) = true) by (unfold ffinite in *; etransitivity; [exact C2|rewrite Fx, Fy; reflexivity]).
    repeat split; try assumption.
    etransitivity; [apply C3|].
    + unfold ffinite in F. match goal with |- is_nan _ _ ?t = false => destruct t; try reflexivity; discriminate end.
    + rewrite Sx, Sy. reflexivity.
  - rewrite Rabs_pos_eq; [exact Hb|]. apply Rmult_le_pos; lra.
Qed.

Lemma dround_val x r : dval x r -> r <= 4503599627370496 -> dval (dround x) (IZR (ZnearestA r)).
Proof.
  intros V Hr. assert (H0 := dval_nonneg _ _ V). destruct V as (F & S & E).
  unfold dround.
  match goal with |- dval (Bnearbyint _ _ ?p1 ?n _ _) _ => pose proof (Bnearbyint_correct 53 1024 p1 n mode_NA x) as C end.
  destruct C as (C1 & C2 & C3).
  assert (Fr : dfin (Bnearbyint 53 1024 eq_refl unop_nan_pl64 mode_NA x) = true) by (unfold dfin; etransitivity; [exact C2|exact F]).
  repeat split.
  - exact Fr.
  - etransitivity; [apply C3|exact S].
    unfold dfin in Fr. match goal with |- is_nan _ _ ?t = false => destruct t; try reflexivity; discriminate Fr end.
  - etransitivity; [exact C1|]. rewrite E. unfold round, scaled_mantissa, cexp, F2R, FIX_exp. cbn [Z.opp bpow Fnum Fexp]. rewrite !Rmult_1_r. reflexivity.
Qed.

Lemma rnd32_err x : 0 <= x -> Rabs (rnd32 x - x) <= bpow radix2 (-24) * x + bpow radix2 (-150).
Proof.
  intros Hx. destruct (error_N_FLT radix2 (-149) 24 ltac:(lia) (fun x => negb (Z.even x)) x) as (e & t & He & Ht & _ & EQ).
  unfold rnd32. change fexp32 with (FLT_exp (-149) 24). rewrite EQ.
  assert (half : forall e, / 2 * bpow radix2 e = bpow radix2 (e - 1)).
  { intros k. unfold Z.sub. rewrite bpow_plus. change (bpow radix2 (-(1))) with (/2). lra. }
  rewrite half in He, Ht. change (-24 + 1 - 1)%Z with (-24)%Z in He. change (-149 - 1)%Z with (-150)%Z in Ht.
  replace (x * (1 + e) + t - x) with (x * e + t) by ring.
  eapply Rle_trans; [apply Rabs_triang|]. rewrite Rabs_mult, (Rabs_pos_eq x) by exact Hx.
  apply Rplus_le_compat; [|exact Ht]. rewrite Rmult_comm. apply Rmult_le_compat_r; assumption.
Qed.

Lemma ZnearestA_int r k : IZR k - / 2 < r < IZR k + / 2 -> ZnearestA r = k.
Proof. intros H. apply Znearest_imp. apply Rabs_lt. lra. Qed.

Lemma ZnearestA_bounds r B : 0 <= r <= IZR B -> (0 <= ZnearestA r <= B)%Z.
Proof.
  intros (H1 & H2). split.
  - apply le_IZR. destruct (Z_lt_le_dec (ZnearestA r) 0) as [L|L]; [|apply IZR_le; exact L].
    exfalso. assert (M : (ZnearestA 0 <= ZnearestA r)%Z) by (apply Znearest_monotone || (apply (@Zrnd_le _ (valid_rnd_NA)); exact H1)).
    assert (Z0 : ZnearestA 0 = 0%Z) by (apply ZnearestA_int; lra). lia.
  - assert (M : (ZnearestA r <= ZnearestA (IZR B))%Z) by (apply (@Zrnd_le _ (valid_rnd_NA)); exact H2).
    rewrite (ZnearestA_int (IZR B) B) in M by lra. exact M.
Qed.

Lemma pow_IZR v : (0 <= v)%Z -> IZR (2 ^ v) = bpow radix2 v.
Proof. intros H. symmetry. apply bpow_IZR. exact H. Qed.

Lemma keeps_multiple len v i : (1 <= len <= 2^22)%Z -> (1 <= v <= 31)%Z -> (0 <= i < len)%Z ->
  filter_keeps (interval len v) len i = (i mod 2 ^ v =? 0)%Z.
Proof.
  intros Hlen Hv Hi. unfold filter_keeps, interval.
  destruct (Z.eqb_spec v 0) as [?|_]; [lia|].
  set (P := bpow radix2 v). assert (P0 : 0 < P) by apply bpow_gt_0.
  assert (P2 : 2 <= P <= 2147483648).
  { unfold P. split; [change 2 with (bpow radix2 1); apply bpow_le; lia|].
    change 2147483648 with (IZR (2^31)). rewrite pow_IZR by lia. apply bpow_le; lia. }
  set (L := IZR len). assert (HL : 1 <= L <= 4194304) by (unfold L; split; apply IZR_le; lia).
  assert (HI : 0 <= IZR i <= 4194304) by (split; apply IZR_le; lia).
  assert (big : forall x, x <= 9007199254740992 -> x <= bpow radix2 127).
  { intros x Hx. eapply Rle_trans; [exact Hx|]. change 9007199254740992 with (IZR (2^53)). rewrite pow_IZR by lia. apply bpow_le; lia. }
  assert (bigd : forall x, x <= 9007199254740992 * 4194304 -> x <= bpow radix2 1023).
  { intros x Hx. eapply Rle_trans; [exact Hx|]. change 9007199254740992 with (IZR (2^53)). change 4194304 with (IZR (2^22)).
    rewrite !pow_IZR, <- bpow_plus by lia. apply bpow_le; lia. }
  assert (VL : fval (f32_of_Z len) L) by (apply f32_of_Z_exact; lia).
  assert (VI : fval (f32_of_Z i) (IZR i)) by (apply f32_of_Z_exact; lia).
  assert (VP : fval (f32_of_Z (2 ^ v)) P).
  { pose proof (f32_of_Z_val (2 ^ v)) as V. rewrite pow_IZR in V by lia.
    rewrite rnd32_id in V by (apply fmt32_bpow; lia). apply V.
    split; [apply Z.pow_nonneg; lia|apply Z.pow_le_mono_r; lia]. }
  set (F := L / P).
  assert (HF : 0 < F <= 4194304).
  { unfold F. split; [apply Rdiv_lt_0_compat; lra|]. apply Rmult_le_reg_r with P; [lra|]. unfold Rdiv. rewrite Rmult_assoc, Rinv_l by lra. nra. }
  assert (VF : fval (fdiv (f32_of_Z len) (f32_of_Z (2 ^ v))) F).
  { pose proof (fdiv_val _ _ _ _ VL VP P0) as V. fold F in V. rewrite rnd32_id in V.
    - apply V. apply big. lra.
    - unfold F, L, P, Rdiv. rewrite <- bpow_opp. change fexp32 with (FLT_exp (-149) 24).
      apply generic_format_FLT. exists (Float radix2 len (- v)); simpl; [reflexivity|lia|lia]. }
  set (fi := fdiv (f32_of_Z len) (f32_of_Z (2 ^ v))) in *.
  destruct (f32_of_Z_exact 0 ltac:(lia)) as (Z1 & Z2 & Z3).
  destruct VF as (F1 & F2 & F3).
  assert (NZ : feq fi (f32_of_Z 0) = false).
  { destruct (feq fi (f32_of_Z 0)) eqn:X; [|reflexivity]. apply feq_spec in X; [|exact F1|exact Z1]. rewrite F3, Z3 in X. lra. }
  rewrite NZ. cbn [negb andb]. rewrite negb_involutive.
  assert (VF : fval fi F) by (split; [exact F1|split; [exact F2|exact F3]]).
  (* the float quotient *)
  assert (IF : 0 <= IZR i * F <= 8796093022208). { assert (IZR i * F <= 4194304 * 2097152); [|nra].
    assert (F <= 2097152); [|apply Rmult_le_compat; lra].
    unfold F. apply Rmult_le_reg_r with P; [lra|]. unfold Rdiv. rewrite Rmult_assoc, Rinv_l by lra. nra. }
  assert (V1 : fval (fmul (f32_of_Z i) fi) (rnd32 (IZR i * F))) by (apply fmul_val; [exact VI|exact VF|apply big; lra]).
  set (p := rnd32 (IZR i * F)) in *.
  assert (Hp := rnd32_err (IZR i * F) (proj1 IF)). fold p in Hp.
  assert (u24 : bpow radix2 (-24) = / 16777216) by (simpl; lra).
  assert (u150 : 0 < bpow radix2 (-150) <= / 1000000000).
  { split; [apply bpow_gt_0|]. apply Rle_trans with (bpow radix2 (-30)); [apply bpow_le; lia|]. simpl. lra. }
  set (ee := bpow radix2 (-150)) in *. rewrite u24 in Hp.
  assert (p0 : 0 <= p) by (apply rnd32_nonneg; lra).
  apply Rabs_le_inv in Hp.
  set (T := IZR i / P).
  assert (HT : 0 <= T <= 2097152).
  { unfold T. split; [apply Rmult_le_pos; [lra|left; apply Rinv_0_lt_compat; lra]|].
    apply Rmult_le_reg_r with P; [lra|]. unfold Rdiv. rewrite Rmult_assoc, Rinv_l by lra. nra. }
  assert (IFT : IZR i * F / L = T) by (unfold F, T; field; split; lra).
  assert (iL : 0 < / L <= 1). { split; [apply Rinv_0_lt_compat; lra|]. rewrite <- Rinv_1. apply Rinv_le; lra. }
  assert (Hq : Rabs (p / L - T) <= T * / 16777216 + ee).
  { rewrite <- IFT. replace (p / L - IZR i * F / L) with ((p - IZR i * F) * / L) by (field; lra).
    assert (X : Rabs (p - IZR i * F) <= / 16777216 * (IZR i * F) + ee) by (apply Rabs_le; lra).
    rewrite Rabs_mult, (Rabs_pos_eq (/ L)) by lra.
    apply Rle_trans with ((/ 16777216 * (IZR i * F) + ee) * / L); [apply Rmult_le_compat_r; lra|].
    unfold Rdiv. nra. }
  apply Rabs_le_inv in Hq.
  assert (pL : 0 <= p / L) by (apply Rmult_le_pos; lra).
  assert (V2 : fval (fdiv (fmul (f32_of_Z i) fi) (f32_of_Z len)) (rnd32 (p / L))).
  { apply fdiv_val; [exact V1|exact VL|lra|]. apply big. lra. }
  set (q := rnd32 (p / L)) in *.
  pose proof (rnd32_err (p / L) pL) as E2. fold q in E2. rewrite u24 in E2. fold ee in E2. apply Rabs_le_inv in E2.
  assert (Hqq : Rabs (q - T) < / 2 ) by (apply Rabs_lt; split; nra).
  apply Rabs_lt_inv in Hqq.
  assert (q0 : 0 <= q) by (apply rnd32_nonneg; lra).
  pose proof (f64_of_f32_val _ _ V2) as V3.
  pose proof (dround_val _ _ V3 ltac:(lra)) as V4.
  set (k := ZnearestA q) in *.
  assert (Hk : (0 <= k <= 2097153)%Z) by (apply ZnearestA_bounds; lra).
  assert (HkR : 0 <= IZR k <= 2097153) by (split; apply IZR_le; lia).
  assert (VD : dval (f64_of_Z len) L) by (apply f64_of_Z_exact; lia).
  assert (V5 : dval (dmul (dround (f64_of_f32 (fdiv (fmul (f32_of_Z i) fi) (f32_of_Z len)))) (f64_of_Z len)) (IZR (k * len))).
  { pose proof (dmul_val _ _ _ _ V4 VD) as V. unfold L in V. rewrite <- mult_IZR in V. rewrite rnd64_Z in V by nia.
    apply V. apply bigd. rewrite mult_IZR. fold L. nra. }
  pose proof (f64_of_f32_val _ _ VF) as V6.
  assert (Q : IZR (k * len) / F = IZR (k * 2 ^ v)).
  { rewrite !mult_IZR, pow_IZR by lia. fold P L. unfold F. field. split; lra. }
  assert (KP : (0 <= k * 2 ^ v <= 2097153 * 2^31)%Z).
  { assert (0 < 2 ^ v <= 2 ^ 31)%Z by (split; [apply Z.pow_pos_nonneg; lia|apply Z.pow_le_mono_r; lia]). nia. }
  assert (KPR : 0 <= IZR (k * 2 ^ v) <= 4503601774854144) by (split; apply IZR_le; lia).
  assert (V7 : dval (ddiv (dmul (dround (f64_of_f32 (fdiv (fmul (f32_of_Z i) fi) (f32_of_Z len)))) (f64_of_Z len)) (f64_of_f32 fi)) (IZR (k * 2 ^ v))).
  { pose proof (ddiv_val _ _ _ _ V5 V6 (proj1 HF)) as V. rewrite Q in V. rewrite rnd64_Z in V by lia.
    apply V. apply bigd. lra. }
  (* k * 2^v = round of itself; k <= i / 2^v + 1/2 so the product stays small *)
  assert (KS : (k * 2 ^ v <= 4503599627370496)%Z).
  { assert (KT : IZR k <= T + 2). { unfold k. pose proof (Znearest_half (Zle_bool 0) q) as HH. apply Rabs_le_inv in HH. lra. }
    apply le_IZR. rewrite mult_IZR, pow_IZR by lia. fold P.
    assert (T * P = IZR i) by (unfold T; field; lra). nra. }
  pose proof (dround_val _ _ V7 ltac:(apply IZR_le; exact KS)) as V8.
  rewrite (ZnearestA_int (IZR (k * 2 ^ v)) (k * 2 ^ v)) in V8 by lra.
  assert (V9 : dval (f64_of_Z i) (IZR i)) by (apply f64_of_Z_exact; lia).
  match goal with |- deq ?a ?b = _ => set (A := a) in *; set (B := b) in * end.
  assert (DE : deq A B = true <-> (k * 2 ^ v = i)%Z).
  { destruct V8 as (X1 & _ & X3). destruct V9 as (Y1 & _ & Y3). rewrite (deq_spec A B X1 Y1), X3, Y3.
    split; [apply eq_IZR|intros ->; reflexivity]. }
  assert (PZ : (0 < 2 ^ v)%Z) by (apply Z.pow_pos_nonneg; lia).
  destruct (Z.eqb_spec (i mod 2 ^ v) 0) as [M|M].
  - apply DE. pose proof (Z.div_mod i (2 ^ v) ltac:(lia)) as DM. set (j := (i / 2 ^ v)%Z) in *.
    assert (TJ : T = IZR j). { unfold T. rewrite DM, M, Z.add_0_r, mult_IZR, pow_IZR by lia. fold P. field. lra. }
    assert (kj : k = j) by (apply ZnearestA_int; lra). rewrite kj. lia.
  - destruct (deq A B) eqn:X; [|reflexivity]. exfalso. apply M. rewrite <- (proj1 DE eq_refl). apply Z.mod_mul. lia.
Qed.
