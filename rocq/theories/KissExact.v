(** The KISS transform in exact arithmetic. *)
From Coq Require Import Reals Lra Lia Psatz.
From Verif Require Import Base Spec SpecTransform BaseProofs Kiss KissProofs KissFactor KissTransform.
Open Scope R_scope.

(** ** The ring of complex numbers *)
Definition csub (a b : cx) : cx := (fst a - fst b, snd a - snd b).
Definition copp (a : cx) : cx := (- fst a, - snd a).
Definition conj (a : cx) : cx := (fst a, - snd a).
Definition c_0 : cx := (0, 0).
Definition c_1 : cx := (1, 0).
Definition re (a : R) : cx := (a, 0).

Ltac cring := intros; unfold csub, copp, conj, c_0, c_1, re, cadd, cmul in *; cbn [fst snd];
  try (apply injective_projections; cbn [fst snd]; ring).

Lemma cx_ring : ring_theory c_0 c_1 cadd cmul csub copp eq.
Proof. constructor; cring. Qed.
Add Ring cx_ring : cx_ring.
Ltac cxring := match goal with |- @eq _ ?a ?b => change (@eq cx a b) end; ring.

(** ** Roots of unity *)
Definition W (n k : Z) : cx := cis (- (2 * PI * IZR k / IZR n)).

Lemma cis_add a b : cis (a + b) = cmul (cis a) (cis b).
Proof. unfold cis, cmul. cbn. rewrite cos_plus, sin_plus. f_equal; ring. Qed.
Lemma cis_opp a : cis (- a) = conj (cis a).
Proof. unfold cis, conj. cbn. rewrite cos_neg, sin_neg. reflexivity. Qed.
Lemma cis_period a (k : Z) : cis (a + 2 * PI * IZR k) = cis a.
Proof.
  assert (N : forall a n, cis (a + 2 * INR n * PI) = cis a) by (intros; unfold cis; rewrite cos_period, sin_period; reflexivity).
  destruct (Z.le_ge_cases 0 k) as [H|H].
  - rewrite <- (N a (Z.to_nat k)). rewrite INR_IZR_INZ, Z2Nat.id by exact H. f_equal. ring.
  - rewrite <- (N (a + 2 * PI * IZR k) (Z.to_nat (- k))). rewrite INR_IZR_INZ, Z2Nat.id by lia. rewrite opp_IZR. f_equal. ring.
Qed.

Lemma W_add n a b : W n (a + b) = cmul (W n a) (W n b).
Proof. unfold W. rewrite <- cis_add. f_equal. rewrite plus_IZR. unfold Rdiv. ring. Qed.
Lemma W_0 n : W n 0 = c_1.
Proof. unfold W, cis, c_1. replace (- (2 * PI * 0 / IZR n)) with 0 by (unfold Rdiv; ring). rewrite cos_0, sin_0. reflexivity. Qed.
Lemma IZR_nz n : (n <> 0)%Z -> IZR n <> 0.
Proof. intros H E. apply H. apply eq_IZR. exact E. Qed.
Lemma W_period n a k : (n <> 0)%Z -> W n (a + n * k) = W n a.
Proof.
  intros Hn. unfold W. rewrite <- (cis_period (- (2 * PI * IZR a / IZR n)) (- k)). f_equal.
  rewrite plus_IZR, mult_IZR, opp_IZR. field. apply IZR_nz. exact Hn.
Qed.
Lemma W_scale n k c : (n <> 0)%Z -> (c <> 0)%Z -> W (c * n) (c * k) = W n k.
Proof. intros Hn Hc. unfold W. f_equal. rewrite !mult_IZR. field. split; apply IZR_nz; assumption. Qed.
Lemma W_conj n k : conj (W n k) = W n (- k).
Proof. unfold W. rewrite <- cis_opp. f_equal. rewrite opp_IZR. unfold Rdiv. ring. Qed.
Lemma W_mod n k : (0 < n)%Z -> W n (k mod n) = W n k.
Proof. intros H. rewrite <- (W_period n (k mod n) (k / n)) by lia. f_equal. pose proof (Z.div_mod k n). lia. Qed.
Lemma W_half n : (0 < n)%Z -> W (2 * n) n = copp c_1.
Proof.
  intros H. unfold W, cis. rewrite mult_IZR.
  replace (2 * PI * IZR n / (2 * IZR n)) with PI by (field; apply IZR_nz; lia).
  rewrite cos_neg, sin_neg, cos_PI, sin_PI. unfold copp, c_1. cbn. f_equal; ring.
Qed.
Lemma W_quarter n : (0 < n)%Z -> W (4 * n) n = (0, -1).
Proof.
  intros H. unfold W, cis. rewrite mult_IZR.
  replace (2 * PI * IZR n / (4 * IZR n)) with (PI / 2) by (field; apply IZR_nz; lia).
  rewrite cos_neg, sin_neg, cos_PI2, sin_PI2. reflexivity.
Qed.
Lemma W_third n : (0 < n)%Z -> fst (W (3 * n) n) = - (1/2).
Proof.
  intros H. unfold W, cis. cbn [fst]. rewrite mult_IZR.
  replace (2 * PI * IZR n / (3 * IZR n)) with (2 * (PI / 3)) by (field; apply IZR_nz; lia).
  rewrite cos_neg, cos_2PI3. lra.
Qed.

(** ** Sums *)
Lemma csum_ext f g lo hi : (forall j, (lo <= j < hi)%Z -> f j = g j) -> csum f lo hi = csum g lo hi.
Proof.
  intros H. unfold csum. assert (G : forall l, (forall j, In j l -> f j = g j) ->
    fold_right (fun j s => cadd (f j) s) (0, 0) l = fold_right (fun j s => cadd (g j) s) (0, 0) l).
  { induction l as [|a l IH]; intros Hl; cbn; [reflexivity|]. rewrite IH by (intros; apply Hl; right; assumption).
    rewrite Hl by (left; reflexivity). reflexivity. }
  apply G. intros j Hj. apply in_zrange in Hj. apply H. exact Hj.
Qed.
Lemma csum_empty f lo hi : (hi <= lo)%Z -> csum f lo hi = c_0.
Proof. intros. unfold csum. rewrite zrange_empty by assumption. reflexivity. Qed.
Lemma csum_first f lo hi : (lo < hi)%Z -> csum f lo hi = cadd (f lo) (csum f (lo + 1) hi).
Proof. intros. unfold csum. rewrite zrange_cons by assumption. reflexivity. Qed.
Lemma csum_split f lo mid hi : (lo <= mid <= hi)%Z -> csum f lo hi = cadd (csum f lo mid) (csum f mid hi).
Proof.
  intros H. unfold csum. rewrite (zrange_app lo mid hi) by exact H. rewrite fold_right_app.
  generalize (fold_right (fun j s => cadd (f j) s) (0, 0) (zrange mid hi)) as t. intros t.
  induction (zrange lo mid) as [|a l IH]; cbn [fold_right].
  - fold c_0. ring.
  - rewrite IH. ring.
Qed.
Lemma csum_last f lo hi : (lo <= hi)%Z -> csum f lo (hi + 1) = cadd (csum f lo hi) (f hi).
Proof. intros. rewrite (csum_split f lo hi) by lia. rewrite (csum_first f hi), (csum_empty f (hi + 1)) by lia. ring. Qed.

Lemma csum_ind (P : Z -> Prop) lo : P lo -> (forall hi, (lo <= hi)%Z -> P hi -> P (hi + 1)%Z) -> forall hi, (lo <= hi)%Z -> P hi.
Proof. intros H0 HS hi Hhi. apply (Zlt_lower_bound_ind P lo); [|exact Hhi]. intros x IH Hx.
  destruct (Z.eq_dec x lo) as [->|]; [exact H0|]. replace x with (x - 1 + 1)%Z by lia. apply HS; [lia|apply IH; lia]. Qed.

Lemma csum_add f g lo hi : (lo <= hi)%Z -> csum (fun j => cadd (f j) (g j)) lo hi = cadd (csum f lo hi) (csum g lo hi).
Proof.
  revert hi. apply csum_ind; [rewrite !csum_empty by lia; ring|]. intros hi H IH. rewrite !csum_last, IH by exact H. ring.
Qed.
Lemma csum_mul c f lo hi : (lo <= hi)%Z -> csum (fun j => cmul (f j) c) lo hi = cmul (csum f lo hi) c.
Proof.
  revert hi. apply csum_ind; [rewrite !csum_empty by lia; ring|]. intros hi H IH. rewrite !csum_last, IH by exact H. ring.
Qed.
Lemma csum_conj f lo hi : (lo <= hi)%Z -> csum (fun j => conj (f j)) lo hi = conj (csum f lo hi).
Proof.
  revert hi. apply csum_ind; [rewrite !csum_empty by lia; cring|]. intros hi H IH. rewrite !csum_last, IH by exact H. cring.
Qed.
Lemma csum_shift f lo hi d : (lo <= hi)%Z -> csum f (lo + d) (hi + d) = csum (fun j => f (j + d)%Z) lo hi.
Proof.
  revert hi. apply csum_ind; [rewrite !csum_empty by lia; reflexivity|]. intros hi H IH.
  replace (hi + 1 + d)%Z with (hi + d + 1)%Z by lia. rewrite !csum_last, IH by lia. reflexivity.
Qed.
Lemma csum_swap f p m : (0 <= p)%Z -> (0 <= m)%Z ->
  csum (fun q => csum (fun r => f q r) 0 m) 0 p = csum (fun r => csum (fun q => f q r) 0 p) 0 m.
Proof.
  intros Hp Hm. revert p Hp. apply csum_ind.
  - rewrite csum_empty by lia. revert m Hm. apply csum_ind; [rewrite csum_empty by lia; reflexivity|].
    intros m Hm IH. rewrite csum_last by lia. rewrite <- IH, csum_empty by lia. ring.
  - intros p Hp IH. rewrite csum_last, IH by lia. rewrite <- csum_add by lia.
    apply csum_ext. intros r Hr. rewrite csum_last by lia. reflexivity.
Qed.
(** j = q + p r *)
Lemma csum_interleave f p m : (0 <= p)%Z -> (0 <= m)%Z ->
  csum f 0 (p * m) = csum (fun q => csum (fun r => f (q + p * r)%Z) 0 m) 0 p.
Proof.
  intros Hp Hm. rewrite csum_swap by assumption. revert m Hm. apply csum_ind.
  - rewrite !csum_empty by lia. reflexivity.
  - intros m Hm IH. rewrite (csum_split f 0 (p * m)) by nia. rewrite IH, csum_last by lia. f_equal.
    replace (p * (m + 1))%Z with (p + p * m)%Z by lia. replace (csum f (p * m) (p + p * m)) with (csum f (0 + p * m) (p + p * m)) by reflexivity.
    rewrite csum_shift by lia. reflexivity.
Qed.

(** ** Scalars *)
Lemma E_add a b : C_ADD exact_ops a b = cadd a b. Proof. reflexivity. Qed.
Lemma E_sub a b : C_SUB exact_ops a b = csub a b. Proof. reflexivity. Qed.
Lemma E_mul a b : C_MUL exact_ops a b = cmul a b. Proof. reflexivity. Qed.

Ltac eops := cbv zeta; change (C_ADD exact_ops) with cadd; change (C_SUB exact_ops) with csub; change (C_MUL exact_ops) with cmul.

(** ** The butterflies *)
Section Butterflies.
Variables (n s m : Z) (tw : Z -> cx).
Hypothesis Hs : (1 <= s)%Z.
Hypothesis Hm : (1 <= m)%Z.

Definition bfly (p u : Z) (x : Z -> cx) (q1 : Z) : cx :=
  csum (fun q => cmul (x q) (W n (s * q * (u + q1 * m)))) 0 p.

Hypothesis Htw : forall i, (0 <= i < n)%Z -> tw i = W n i.

Lemma bfly_term p u q q1 : (s * (p * m) = n)%Z -> (1 <= p)%Z ->
  W n (s * q * (u + q1 * m)) = cmul (W n (s * q * u)) (W p (q * q1)).
Proof.
  intros HN Hp. replace (s * q * (u + q1 * m))%Z with (s * q * u + s * m * (q * q1))%Z by ring.
  rewrite W_add. f_equal. replace n with (s * m * p)%Z by (rewrite <- HN; ring).
  apply W_scale; nia.
Qed.

Lemma bval2_exact u x q1 : (s * (2 * m) = n)%Z -> (0 <= u < m)%Z -> (0 <= q1 < 2)%Z ->
  bval2 exact_ops tw s u x q1 = bfly 2 u x q1.
Proof.
  intros HN Hu Hq. unfold bfly. rewrite csum_first, csum_first, csum_empty by lia. cbn [Z.add].
  rewrite !(bfly_term 2) by lia. unfold bval2. eops. rewrite Htw by nia.
  replace (s * 0 * u)%Z with 0%Z by ring. replace (s * 1 * u)%Z with (u * s)%Z by ring. rewrite W_0.
  assert (C : (q1 = 0 \/ q1 = 1)%Z) by lia. destruct C as [-> | ->]; cbn [Z.eqb Z.mul]; rewrite ?W_0.
  - cxring.
  - change 2%Z with (2 * 1)%Z. rewrite W_half by lia. cxring.
Qed.

Lemma bval4_exact u x q1 : (s * (4 * m) = n)%Z -> (0 <= u < m)%Z -> (0 <= q1 < 4)%Z ->
  bval4 exact_ops tw s u x q1 = bfly 4 u x q1.
Proof.
  intros HN Hu Hq. unfold bfly. rewrite !csum_first, csum_empty by lia. cbn [Z.add Pos.add Pos.succ].
  rewrite !(bfly_term 4) by lia. unfold bval4. eops. rewrite !Htw by nia.
  replace (s * 0 * u)%Z with 0%Z by ring. replace (s * 1 * u)%Z with (u * s)%Z by ring.
  replace (s * 2 * u)%Z with (u * (s * 2))%Z by ring. replace (s * 3 * u)%Z with (u * (s * 3))%Z by ring. rewrite W_0.
  set (a := W n (u * s)). set (b := W n (u * (s * 2))). set (c := W n (u * (s * 3))).
  assert (W1 : W 4 1 = (0, -1)) by (apply (W_quarter 1); lia).
  assert (W2 : W 4 2 = copp c_1) by (apply (W_half 2); lia).
  assert (W3 : W 4 3 = (0, 1)).
  { change 3%Z with (1 + 2)%Z. rewrite W_add, W1, W2. cring. }
  assert (W4 : W 4 4 = c_1) by (change 4%Z with (0 + 4 * 1)%Z at 2; rewrite W_period, W_0 by lia; reflexivity).
  assert (W6 : W 4 6 = copp c_1) by (change 6%Z with (2 + 4 * 1)%Z; rewrite W_period by lia; exact W2).
  assert (W9 : W 4 9 = (0, -1)) by (change 9%Z with (1 + 4 * 2)%Z; rewrite W_period by lia; exact W1).
  assert (C : (q1 = 0 \/ q1 = 1 \/ q1 = 2 \/ q1 = 3)%Z) by lia.
  destruct C as [-> | [-> | [-> | ->]]]; cbn [Z.eqb Z.mul Pos.mul Pos.add Pos.succ Pos.eqb]; rewrite ?W_0, ?W1, ?W2, ?W3, ?W4, ?W6, ?W9.
  - cxring.
  - clearbody a b c. unfold exact_ops; cbn [o_sub o_add o_mul o_neg]. cring.
  - cxring.
  - clearbody a b c. unfold exact_ops; cbn [o_sub o_add o_mul o_neg]. cring.
Qed.

Lemma bval3_exact u x q1 : (s * (3 * m) = n)%Z -> (0 <= u < m)%Z -> (0 <= q1 < 3)%Z ->
  bval3 exact_ops tw m s u x q1 = bfly 3 u x q1.
Proof.
  intros HN Hu Hq. unfold bfly. rewrite !csum_first, csum_empty by lia. cbn [Z.add Pos.add Pos.succ].
  rewrite !(bfly_term 3) by lia. unfold bval3. eops. rewrite !Htw by nia.
  replace (s * 0 * u)%Z with 0%Z by ring. replace (s * 1 * u)%Z with (u * s)%Z by ring.
  replace (s * 2 * u)%Z with (u * (s * 2))%Z by ring. rewrite W_0.
  set (a := W n (u * s)). set (b := W n (u * (s * 2))).
  assert (EW : W n (s * m) = W 3 1).
  { rewrite <- (W_scale 3 1 (s * m)) by nia. f_equal; lia. }
  rewrite EW. assert (H1 : fst (W 3 1) = - (1/2)) by (apply (W_third 1); lia).
  assert (W2 : W 3 2 = conj (W 3 1)).
  { rewrite W_conj. change 2%Z with (-(1) + 3 * 1)%Z. rewrite W_period by lia. reflexivity. }
  assert (W4 : W 3 4 = W 3 1) by (change 4%Z with (1 + 3 * 1)%Z; apply W_period; lia).
  destruct (W 3 1) as (c & d) eqn:E1. cbn in H1. subst c.
  assert (C : (q1 = 0 \/ q1 = 1 \/ q1 = 2)%Z) by lia.
  destruct C as [-> | [-> | ->]]; cbn [Z.eqb Z.mul Pos.mul Pos.add Pos.succ Pos.eqb snd]; rewrite ?W_0, ?W2, ?W4, ?E1.
  - cxring.
  - clearbody a b. unfold C_MULBYSCALAR, exact_ops; cbn [o_sub o_add o_mul o_half]. cring; cbn; field.
  - clearbody a b. unfold C_MULBYSCALAR, exact_ops; cbn [o_sub o_add o_mul o_half]. cring; cbn; field.
Qed.

Lemma bval5_exact u x q1 : (s * (5 * m) = n)%Z -> (0 <= u < m)%Z -> (0 <= q1 < 5)%Z ->
  bval5 exact_ops tw m s u x q1 = bfly 5 u x q1.
Proof.
  intros HN Hu Hq. unfold bfly. rewrite !csum_first, csum_empty by lia. cbn [Z.add Pos.add Pos.succ].
  rewrite !(bfly_term 5) by lia. unfold bval5. eops. rewrite !Htw by nia.
  replace (s * 0 * u)%Z with 0%Z by ring. replace (s * 1 * u)%Z with (u * s)%Z by ring.
  replace (s * 2 * u)%Z with (2 * u * s)%Z by ring. replace (s * 3 * u)%Z with (3 * u * s)%Z by ring.
  replace (s * 4 * u)%Z with (4 * u * s)%Z by ring. rewrite W_0.
  assert (EW : forall k, W n (s * m * k) = W 5 k).
  { intros k. rewrite <- (W_scale 5 k (s * m)) by nia. f_equal; lia. }
  replace (W n (s * m)) with (W 5 1) by (rewrite <- EW; f_equal; ring).
  replace (W n (s * 2 * m)) with (W 5 2) by (rewrite <- EW; f_equal; ring).
  set (a := W n (u * s)). set (b := W n (2 * u * s)). set (c := W n (3 * u * s)). set (d := W n (4 * u * s)).
  assert (W4 : W 5 4 = conj (W 5 1)) by (rewrite W_conj; change 4%Z with (-(1) + 5 * 1)%Z; apply W_period; lia).
  assert (W3 : W 5 3 = conj (W 5 2)) by (rewrite W_conj; change 3%Z with (-(2) + 5 * 1)%Z; apply W_period; lia).
  assert (W6 : W 5 6 = W 5 1) by (change 6%Z with (1 + 5 * 1)%Z; apply W_period; lia).
  assert (W8 : W 5 8 = conj (W 5 2)) by (rewrite <- W3; change 8%Z with (3 + 5 * 1)%Z; apply W_period; lia).
  assert (W9 : W 5 9 = conj (W 5 1)) by (rewrite <- W4; change 9%Z with (4 + 5 * 1)%Z; apply W_period; lia).
  assert (W12 : W 5 12 = W 5 2) by (change 12%Z with (2 + 5 * 2)%Z; apply W_period; lia).
  assert (W16 : W 5 16 = W 5 1) by (change 16%Z with (1 + 5 * 3)%Z; apply W_period; lia).
  assert (C : (q1 = 0 \/ q1 = 1 \/ q1 = 2 \/ q1 = 3 \/ q1 = 4)%Z) by lia.
  destruct C as [-> | [-> | [-> | [-> | ->]]]]; cbn [Z.eqb Z.mul Pos.mul Pos.add Pos.eqb Pos.succ snd];
    rewrite ?W_0, ?W16, ?W12, ?W9, ?W8, ?W6, ?W4, ?W3; clearbody a b c d;
    generalize (W 5 1) as ya; generalize (W 5 2) as yb; intros yb ya; unfold exact_ops; cbn [o_sub o_add o_mul o_neg]; cring.
Qed.

Lemma bvalg_exact p u x q1 : (s * (p * m) = n)%Z -> (1 <= p)%Z -> (0 <= u < m)%Z -> (0 <= q1 < p)%Z ->
  bvalg exact_ops n tw p m s u x q1 = bfly p u x q1.
Proof.
  intros HN Hp Hu Hq. unfold bvalg, bfly. set (k := (u + q1 * m)%Z).
  assert (K0 : (0 <= k < p * m)%Z) by (unfold k; nia). assert (K : (0 <= s * k < n)%Z) by nia.
  assert (G : forall p', (1 <= p')%Z -> fold_left (gstep exact_ops n tw s k x) (zrange 1 p') (x 0%Z, 0%Z) =
      (csum (fun q => cmul (x q) (W n (s * q * k))) 0 p', (s * k * (p' - 1)) mod n)%Z).
  { apply csum_ind.
    - rewrite zrange_empty by lia. cbn [fold_left]. rewrite csum_first, csum_empty by lia. rewrite Z.mul_0_r, Z.mul_0_l, W_0.
      f_equal; [cring|]. rewrite Z.sub_diag, Z.mul_0_r, Z.mod_0_l by lia. reflexivity.
    - intros p' Hp' IH. rewrite zrange_snoc, fold_left_app, IH by lia. cbn [fold_left]. unfold gstep. cbn [fst snd].
      rewrite csum_last by lia. eops.
      set (i := ((s * k * (p' - 1)) mod n)%Z). assert (I : (0 <= i < n)%Z) by (apply Z.mod_pos_bound; lia).
      assert (EI : (if i + s * k >=? n then i + s * k - n else i + s * k)%Z = ((s * k * (p' + 1 - 1)) mod n)%Z).
      { replace (s * k * (p' + 1 - 1))%Z with (s * k * (p' - 1) + s * k)%Z by ring.
        rewrite <- Z.add_mod_idemp_l by lia. fold i. destruct (Z.geb_spec (i + s * k) n).
        - apply (Z.mod_unique _ _ 1); lia.
        - symmetry. apply Z.mod_small. lia. }
      rewrite EI. f_equal. f_equal. f_equal. rewrite Htw by (apply Z.mod_pos_bound; lia). rewrite W_mod by lia. f_equal. ring. }
  rewrite G by exact Hp. reflexivity.
Qed.

Lemma bval_exact p u x q1 : (s * (p * m) = n)%Z -> (1 <= p)%Z -> (0 <= u < m)%Z -> (0 <= q1 < p)%Z ->
  bval exact_ops n tw p m s u x q1 = bfly p u x q1.
Proof.
  intros HN Hp Hu Hq. unfold bval.
  destruct (Z.eqb_spec p 2) as [->|]; [apply bval2_exact; assumption|].
  destruct (Z.eqb_spec p 3) as [->|]; [apply bval3_exact; assumption|].
  destruct (Z.eqb_spec p 4) as [->|]; [apply bval4_exact; assumption|].
  destruct (Z.eqb_spec p 5) as [->|]; [apply bval5_exact; assumption|].
  apply bvalg_exact; assumption.
Qed.
End Butterflies.

(** ** The FFT is the discrete Fourier transform *)
Lemma fft_val_exact tw n : (forall i, (0 <= i < n)%Z -> at_ (czero exact_ops) tw i = W n i) ->
  forall l N, factors_ok l N -> forall s x k, (1 <= s)%Z -> (s * N = n)%Z -> (0 <= k < N)%Z ->
  fft_val exact_ops tw n l s x k = csum (fun j => cmul (x j) (W n (s * j * k))) 0 N.
Proof.
  intros Htw. induction 1 as [p rest Hp|p m rest Hp Hm H IH]; intros s x k Hs HN Hk; cbn [fft_val].
  - rewrite Z.mod_1_r, Z.div_1_r. rewrite (bval_exact n s 1) by (try lia; exact Htw). unfold bfly.
    apply csum_ext. intros j Hj. cbn. f_equal. f_equal. ring.
  - pose proof (Z.mod_pos_bound k m ltac:(lia)) as Hu. set (u := (k mod m)%Z) in *.
    assert (Hq : (0 <= k / m < p)%Z).
    { split; [apply Z.div_pos; lia|]. apply Z.div_lt_upper_bound; [lia|]. rewrite Z.mul_comm. apply Hk. }
    assert (EK : (u + k / m * m = k)%Z) by (unfold u; pose proof (Z.div_mod k m ltac:(lia)); lia).
    rewrite (bval_exact n s m) by (try lia; exact Htw). unfold bfly. rewrite EK.
    replace (m =? 1) with false by lia.
    rewrite csum_interleave by lia. apply csum_ext. intros q Hq'.
    rewrite IH by nia. rewrite <- csum_mul by lia. apply csum_ext. intros r Hr.
    replace (s * (q + p * r) * k)%Z with (s * q * k + s * p * r * k)%Z by ring. rewrite W_add.
    replace (W n (s * p * r * k)) with (W n (s * p * r * u)).
    + cxring.
    + rewrite <- (W_period n (s * p * r * u) (r * (k / m))) by nia. f_equal. rewrite <- HN. set (t := (k / m)%Z) in *. clearbody t u. rewrite <- EK. ring.
Qed.

Lemma dft_W n x k : dft n x k = csum (fun j => cmul (x j) (W n (j * k))) 0 n.
Proof. reflexivity. Qed.

Lemma fft_exact n st x k : fft_ok exact_ops n st -> (1 <= n)%Z -> (0 <= k < n)%Z ->
  fft_val exact_ops (ft_twiddles st) n (ft_factors st) 1 x k = dft n x k.
Proof.
  intros [_ F L V] Hn Hk. rewrite (fft_val_exact _ n V _ n) by (assumption || lia). rewrite dft_W.
  apply csum_ext. intros j Hj. rewrite Z.mul_1_l. reflexivity.
Qed.

(** ** The real FFT *)
Lemma conj_mul a b : conj (cmul a b) = cmul (conj a) (conj b). Proof. cring. Qed.
Lemma conj_conj a : conj (conj a) = a. Proof. cring. Qed.

Definition evens (x : Z -> R) (n k : Z) : cx := csum (fun j => cmul (re (x (2 * j)%Z)) (W n (j * k))) 0 n.
Definition odds (x : Z -> R) (n k : Z) : cx := csum (fun j => cmul (re (x (2 * j + 1)%Z)) (W n (j * k))) 0 n.
Definition packed (x : Z -> R) (j : Z) : cx := (x (2 * j)%Z, x (2 * j + 1)%Z).

Lemma dft_packed x n k : (1 <= n)%Z -> dft n (packed x) k = cadd (evens x n k) (cmul (odds x n k) (0, 1)).
Proof.
  intros Hn. rewrite dft_W. unfold evens, odds. rewrite <- csum_mul, <- csum_add by lia. apply csum_ext. intros j Hj.
  unfold packed. cring.
Qed.
Lemma dft_packed_conj x n k : (1 <= n)%Z -> conj (dft n (packed x) (n - k)) = cadd (evens x n k) (cmul (odds x n k) (0, -1)).
Proof.
  intros Hn. rewrite dft_W. unfold evens, odds. rewrite <- csum_conj, <- csum_mul, <- csum_add by lia. apply csum_ext. intros j Hj.
  rewrite conj_mul, W_conj. replace (- (j * (n - k)))%Z with (j * k + n * - j)%Z by ring. rewrite W_period by lia.
  unfold packed. cring.
Qed.
Lemma dft_evens_odds x n k : (1 <= n)%Z ->
  dft (2 * n) (fun j => re (x j)) k = cadd (evens x n k) (cmul (W (2 * n) k) (odds x n k)).
Proof.
  intros Hn. rewrite dft_W, csum_interleave by lia. rewrite (csum_first _ 0 2), (csum_first _ (0 + 1) 2), (csum_empty _ (0 + 1 + 1) 2) by lia. change (0 + 1)%Z with 1%Z.
  replace (cmul (W (2 * n) k) (odds x n k)) with (cmul (odds x n k) (W (2 * n) k)) by cxring.
  unfold evens, odds. rewrite <- csum_mul by lia.
  assert (A : csum (fun r => cmul (re (x (0 + 2 * r)%Z)) (W (2 * n) ((0 + 2 * r) * k))) 0 n =
              csum (fun j => cmul (re (x (2 * j)%Z)) (W n (j * k))) 0 n).
  { apply csum_ext. intros j Hj. rewrite Z.add_0_l, <- Z.mul_assoc, W_scale by lia. reflexivity. }
  assert (B : csum (fun r => cmul (re (x (1 + 2 * r)%Z)) (W (2 * n) ((1 + 2 * r) * k))) 0 n =
              csum (fun j => cmul (cmul (re (x (2 * j + 1)%Z)) (W n (j * k))) (W (2 * n) k)) 0 n).
  { apply csum_ext. intros j Hj. replace ((1 + 2 * j) * k)%Z with (2 * (j * k) + k)%Z by ring.
    rewrite W_add, W_scale by lia. rewrite (Z.add_comm 1). cxring. }
  rewrite A, B. cxring.
Qed.

Lemma super_W n k : (1 <= n)%Z -> cis (- (PI * (IZR (k - 1 + 1) / IZR n + 1/2))) = cmul (0, -1) (W (2 * n) k).
Proof.
  intros Hn. rewrite <- (W_quarter 1) by lia. unfold W. rewrite <- cis_add. f_equal.
  replace (k - 1 + 1)%Z with k by lia. rewrite !mult_IZR. field. apply IZR_nz. lia.
Qed.

Lemma evens_conj x n k : (1 <= n)%Z -> evens x n (n - k) = conj (evens x n k).
Proof.
  intros Hn. unfold evens. rewrite <- csum_conj by lia. apply csum_ext. intros j Hj. rewrite conj_mul, W_conj.
  replace (- (j * k))%Z with (j * (n - k) + n * - j)%Z by ring. rewrite W_period by lia. cring.
Qed.
Lemma odds_conj x n k : (1 <= n)%Z -> odds x n (n - k) = conj (odds x n k).
Proof.
  intros Hn. unfold odds. rewrite <- csum_conj by lia. apply csum_ext. intros j Hj. rewrite conj_mul, W_conj.
  replace (- (j * k))%Z with (j * (n - k) + n * - j)%Z by ring. rewrite W_period by lia. cring.
Qed.

Lemma rfft_lo_exact sup n x k : (1 <= n)%Z -> sup (k - 1)%Z = cmul (0, -1) (W (2 * n) k) ->
  rfft_lo exact_ops sup n (dft n (packed x)) k = dft (2 * n) (fun j => re (x j)) k.
Proof.
  intros Hn HS. unfold rfft_lo. eops. change (o_neg exact_ops) with Ropp.
  change (fst (dft n (packed x) (n - k)), - snd (dft n (packed x) (n - k))) with (conj (dft n (packed x) (n - k))).
  rewrite HS, dft_packed_conj, dft_packed, dft_evens_odds by exact Hn.
  generalize (evens x n k) (odds x n k) (W (2 * n) k). intros E O w. cbn [exact_ops o_half o_add]. cring.
  apply injective_projections; cbn [fst snd]; field.
Qed.

Lemma rfft_hi_exact sup n x k : (1 <= n)%Z -> sup (k - 1)%Z = cmul (0, -1) (W (2 * n) k) ->
  rfft_hi exact_ops sup n (dft n (packed x)) k = dft (2 * n) (fun j => re (x j)) (n - k).
Proof.
  intros Hn HS. unfold rfft_hi. eops. change (o_neg exact_ops) with Ropp.
  change (fst (dft n (packed x) (n - k)), - snd (dft n (packed x) (n - k))) with (conj (dft n (packed x) (n - k))).
  rewrite HS, dft_packed_conj, dft_packed, dft_evens_odds by exact Hn. rewrite evens_conj, odds_conj by exact Hn.
  assert (EW : W (2 * n) (n - k) = copp (conj (W (2 * n) k))).
  { rewrite W_conj. unfold Z.sub. rewrite W_add, W_half by lia. cring. }
  rewrite EW.
  generalize (evens x n k) (odds x n k) (W (2 * n) k). intros E O w. cbn [exact_ops o_half o_add o_sub]. cring.
  apply injective_projections; cbn [fst snd]; field.
Qed.

Lemma real_fft_exact n st x k : fftr_ok exact_ops n st -> (1 <= n)%Z -> (0 <= k <= n)%Z ->
  real_fft exact_ops st n x k = dft (2 * n) (fun j => re (x j)) k.
Proof.
  intros [S SL SV _] Hn Hk. unfold real_fft.
  rewrite (rfft_val_ext exact_ops _ n _ (dft n (packed x))) by (try lia; intros j Hj; apply fft_exact; assumption).
  assert (HS : forall j, (1 <= j)%Z -> (2 * j <= n)%Z -> at_ (czero exact_ops) (fr_super st) (j - 1) = cmul (0, -1) (W (2 * n) j)).
  { intros j Hj Hj2. rewrite SV; [apply super_W; lia|]. split; [lia|]. apply Z.lt_le_trans with j; [lia|]. apply Z.div_le_lower_bound; lia. }
  unfold rfft_val. destruct (Z.eqb_spec k 0) as [->|]; [|destruct (Z.eqb_spec k n) as [->|]].
  - rewrite dft_packed, dft_evens_odds, W_0 by exact Hn.
    assert (IE : snd (evens x n 0) = 0).
    { pose proof (evens_conj x n 0 Hn) as C. assert (D : evens x n (n - 0) = evens x n 0).
      { unfold evens. apply csum_ext. intros j Hj. replace (j * (n - 0))%Z with (j * 0 + n * j)%Z by ring. rewrite W_period by lia. reflexivity. }
      rewrite D in C. apply (f_equal snd) in C. cbn in C. lra. }
    assert (IO : snd (odds x n 0) = 0).
    { pose proof (odds_conj x n 0 Hn) as C. assert (D : odds x n (n - 0) = odds x n 0).
      { unfold odds. apply csum_ext. intros j Hj. replace (j * (n - 0))%Z with (j * 0 + n * j)%Z by ring. rewrite W_period by lia. reflexivity. }
      rewrite D in C. apply (f_equal snd) in C. cbn in C. lra. }
    destruct (evens x n 0) as (a & b), (odds x n 0) as (c & d). cbn in IE, IO. subst b d. unfold exact_ops. cbn [o_add o_zero]. cring.
  - rewrite dft_packed, dft_evens_odds, W_half by lia.
    assert (EE : evens x n n = evens x n 0).
    { unfold evens. apply csum_ext. intros j Hj. replace (j * n)%Z with (j * 0 + n * j)%Z by ring. rewrite W_period by lia. reflexivity. }
    assert (EO : odds x n n = odds x n 0).
    { unfold odds. apply csum_ext. intros j Hj. replace (j * n)%Z with (j * 0 + n * j)%Z by ring. rewrite W_period by lia. reflexivity. }
    assert (IE : snd (evens x n 0) = 0).
    { pose proof (evens_conj x n 0 Hn) as C. rewrite Z.sub_0_r, EE in C. apply (f_equal snd) in C. cbn in C. lra. }
    assert (IO : snd (odds x n 0) = 0).
    { pose proof (odds_conj x n 0 Hn) as C. rewrite Z.sub_0_r, EO in C. apply (f_equal snd) in C. cbn in C. lra. }
    rewrite EE, EO.
    destruct (evens x n 0) as (a & b), (odds x n 0) as (c & d). cbn in IE, IO. subst b d. unfold exact_ops. cbn [o_sub o_zero]. cring.
  - destruct (Z.ltb_spec k (n - k)).
    + apply rfft_lo_exact; [lia|]. apply HS; lia.
    + rewrite rfft_hi_exact; [f_equal; lia|lia|]. apply HS; lia.
Qed.

(** ** The DCT *)
Lemma rsum_ext f g lo hi : (forall j, (lo <= j < hi)%Z -> f j = g j) -> rsum f lo hi = rsum g lo hi.
Proof.
  intros H. unfold rsum. assert (G : forall l, (forall j, In j l -> f j = g j) ->
    fold_right (fun j s => f j + s) 0 l = fold_right (fun j s => g j + s) 0 l).
  { induction l as [|a l IH]; intros Hl; cbn; [reflexivity|]. rewrite IH by (intros; apply Hl; right; assumption).
    rewrite Hl by (left; reflexivity). reflexivity. }
  apply G. intros j Hj. apply in_zrange in Hj. apply H. exact Hj.
Qed.
Lemma rsum_empty f lo hi : (hi <= lo)%Z -> rsum f lo hi = 0.
Proof. intros. unfold rsum. rewrite zrange_empty by assumption. reflexivity. Qed.
Lemma rsum_first f lo hi : (lo < hi)%Z -> rsum f lo hi = f lo + rsum f (lo + 1) hi.
Proof. intros. unfold rsum. rewrite zrange_cons by assumption. reflexivity. Qed.
Lemma rsum_split f lo mid hi : (lo <= mid <= hi)%Z -> rsum f lo hi = rsum f lo mid + rsum f mid hi.
Proof.
  intros H. unfold rsum. rewrite (zrange_app lo mid hi) by exact H. rewrite fold_right_app.
  generalize (fold_right (fun j s => f j + s) 0 (zrange mid hi)) as t. intros t.
  induction (zrange lo mid) as [|a l IH]; cbn [fold_right]; [ring|]. rewrite IH. ring.
Qed.
Lemma rsum_last f lo hi : (lo <= hi)%Z -> rsum f lo (hi + 1) = rsum f lo hi + f hi.
Proof. intros. rewrite (rsum_split f lo hi) by lia. rewrite (rsum_first f hi), (rsum_empty f (hi + 1)) by lia. ring. Qed.
Lemma rsum_mul c f lo hi : (lo <= hi)%Z -> rsum (fun j => f j * c) lo hi = rsum f lo hi * c.
Proof.
  revert hi. apply csum_ind; [rewrite !rsum_empty by lia; ring|]. intros hi H IH. rewrite !rsum_last, IH by exact H. ring.
Qed.
Lemma rsum_add f g lo hi : (lo <= hi)%Z -> rsum (fun j => f j + g j) lo hi = rsum f lo hi + rsum g lo hi.
Proof.
  revert hi. apply csum_ind; [rewrite !rsum_empty by lia; ring|]. intros hi H IH. rewrite !rsum_last, IH by exact H. ring.
Qed.
Lemma csum_fst f lo hi : (lo <= hi)%Z -> fst (csum f lo hi) = rsum (fun j => fst (f j)) lo hi.
Proof.
  revert hi. apply csum_ind; [rewrite csum_empty, rsum_empty by lia; reflexivity|]. intros hi H IH.
  rewrite csum_last, rsum_last, <- IH by exact H. reflexivity.
Qed.
Lemma rsum_reverse f n : (0 <= n)%Z -> forall b, rsum (fun j => f (b - j)%Z) 0 n = rsum f (b + 1 - n) (b + 1).
Proof.
  intros Hn. revert n Hn. apply (csum_ind (fun n => forall b, rsum (fun j => f (b - j)%Z) 0 n = rsum f (b + 1 - n) (b + 1))).
  - intros b. rewrite !rsum_empty by lia. reflexivity.
  - intros n Hn IH b. rewrite rsum_last by lia. rewrite IH. rewrite (rsum_first f (b + 1 - (n + 1))) by lia.
    replace (b + 1 - (n + 1) + 1)%Z with (b + 1 - n)%Z by lia. replace (b + 1 - (n + 1))%Z with (b - n)%Z by lia. ring.
Qed.

Lemma dct_val_exact n d x i : direction_ok exact_ops n d -> (1 <= n)%Z -> (0 <= i < n)%Z ->
  dct_val exact_ops d n x i = dct n x i.
Proof.
  intros [C L V] Hn Hi. unfold dct_val. rewrite real_fft_exact by (assumption || lia). rewrite V by exact Hi.
  cbv zeta. cbn [exact_ops o_sub o_mul o_shift].
  set (s := cis (- (PI * IZR i / (2 * IZR n)))).
  transitivity (fst (cmul (dft (2 * n) (fun j => re (mirrored n x j)) i) s)); [reflexivity|].
  rewrite dft_W, <- csum_mul, csum_fst by lia.
  set (term := fun (v : R) (j : Z) => v * cos (PI * IZR i * (IZR j + 1/2) / IZR n)).
  rewrite (rsum_ext _ (fun j => term (mirrored n x j) j)).
  - rewrite (rsum_split _ 0 n) by lia. unfold dct. fold (term).
    rewrite (rsum_ext _ (fun j => term (x j) j) 0 n).
    2:{ intros j Hj. unfold mirrored. replace (j <? n) with true by lia. reflexivity. }
    replace (rsum (fun j => term (mirrored n x j) j) n (2 * n)) with (rsum (fun j => term (x j) j) 0 n).
    + unfold term. ring.
    + pose proof (rsum_reverse (fun j => term (mirrored n x j) j) n ltac:(lia) (2 * n - 1)%Z) as RV.
      replace (2 * n - 1 + 1 - n)%Z with n in RV by lia. replace (2 * n - 1 + 1)%Z with (2 * n)%Z in RV by lia. rewrite <- RV.
      apply rsum_ext. intros j Hj. unfold mirrored. replace (2 * n - 1 - j <? n) with false by lia.
      replace (2 * n - 1 - (2 * n - 1 - j))%Z with j by lia. unfold term. f_equal.
      rewrite <- (cos_neg (PI * IZR i * (IZR (2 * n - 1 - j) + 1 / 2) / IZR n)).
      pose proof (cis_period (- (PI * IZR i * (IZR (2 * n - 1 - j) + 1 / 2) / IZR n)) i) as P. apply (f_equal fst) in P. cbn [cis fst] in P.
      rewrite <- P. f_equal. rewrite !minus_IZR, mult_IZR. field. apply IZR_nz. lia.
  - intros j Hj. unfold W, s, term.
    transitivity (mirrored n x j * fst (cmul (cis (- (2 * PI * IZR (j * i) / IZR (2 * n)))) (cis (- (PI * IZR i / (2 * IZR n)))))).
    + unfold re, cmul. cbn [fst snd]. ring.
    + rewrite <- cis_add. cbn [cis fst]. f_equal. rewrite <- cos_neg. f_equal. rewrite !mult_IZR. field. apply IZR_nz. lia.
Qed.

Lemma dct_ext n x x' k : (forall i, (0 <= i < n)%Z -> x i = x' i) -> dct n x k = dct n x' k.
Proof. intros H. unfold dct. f_equal. apply rsum_ext. intros j Hj. rewrite H by exact Hj. reflexivity. Qed.

Lemma dct_dct w h g row col : (1 <= w)%Z -> (1 <= h)%Z ->
  dct h (fun y => dct w (fun x => g y x) col) row = dct_2d w h g row col.
Proof.
  intros Hw Hh. unfold dct, dct_2d.
  set (c := fun y => cos (PI * IZR row * (IZR y + 1/2) / IZR h)).
  rewrite (rsum_ext _ (fun y => rsum (fun x => g y x * cos (PI * IZR col * (IZR x + 1 / 2) / IZR w) * c y) 0 w * 2)).
  - rewrite rsum_mul by lia. unfold c. ring.
  - intros y Hy. rewrite rsum_mul by lia. unfold c. ring.
Qed.
