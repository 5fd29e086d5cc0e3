(** Responses of cubic kernels at every whole factor. *)
From Coq Require Import Reals Lra Lia Psatz.
From Flocq Require Import Core.
From Verif Require Import Base Spec SpecTransform SpecInterpolate SpecCubic BaseProofs Kiss KissExact UpscaleProofs AccuracyProofs InterpolateProofs InterpolateKernels TablesProofs.
Open Scope R_scope.

Lemma cubic_ok B C : kernel_ok 2 (cubic B C).
Proof.
  split; [lia|]. split; intros u; unfold cubic.
  - rewrite Rabs_Ropp. reflexivity.
  - intros H. destruct (Rlt_dec (Rabs u) 1); [lra|]. destruct (Rlt_dec (Rabs u) 2); [lra|reflexivity].
Qed.

(** ** As a sum of truncated powers *)
Lemma cubic_powers B C u : let r x := Rmax 0 x in
  cubic B C u =
    (B + 6 * C) / 6 * (r (u + 2) ^ 3 + r (u - 2) ^ 3) + (8 * B - 12) / 6 * (r (u + 1) ^ 3 + r (u - 1) ^ 3)
    + (24 - 18 * B - 12 * C) / 6 * r u ^ 3 - C * (r (u + 2) ^ 2 - r (u - 2) ^ 2)
    + (3 - 3 * B - 4 * C) * (r (u + 1) ^ 2 - r (u - 1) ^ 2).
Proof.
  intros r. unfold r, cubic.
  destruct (Rle_or_lt 0 u) as [S|S]; [rewrite (Rabs_pos_eq u) by exact S|rewrite (Rabs_left u) by exact S].
  - rewrite (Rmax_right 0 (u + 2)), (Rmax_right 0 (u + 1)), (Rmax_right 0 u) by lra.
    destruct (Rlt_dec u 1) as [L|L]; [rewrite (Rmax_left 0 (u - 2)), (Rmax_left 0 (u - 1)) by lra; field|].
    destruct (Rlt_dec u 2) as [L2|L2]; [rewrite (Rmax_left 0 (u - 2)), (Rmax_right 0 (u - 1)) by lra; field|].
    rewrite (Rmax_right 0 (u - 2)), (Rmax_right 0 (u - 1)) by lra. field.
  - rewrite (Rmax_left 0 (u - 2)), (Rmax_left 0 (u - 1)), (Rmax_left 0 u) by lra.
    destruct (Rlt_dec (- u) 1) as [L|L]; [rewrite (Rmax_right 0 (u + 2)), (Rmax_right 0 (u + 1)) by lra; field|].
    destruct (Rlt_dec (- u) 2) as [L2|L2]; [rewrite (Rmax_right 0 (u + 2)), (Rmax_left 0 (u + 1)) by lra; field|].
    rewrite (Rmax_left 0 (u + 2)), (Rmax_left 0 (u + 1)) by lra. field.
Qed.

Definition ramp (n : nat) (j : Z) : R := IZR (Z.max 0 j) ^ n.
Lemma ramp_int n s j m : (1 <= s)%Z -> Rmax 0 (IZR j / (2 * IZR s) - IZR m) ^ n = ramp n (j - 2 * s * m) / (2 * IZR s) ^ n.
Proof.
  intros Hs. assert (P : 0 < IZR s) by (apply IZR_lt; lia). unfold ramp, Rdiv. rewrite <- pow_inv by lra. rewrite <- Rpow_mult_distr. f_equal.
  replace (IZR j * / (2 * IZR s) - IZR m) with (IZR (j - 2 * s * m) * / (2 * IZR s)) by (rewrite minus_IZR, !mult_IZR; field; lra).
  assert (I : 0 < / (2 * IZR s)) by (apply Rinv_0_lt_compat; lra).
  destruct (Z_le_gt_dec 0 (j - 2 * s * m)) as [G|G].
  - rewrite Z.max_r by lia. apply IZR_le in G. apply Rmax_right. nra.
  - rewrite Z.max_l by lia. assert (G' : (j - 2 * s * m <= 0)%Z) by lia. apply IZR_le in G'. rewrite Rmax_left by nra. ring.
Qed.

(** six (2s)^3 times the weight at j / 2s *)
Definition sampled (B C : R) (s j : Z) : R :=
  (B + 6 * C) * (ramp 3 (j - 2 * s * -2) + ramp 3 (j - 2 * s * 2)) + (8 * B - 12) * (ramp 3 (j - 2 * s * -1) + ramp 3 (j - 2 * s * 1))
  + (24 - 18 * B - 12 * C) * ramp 3 (j - 2 * s * 0)
  + 12 * IZR s * (- C * (ramp 2 (j - 2 * s * -2) - ramp 2 (j - 2 * s * 2)) + (3 - 3 * B - 4 * C) * (ramp 2 (j - 2 * s * -1) - ramp 2 (j - 2 * s * 1))).
Lemma cubic_sampled B C s j : (1 <= s)%Z -> cubic B C (IZR j / (2 * IZR s)) = sampled B C s j * / (48 * IZR s ^ 3).
Proof.
  intros Hs. assert (P : 0 < IZR s) by (apply IZR_lt; lia). rewrite cubic_powers. cbv zeta. set (u := IZR j / (2 * IZR s)).
  replace (u + 2) with (u - IZR (-2)) by (change (IZR (-2)) with (-2); ring). replace (u + 1) with (u - IZR (-1)) by (change (IZR (-1)) with (-1); ring).
  replace (Rmax 0 u) with (Rmax 0 (u - IZR 0)) by (f_equal; change (IZR 0) with 0; ring).
  unfold u. rewrite !ramp_int by exact Hs. unfold sampled. field. lra.
Qed.
Lemma sampled_zero B C s j : (1 <= s)%Z -> (4 * s <= Z.abs j)%Z -> sampled B C s j = 0.
Proof.
  intros Hs H. pose proof (cubic_sampled B C s j Hs) as E. destruct (cubic_ok B C) as (_ & _ & KZ).
  assert (P : 0 < IZR s) by (apply IZR_lt; lia).
  rewrite KZ in E.
  - assert (I : 0 < / (48 * IZR s ^ 3)) by (apply Rinv_0_lt_compat; assert (0 < IZR s ^ 3) by (apply pow_lt; exact P); lra). nra.
  - unfold Rdiv. rewrite Rabs_mult, (Rabs_pos_eq (/ (2 * IZR s))) by (left; apply Rinv_0_lt_compat; lra).
    apply Rmult_le_reg_r with (2 * IZR s); [lra|]. rewrite Rmult_assoc, Rinv_l by lra. rewrite Rmult_1_r, <- abs_IZR. apply IZR_le in H. rewrite mult_IZR in H.
    change (IZR 2) with 2. lra.
Qed.

(** ** Fourth differences *)
Definition fourth (f : Z -> R) (j : Z) : R := 6 * f j - 4 * f (j - 2)%Z - 4 * f (j + 2)%Z + f (j - 4)%Z + f (j + 4)%Z.
Lemma fourth_sampled B C s j : fourth (sampled B C s) j =
  (B + 6 * C) * (fourth (ramp 3) (j - 2 * s * -2) + fourth (ramp 3) (j - 2 * s * 2))
  + (8 * B - 12) * (fourth (ramp 3) (j - 2 * s * -1) + fourth (ramp 3) (j - 2 * s * 1))
  + (24 - 18 * B - 12 * C) * fourth (ramp 3) (j - 2 * s * 0)
  + 12 * IZR s * (- C * (fourth (ramp 2) (j - 2 * s * -2) - fourth (ramp 2) (j - 2 * s * 2))
      + (3 - 3 * B - 4 * C) * (fourth (ramp 2) (j - 2 * s * -1) - fourth (ramp 2) (j - 2 * s * 1))).
Proof.
  assert (T : forall a m, (j - a - 2 * s * m = j - 2 * s * m - a)%Z) by (intros; lia).
  assert (U : forall a m, (j + a - 2 * s * m = j - 2 * s * m + a)%Z) by (intros; lia).
  unfold fourth, sampled. rewrite !T, !U. ring.
Qed.
Lemma fourth_far n j : (n = 2 \/ n = 3)%nat -> (4 <= Z.abs j)%Z -> fourth (ramp n) j = 0.
Proof.
  intros Hn H. unfold fourth, ramp. destruct (Z_le_gt_dec 0 j) as [G|G].
  - rewrite !Z.max_r by lia. rewrite !plus_IZR, !minus_IZR. destruct Hn as [->| ->]; ring.
  - rewrite !Z.max_l by lia. destruct Hn as [->| ->]; ring.
Qed.

(** a sum with weights that vanish away from zero *)
Section LOCAL.
Variables (s m lo hi : Z) (v : Z -> R) (p : R).
Hypotheses (Hs : (2 <= s)%Z) (Hm : (-2 <= m <= 2)%Z) (Hlo : (lo <= -2 * s - 2)%Z) (Hhi : (3 * s + 2 <= hi)%Z).
Hypothesis far : forall j, (4 <= Z.abs j)%Z -> v j = 0.
Lemma local_even : Z.even s = true -> rsum (fun i => v (2 * i + 1 - s - 2 * s * m)%Z * cos (p * IZR (2 * i + 1 - s))) lo hi =
  v (-3)%Z * cos (2 * IZR s * p * IZR m - 3 * p) + v (-1)%Z * cos (2 * IZR s * p * IZR m - p)
  + v 1%Z * cos (2 * IZR s * p * IZR m + p) + v 3%Z * cos (2 * IZR s * p * IZR m + 3 * p).
Proof.
  intros EE. pose proof (Zmod_even s) as EV. rewrite EE in EV.
  assert (Hh : s = (2 * (s / 2))%Z) by (pose proof (Z.div_mod s 2 ltac:(lia)); lia). set (h := (s / 2)%Z) in *.
  assert (SM : (- 2 * s <= s * m <= 2 * s)%Z) by nia. set (q := (s * m)%Z) in *.
  assert (A : forall i, (2 * i + 1 - s - 2 * s * m = 2 * (i - h - q) + 1)%Z) by (intros i; unfold q; clear - Hh; clearbody h; subst s; ring).
  set (g := fun i => v (2 * i + 1 - s - 2 * s * m)%Z * cos (p * IZR (2 * i + 1 - s))).
  rewrite <- (rsum_widen g (h + q - 2) (h + q + 2)); [|lia|lia|intros j Hj; unfold g; rewrite far; [ring|rewrite A; lia]..].
  rewrite rsum_first, rsum_first, rsum_first, rsum_first by lia. rewrite rsum_empty by lia.
  assert (G : forall i t, (2 * (i - h - q) + 1 = t)%Z -> g i = v t * cos (2 * IZR s * p * IZR m + p * IZR t)).
  { intros i t E. unfold g. rewrite A, E. f_equal. f_equal. replace (2 * i + 1 - s)%Z with (2 * s * m + t)%Z by (unfold q in E; lia). rewrite plus_IZR, !mult_IZR. ring. }
  rewrite (G (h + q - 2)%Z (-3)%Z), (G (h + q - 2 + 1)%Z (-1)%Z), (G (h + q - 2 + 1 + 1)%Z 1%Z), (G (h + q - 2 + 1 + 1 + 1)%Z 3%Z) by lia.
  replace (2 * IZR s * p * IZR m + p * IZR (-3)) with (2 * IZR s * p * IZR m - 3 * p) by (change (IZR (-3)) with (-3); ring).
  replace (2 * IZR s * p * IZR m + p * IZR (-1)) with (2 * IZR s * p * IZR m - p) by (change (IZR (-1)) with (-1); ring).
  replace (2 * IZR s * p * IZR m + p * IZR 1) with (2 * IZR s * p * IZR m + p) by (change (IZR 1) with 1; ring).
  replace (2 * IZR s * p * IZR m + p * IZR 3) with (2 * IZR s * p * IZR m + 3 * p) by (change (IZR 3) with 3; ring). ring.
Qed.
Lemma local_odd : Z.even s = false -> rsum (fun i => v (2 * i + 1 - s - 2 * s * m)%Z * cos (p * IZR (2 * i + 1 - s))) lo hi =
  v (-2)%Z * cos (2 * IZR s * p * IZR m - 2 * p) + v 0%Z * cos (2 * IZR s * p * IZR m) + v 2%Z * cos (2 * IZR s * p * IZR m + 2 * p).
Proof.
  intros EE. pose proof (Zmod_even s) as EV. rewrite EE in EV.
  assert (Hh : s = (2 * (s / 2) + 1)%Z) by (pose proof (Z.div_mod s 2 ltac:(lia)); lia). set (h := (s / 2)%Z) in *.
  assert (SM : (- 2 * s <= s * m <= 2 * s)%Z) by nia. set (q := (s * m)%Z) in *.
  assert (A : forall i, (2 * i + 1 - s - 2 * s * m = 2 * (i - h - q))%Z) by (intros i; unfold q; clear - Hh; clearbody h; subst s; ring).
  set (g := fun i => v (2 * i + 1 - s - 2 * s * m)%Z * cos (p * IZR (2 * i + 1 - s))).
  rewrite <- (rsum_widen g (h + q - 1) (h + q + 2)); [|lia|lia|intros j Hj; unfold g; rewrite far; [ring|rewrite A; lia]..].
  rewrite rsum_first, rsum_first, rsum_first by lia. rewrite rsum_empty by lia.
  assert (G : forall i t, (2 * (i - h - q) = t)%Z -> g i = v t * cos (2 * IZR s * p * IZR m + p * IZR t)).
  { intros i t E. unfold g. rewrite A, E. f_equal. f_equal. replace (2 * i + 1 - s)%Z with (2 * s * m + t)%Z by (unfold q in E; lia). rewrite plus_IZR, !mult_IZR. ring. }
  rewrite (G (h + q - 1)%Z (-2)%Z), (G (h + q - 1 + 1)%Z 0%Z), (G (h + q - 1 + 1 + 1)%Z 2%Z) by lia.
  replace (2 * IZR s * p * IZR m + p * IZR (-2)) with (2 * IZR s * p * IZR m - 2 * p) by (change (IZR (-2)) with (-2); ring).
  replace (2 * IZR s * p * IZR m + p * IZR 0) with (2 * IZR s * p * IZR m) by (change (IZR 0) with 0; ring).
  replace (2 * IZR s * p * IZR m + p * IZR 2) with (2 * IZR s * p * IZR m + 2 * p) by (change (IZR 2) with 2; ring). ring.
Qed.
End LOCAL.

(** what one truncated power gives to a wave *)
Definition cube_gain (s : Z) (p : R) : R := if Z.even s then 46 * cos p + 2 * cos (3 * p) else 8 * (4 + 2 * cos (2 * p)).
Definition square_gain (s : Z) (p : R) : R := if Z.even s then 10 * sin p + 2 * sin (3 * p) else 8 * sin (2 * p).
Lemma cube_sum s m lo hi p : (2 <= s)%Z -> (-2 <= m <= 2)%Z -> (lo <= -2 * s - 2)%Z -> (3 * s + 2 <= hi)%Z ->
  rsum (fun i => fourth (ramp 3) (2 * i + 1 - s - 2 * s * m) * cos (p * IZR (2 * i + 1 - s))) lo hi = cube_gain s p * cos (2 * IZR s * p * IZR m).
Proof.
  intros Hs Hm Hlo Hhi. assert (F : forall j, (4 <= Z.abs j)%Z -> fourth (ramp 3) j = 0) by (intros; apply fourth_far; auto).
  unfold cube_gain. set (x := 2 * IZR s * p * IZR m). destruct (Z.even s) eqn:EE.
  - rewrite local_even by assumption. fold x. unfold fourth, ramp. cbn [Z.max Z.add Z.sub Z.opp Z.compare Pos.add Pos.compare Pos.compare_cont Z.pos_sub Pos.pred_double Z.succ_double Z.pred_double Z.double].
    rewrite !cos_plus, !cos_minus. ring.
  - rewrite local_odd by assumption. fold x. unfold fourth, ramp. cbn [Z.max Z.add Z.sub Z.opp Z.compare Pos.add Pos.compare Pos.compare_cont Z.pos_sub Pos.pred_double Z.succ_double Z.pred_double Z.double].
    rewrite !cos_plus, !cos_minus. ring.
Qed.
Lemma square_sum s m lo hi p : (2 <= s)%Z -> (-2 <= m <= 2)%Z -> (lo <= -2 * s - 2)%Z -> (3 * s + 2 <= hi)%Z ->
  rsum (fun i => fourth (ramp 2) (2 * i + 1 - s - 2 * s * m) * cos (p * IZR (2 * i + 1 - s))) lo hi = square_gain s p * sin (2 * IZR s * p * IZR m).
Proof.
  intros Hs Hm Hlo Hhi. assert (F : forall j, (4 <= Z.abs j)%Z -> fourth (ramp 2) j = 0) by (intros; apply fourth_far; auto).
  unfold square_gain. set (x := 2 * IZR s * p * IZR m). destruct (Z.even s) eqn:EE.
  - rewrite local_even by assumption. fold x. unfold fourth, ramp. cbn [Z.max Z.add Z.sub Z.opp Z.compare Pos.add Pos.compare Pos.compare_cont Z.pos_sub Pos.pred_double Z.succ_double Z.pred_double Z.double].
    rewrite !cos_plus, !cos_minus. ring.
  - rewrite local_odd by assumption. fold x. unfold fourth, ramp. cbn [Z.max Z.add Z.sub Z.opp Z.compare Pos.add Pos.compare Pos.compare_cont Z.pos_sub Pos.pred_double Z.succ_double Z.pred_double Z.double].
    rewrite !cos_plus, !cos_minus. ring.
Qed.

(** ** The response *)
Lemma fourth_differences B C s p c lo hi : (2 <= s)%Z -> c = 1 - IZR s -> (lo <= -2 * s - 4)%Z -> (3 * s + 4 <= hi)%Z ->
  rsum (fun i => sampled B C s (2 * i + 1 - s) * cos (p * (2 * IZR i + c))) lo hi * (2 - 2 * cos (2 * p)) ^ 2 =
  rsum (fun i => fourth (sampled B C s) (2 * i + 1 - s) * cos (p * (2 * IZR i + c))) lo hi.
Proof.
  intros Hs Hc Hlo Hhi. set (W := fun i => sampled B C s (2 * i + 1 - s)).
  set (D := fun i => 2 * W i - W (i - 1)%Z - W (i + 1)%Z).
  assert (Z0 : forall i, (i <= -2 * s \/ 3 * s <= i)%Z -> W i = 0) by (intros i Hi; unfold W; apply sampled_zero; lia).
  assert (Z1 : forall i, (i <= -2 * s - 2 \/ 3 * s + 1 <= i)%Z -> D i = 0) by (intros i Hi; unfold D; rewrite !Z0 by lia; ring).
  replace (rsum _ lo hi * (2 - 2 * cos (2 * p)) ^ 2) with
    (rsum (fun i => W i * cos (p * (2 * IZR i + c))) lo hi * (2 - 2 * cos (2 * p)) * (2 - 2 * cos (2 * p))) by (unfold W; ring).
  rewrite rsum_differences; [|lia|apply Z0; lia..].
  change (fun i => (2 * W i - W (i - 1)%Z - W (i + 1)%Z) * cos (p * (2 * IZR i + c))) with (fun i => D i * cos (p * (2 * IZR i + c))).
  rewrite rsum_differences; [|lia|apply Z1; lia..].
  apply rsum_ext. intros i Hi. f_equal. unfold D, W, fourth.
  replace (2 * (i - 1) + 1 - s)%Z with (2 * i + 1 - s - 2)%Z by lia. replace (2 * (i + 1) + 1 - s)%Z with (2 * i + 1 - s + 2)%Z by lia.
  replace (2 * (i - 1 - 1) + 1 - s)%Z with (2 * i + 1 - s - 4)%Z by lia. replace (2 * (i + 1 + 1) + 1 - s)%Z with (2 * i + 1 - s + 4)%Z by lia.
  replace (2 * (i - 1 + 1) + 1 - s)%Z with (2 * i + 1 - s)%Z by lia. replace (2 * (i + 1 - 1) + 1 - s)%Z with (2 * i + 1 - s)%Z by lia. ring.
Qed.

Lemma cubic_gain B C N s k : (1 <= N)%Z -> (2 <= s)%Z ->
  let p := PI * IZR k / IZR (s * N) / 2 in
  let t := PI * IZR k / IZR N in
  phase_cos N (s * N) 2 (cubic B C) k 0 * (48 * IZR s ^ 3) * (2 - 2 * cos (2 * p)) ^ 2 =
  cube_gain s p * (2 * (B + 6 * C) * cos (2 * t) + 2 * (8 * B - 12) * cos t + (24 - 18 * B - 12 * C))
  + 12 * IZR s * square_gain s p * (2 * C * sin (2 * t) - 2 * (3 - 3 * B - 4 * C) * sin t).
Proof.
  intros HN Hs p t. rewrite phase_cos_0 by (exact (cubic_ok B C) || lia). fold p.
  assert (P : 0 < IZR s) by (apply IZR_lt; lia). assert (P3 : 0 < IZR s ^ 3) by (apply pow_lt; exact P).
  assert (ST : 2 * IZR s * p = t) by (unfold p, t; rewrite mult_IZR; field; split; apply IZR_nz; lia).
  destruct (cubic_ok B C) as (_ & _ & KZ).
  rewrite (rsum_widen _ _ _ (-2 * s - 4) (3 * s + 4)); [|lia|lia|intros i Hi; rewrite cubic_sampled, sampled_zero by lia; ring..].
  rewrite (rsum_ext _ (fun i => sampled B C s (2 * i + 1 - s) * cos (p * (2 * IZR i + (1 - IZR s))) * / (48 * IZR s ^ 3))).
  2:{ intros i Hi. rewrite cubic_sampled by lia. rewrite minus_IZR, plus_IZR, mult_IZR.
      replace (2 * IZR i + 1 - IZR s) with (2 * IZR i + (1 - IZR s)) by ring. ring. }
  rewrite rsum_mul by lia. rewrite (Rmult_assoc _ (/ _)), Rinv_l, Rmult_1_r by lra.
  rewrite (fourth_differences B C s p (1 - IZR s)) by (try reflexivity; lia).
  set (Q := fun n m i => fourth (ramp n) (2 * i + 1 - s - 2 * s * m) * cos (p * IZR (2 * i + 1 - s))).
  rewrite (rsum_ext _ (fun i =>
    (Q 3%nat (-2)%Z i * (B + 6 * C) + Q 3%nat 2%Z i * (B + 6 * C) + (Q 3%nat (-1)%Z i * (8 * B - 12) + Q 3%nat 1%Z i * (8 * B - 12))
     + Q 3%nat 0%Z i * (24 - 18 * B - 12 * C))
    + (Q 2%nat (-2)%Z i * (12 * IZR s * - C) + Q 2%nat 2%Z i * (12 * IZR s * C)
     + (Q 2%nat (-1)%Z i * (12 * IZR s * (3 - 3 * B - 4 * C)) + Q 2%nat 1%Z i * (12 * IZR s * - (3 - 3 * B - 4 * C)))))).
  2:{ intros i Hi. rewrite fourth_sampled. unfold Q. rewrite (minus_IZR (2 * i + 1)), plus_IZR, mult_IZR.
      replace (2 * IZR i + (1 - IZR s)) with (2 * IZR i + 1 - IZR s) by ring. ring. }
  rewrite !rsum_add, !rsum_mul by lia. unfold Q. rewrite !cube_sum, !square_sum by lia. rewrite !ST.
  replace (t * IZR (-2)) with (- (2 * t)) by (change (IZR (-2)) with (-2); ring). replace (t * IZR 2) with (2 * t) by (change (IZR 2) with 2; ring).
  replace (t * IZR (-1)) with (- t) by (change (IZR (-1)) with (-1); ring). replace (t * IZR 1) with t by (change (IZR 1) with 1; ring).
  replace (t * IZR 0) with 0 by (change (IZR 0) with 0; ring). rewrite !cos_neg, !sin_neg, cos_0. ring.
Qed.

(** ** It is positive around the edge of the old spectrum *)
Lemma pi_near : 314/100 <= PI <= 315/100.
Proof. pose proof pi_bound as H. apply Rabs_le_inv in H. lra. Qed.
Lemma cos_low x : 1 - x ^ 2 / 2 <= cos x.
Proof.
  replace x with (2 * (x / 2)) at 2 by field. rewrite cos_2a_sin.
  pose proof (sin_close (x / 2) 0) as S. rewrite sin_0, !Rminus_0_r in S.
  assert (Q : sin (x / 2) * sin (x / 2) <= x / 2 * (x / 2)) by (apply Rsqr_le_abs_1; exact S). nra.
Qed.
Lemma sin_up x : 0 <= x -> sin x <= x.
Proof.
  intros H. pose proof (sin_close x 0) as S. rewrite sin_0, !Rminus_0_r, (Rabs_pos_eq x) in S by exact H.
  eapply Rle_trans; [apply Rle_abs|exact S].
Qed.

Lemma gains s p t : (2 <= s)%Z -> t = 2 * IZR s * p -> Rabs (t - PI) <= PI / 10 ->
  0 < cube_gain s p /\ 0 <= 12 * IZR s * square_gain s p <= 81/10 * cube_gain s p.
Proof.
  intros Hs Et Ht. pose proof pi_near as PN. apply Rabs_le_inv in Ht.
  assert (SR : 2 <= IZR s) by (apply IZR_le; lia).
  assert (Ep : p = t / (2 * IZR s)) by (rewrite Et; field; lra).
  assert (P0 : 0 < p) by (rewrite Ep; apply Rdiv_lt_0_compat; lra).
  assert (PB : p * 4 <= t) by (rewrite Et; nra).
  assert (S0 : 0 < sin p) by (apply sin_gt_0; lra). assert (C0 : 0 < cos p) by (apply cos_gt_0; lra).
  pose proof (sin2_cos2 p) as Q. unfold Rsqr in Q.
  unfold cube_gain, square_gain. destruct (Z.even s) eqn:EE.
  - rewrite cos_3, sin_3.
    replace (46 * cos p + 2 * (4 * cos p ^ 3 - 3 * cos p)) with (8 * (cos p * (5 + cos p * cos p))) by ring.
    replace (12 * IZR s * (10 * sin p + 2 * (3 * sin p - 4 * sin p ^ 3))) with (96 * (IZR s * sin p * (2 - sin p * sin p))) by ring.
    set (c := cos p) in *. set (v := sin p) in *.
    assert (V1 : v * v <= 1) by nra.
    assert (CG : 0 < c * (5 + c * c)) by nra.
    split; [lra|]. split; [assert (0 <= IZR s * v) by nra; nra|].
    enough (12 * (IZR s * v * (2 - v * v)) <= 81/10 * (c * (5 + c * c))) by lra.
    destruct (Z.eq_dec s 2) as [->|N2].
    + assert (E4 : p - PI / 4 = (t - PI) / 4) by (rewrite Et; field).
      pose proof (sin_close p (PI / 4)) as SC. rewrite E4 in SC. fold v in SC. rewrite sin_PI4 in SC.
      assert (SQ : 1 / sqrt 2 <= 7072/10000).
      { pose proof (sqrt_sqrt 2 ltac:(lra)) as SS. assert (0 < sqrt 2) by (apply sqrt_lt_R0; lra).
        apply Rmult_le_reg_r with (sqrt 2); [assumption|]. unfold Rdiv. rewrite Rmult_assoc, Rinv_l by lra. nra. }
      assert (A : Rabs ((t - PI) / 4) <= 79/1000) by (apply Rabs_le; lra).
      assert (B : Rabs (v - 1 / sqrt 2) <= 79/1000) by lra. apply Rabs_le_inv in B.
      assert (VB : v <= 787/1000) by lra.
      assert (VV : v * v <= 62/100) by nra. assert (CC : 38/100 <= c * c) by lra. assert (CB : 616/1000 <= c) by nra.
      assert (L : v * (2 - v * v) <= 109/100) by nra.
      change (IZR 2) with 2. nra.
    + assert (S4 : (4 <= s)%Z) by (destruct (Z.eq_dec s 3) as [->|]; [discriminate EE|lia]). apply IZR_le in S4. change (IZR 4) with 4 in S4.
      assert (PS : p <= 434/1000) by nra.
      assert (CB : 905/1000 <= c) by (pose proof (cos_low p) as CL; fold c in CL; nra).
      assert (SV : IZR s * v <= 1733/1000).
      { pose proof (sin_up p ltac:(lra)) as SU. fold v in SU. apply Rle_trans with (IZR s * p); [nra|]. lra. }
      assert (IZR s * v * (2 - v * v) <= 1733/1000 * 2) by (assert (0 <= IZR s * v) by nra; nra).
      nra.
  - set (c := cos (2 * p)). set (v := sin (2 * p)).
    assert (S3 : (3 <= s)%Z) by (destruct (Z.eq_dec s 2) as [->|]; [discriminate EE|lia]). apply IZR_le in S3. change (IZR 3) with 3 in S3.
    assert (PB3 : p * 6 <= t) by (rewrite Et; nra).
    assert (V0 : 0 < v) by (apply sin_gt_0; lra). assert (C1 : 0 < c) by (apply cos_gt_0; lra).
    split; [lra|]. split; [nra|]. enough (12 * (IZR s * v) <= 81/10 * (4 + 2 * c)) by lra.
    destruct (Z.eq_dec s 3) as [->|N3].
    + assert (E3 : 2 * p - PI / 3 = (t - PI) / 3) by (rewrite Et; field).
      assert (A : Rabs ((t - PI) / 3) <= 106/1000) by (apply Rabs_le; lra).
      pose proof (sin_close (2 * p) (PI / 3)) as SC. rewrite E3, sin_PI3 in SC. fold v in SC.
      pose proof (cos_close (2 * p) (PI / 3)) as CC. rewrite E3, cos_PI3 in CC. fold c in CC.
      assert (SQ : sqrt 3 <= 1733/1000) by (pose proof (sqrt_sqrt 3 ltac:(lra)); pose proof (sqrt_pos 3); nra).
      assert (B : Rabs (v - sqrt 3 / 2) <= 106/1000) by lra. apply Rabs_le_inv in B.
      assert (D : Rabs (c - 1 / 2) <= 106/1000) by lra. apply Rabs_le_inv in D.
      change (IZR 3) with 3. lra.
    + assert (S5 : (5 <= s)%Z) by (destruct (Z.eq_dec s 4) as [->|]; [discriminate EE|apply le_IZR in S3; lia]). apply IZR_le in S5. change (IZR 5) with 5 in S5.
      assert (PS : 2 * p <= 694/1000) by nra.
      pose proof (cos_low (2 * p)) as CL. fold c in CL.
      assert (CB : 75/100 <= c) by nra.
      assert (SV : IZR s * v <= 3466/1000).
      { pose proof (sin_up (2 * p) ltac:(lra)) as SU. fold v in SU. apply Rle_trans with (IZR s * (2 * p)); [nra|]. lra. }
      lra.
Qed.

Lemma waves B C t : 0 <= B <= 1 -> 0 <= C <= 1 -> Rabs (t - PI) <= PI / 10 ->
  81/10 * Rabs (2 * C * sin (2 * t) - 2 * (3 - 3 * B - 4 * C) * sin t) <
  2 * (B + 6 * C) * cos (2 * t) + 2 * (8 * B - 12) * cos t + (24 - 18 * B - 12 * C).
Proof.
  intros HB HC Ht. pose proof pi_near as PN. set (x := t - PI) in *. assert (Et : t = x + PI) by (unfold x; ring).
  assert (X : Rabs x <= 315/1000) by lra.
  rewrite cos_2a_sin, sin_2a. rewrite Et, neg_sin, neg_cos.
  pose proof (sin_close x 0) as SC. rewrite sin_0, !Rminus_0_r in SC.
  pose proof (cos_low x) as CL. pose proof (COS_bound x) as CB.
  set (v := sin x) in *. set (q := cos x) in *.
  assert (X2 : x ^ 2 <= 993/10000) by (rewrite <- Rsqr_pow2, Rsqr_abs; unfold Rsqr; pose proof (Rabs_pos x); nra).
  assert (QB : 95/100 <= q) by lra.
  assert (V : Rabs v <= 315/1000) by lra.
  assert (VV : v * v <= 993/10000) by (change (v * v) with (Rsqr v); rewrite Rsqr_abs; unfold Rsqr; pose proof (Rabs_pos v); nra).
  replace (2 * C * (2 * - v * - q) - 2 * (3 - 3 * B - 4 * C) * - v) with (v * (2 * (2 * C * q + 3 - 3 * B - 4 * C))) by ring.
  rewrite Rabs_mult. set (w := 2 * (2 * C * q + 3 - 3 * B - 4 * C)).
  apply Rle_lt_trans with (81/10 * (315/1000 * Rabs w)); [pose proof (Rabs_pos w); nra|].
  assert (CQ : 95/100 * C <= C * q <= C) by nra. assert (BQ : 95/100 * B <= B * q <= B) by nra.
  assert (BV : (B + 6 * C) * (v * v) <= (B + 6 * C) * (993/10000)) by (apply Rmult_le_compat_l; lra).
  replace (2 * (B + 6 * C) * (1 - 2 * - v * - v) + 2 * (8 * B - 12) * - q + (24 - 18 * B - 12 * C)) with
    (2 * (B + 6 * C) - 4 * ((B + 6 * C) * (v * v)) + 24 * q - 16 * (B * q) + (24 - 18 * B - 12 * C)) by ring.
  unfold w. replace (2 * C * q) with (2 * (C * q)) by ring.
  unfold Rabs. destruct (Rcase_abs _); lra.
Qed.

Lemma cubic_positive B C N s k range : 0 <= B <= 1 -> 0 <= C <= 1 -> (1 <= N)%Z -> (2 <= s)%Z -> (10 * range <= N)%Z -> (N - range <= k <= N + range)%Z ->
  0 < phase_cos N (s * N) 2 (cubic B C) k 0.
Proof.
  intros HB HC HN Hs HR Hk. pose proof (cubic_gain B C N s k HN Hs) as E. cbv zeta in E.
  set (p := PI * IZR k / IZR (s * N) / 2) in *. set (t := PI * IZR k / IZR N) in *.
  assert (NR : 0 < IZR N) by (apply IZR_lt; lia). assert (SR : 2 <= IZR s) by (apply IZR_le; lia).
  assert (Et : t = 2 * IZR s * p) by (unfold p, t; rewrite mult_IZR; field; split; apply IZR_nz; lia).
  pose proof pi_near as PN.
  assert (Ht : Rabs (t - PI) <= PI / 10).
  { replace (t - PI) with (PI * (IZR (k - N) / IZR N)) by (unfold t; rewrite minus_IZR; field; lra).
    rewrite Rabs_mult, (Rabs_pos_eq PI) by lra. unfold Rdiv at 2. apply Rmult_le_compat_l; [lra|].
    unfold Rdiv. rewrite Rabs_mult, (Rabs_pos_eq (/ IZR N)) by (left; apply Rinv_0_lt_compat; exact NR).
    apply Rmult_le_reg_r with (IZR N); [exact NR|]. rewrite Rmult_assoc, Rinv_l, Rmult_1_r by lra.
    rewrite <- abs_IZR. assert (A : (10 * Z.abs (k - N) <= N)%Z) by lia. apply IZR_le in A. rewrite mult_IZR in A. lra. }
  destruct (gains s p t Hs Et Ht) as (CG & SG). pose proof (waves B C t HB HC Ht) as W.
  set (A6 := 2 * (B + 6 * C) * cos (2 * t) + 2 * (8 * B - 12) * cos t + (24 - 18 * B - 12 * C)) in *.
  set (S6 := 2 * C * sin (2 * t) - 2 * (3 - 3 * B - 4 * C) * sin t) in *.
  set (cg := cube_gain s p) in *. set (sg := 12 * IZR s * square_gain s p) in *.
  assert (POS : 0 < cg * A6 + sg * S6).
  { assert (L : - (sg * Rabs S6) <= sg * S6).
    { pose proof (Rle_abs (- S6)) as H. rewrite Rabs_Ropp in H. nra. }
    assert (M : sg * Rabs S6 <= 81/10 * cg * Rabs S6) by (apply Rmult_le_compat_r; [apply Rabs_pos|lra]).
    assert (cg * (81/10 * Rabs S6) < cg * A6) by (apply Rmult_lt_compat_l; assumption). lra. }
  rewrite <- E in POS. destruct (Rle_or_lt (phase_cos N (s * N) 2 (cubic B C) k 0) 0) as [G|G]; [|exact G]. exfalso.
  assert (P3 : 0 < IZR s ^ 3) by (apply pow_lt; lra).
  pose proof (pow2_ge_0 (2 - 2 * cos (2 * p))) as D. set (d := (2 - 2 * cos (2 * p)) ^ 2) in *.
  assert (phase_cos N (s * N) 2 (cubic B C) k 0 * (48 * IZR s ^ 3) <= 0) by nra. nra.
Qed.

Lemma cubic_responds B C N s k range : 0 <= B <= 1 -> 0 <= C <= 1 -> (1 <= N)%Z -> (2 <= s)%Z -> (10 * range <= N)%Z -> (N - range <= k <= N + range)%Z ->
  exists P, 0 < P /\ responds N (s * N) 2 (cubic B C) k P 0.
Proof.
  intros HB HC HN Hs HR Hk. exists (phase_cos N (s * N) 2 (cubic B C) k 0).
  split; [apply (cubic_positive B C N s k range); assumption|]. apply responds_whole; [exact HN|lia|exact (cubic_ok B C)].
Qed.

(** ** From 2p to 3p samples *)
Section THREE_HALVES.
Variables (p k : Z) (K : R -> R).
Hypotheses (P1 : (1 <= p)%Z) (KO : kernel_ok 2 K).
Let x := PI * IZR k / IZR (2 * p) / 6.
Definition sixths (K : R -> R) (wave : R -> R) (x : R) : R :=
  K (9/6) * wave (-9 * x) + K (5/6) * wave (-5 * x) + K (1/6) * wave (-1 * x) + K (3/6) * wave (3 * x) + K (7/6) * wave (7 * x) + K (11/6) * wave (11 * x).
Lemma halves_sum_2 (wave : R -> R) m :
  rsum (fun i => K (offset (2 * p) (3 * p) i m) * wave (PI * IZR k * offset (2 * p) (3 * p) i m / IZR (2 * p)))
    ((m - 2) * (3 * p) / (2 * p)) ((m + 2 + 1) * (3 * p) / (2 * p) + 1) =
  sixths K wave (if Z.even m then x else - x).
Proof.
  destruct KO as (_ & EV & KZ).
  replace ((m - 2) * (3 * p))%Z with (3 * (m - 2) * p)%Z by ring. replace ((m + 2 + 1) * (3 * p))%Z with (3 * (m + 3) * p)%Z by ring.
  rewrite !Z.div_mul_cancel_r by lia.
  set (g := fun i => K (offset (2 * p) (3 * p) i m) * wave (PI * IZR k * offset (2 * p) (3 * p) i m / IZR (2 * p))).
  assert (G : forall i j, (4 * i - 6 * m - 1 = j)%Z -> g i = K (IZR j / 6) * wave (IZR j * x)).
  { intros i j <-. unfold g. rewrite offset_halves by exact P1. f_equal. f_equal. unfold x. rewrite (mult_IZR 2 p). field. apply IZR_nz; lia. }
  assert (Z0 : forall i, (12 <= Z.abs (4 * i - 6 * m - 1))%Z -> g i = 0).
  { intros i H. rewrite (G i _ eq_refl), KZ; [ring|]. unfold Rdiv. rewrite Rabs_mult, (Rabs_pos_eq (/ 6)) by lra. rewrite <- abs_IZR. apply IZR_le in H.
    change (IZR 2) with 2. lra. }
  assert (O : forall a b, a + b = 0 -> K (a / 6) = K (b / 6)) by (intros a b H; replace (a / 6) with (- (b / 6)) by lra; apply EV).
  pose proof (Zmod_even m) as EM. pose proof (Z.div_mod m 2 ltac:(lia)) as D. set (r := (m / 2)%Z) in *. unfold sixths.
  destruct (Z.even m) eqn:E.
  - assert (M2 : m = (2 * r)%Z) by lia.
    replace (3 * (m - 2) / 2)%Z with (3 * r - 3)%Z by (apply Z.div_unique with 0%Z; lia).
    replace (3 * (m + 3) / 2)%Z with (3 * r + 4)%Z by (apply Z.div_unique with 1%Z; lia).
    rewrite (rsum_split g _ (3 * r - 2)) by lia. rewrite (rsum_split g (3 * r - 2) (3 * r + 4)) by lia.
    rewrite (rsum_zero g (3 * r - 3)) by (intros; apply Z0; lia). rewrite (rsum_zero g (3 * r + 4)) by (intros; apply Z0; lia).
    do 6 (rewrite rsum_first by lia). rewrite rsum_empty by lia.
    rewrite (G (3 * r - 2)%Z (-9)%Z), (G (3 * r - 2 + 1)%Z (-5)%Z), (G (3 * r - 2 + 1 + 1)%Z (-1)%Z), (G (3 * r - 2 + 1 + 1 + 1)%Z 3%Z),
      (G (3 * r - 2 + 1 + 1 + 1 + 1)%Z 7%Z), (G (3 * r - 2 + 1 + 1 + 1 + 1 + 1)%Z 11%Z) by lia.
    change (IZR (-9)) with (-9). change (IZR (-5)) with (-5). change (IZR (-1)) with (-1).
    rewrite (O (-9) 9), (O (-5) 5), (O (-1) 1) by lra. ring.
  - assert (M2 : m = (2 * r + 1)%Z) by lia.
    replace (3 * (m - 2) / 2)%Z with (3 * r - 2)%Z by (apply Z.div_unique with 1%Z; lia).
    replace (3 * (m + 3) / 2)%Z with (3 * r + 6)%Z by (apply Z.div_unique with 0%Z; lia).
    rewrite (rsum_split g _ (3 * r - 1)) by lia. rewrite (rsum_split g (3 * r - 1) (3 * r + 5)) by lia.
    rewrite (rsum_zero g (3 * r - 2)) by (intros; apply Z0; lia). rewrite (rsum_zero g (3 * r + 5)) by (intros; apply Z0; lia).
    do 6 (rewrite rsum_first by lia). rewrite rsum_empty by lia.
    rewrite (G (3 * r - 1)%Z (-11)%Z), (G (3 * r - 1 + 1)%Z (-7)%Z), (G (3 * r - 1 + 1 + 1)%Z (-3)%Z), (G (3 * r - 1 + 1 + 1 + 1)%Z 1%Z),
      (G (3 * r - 1 + 1 + 1 + 1 + 1)%Z 5%Z), (G (3 * r - 1 + 1 + 1 + 1 + 1 + 1)%Z 9%Z) by lia.
    change (IZR (-11)) with (-11). change (IZR (-7)) with (-7). change (IZR (-3)) with (-3).
    rewrite (O (-11) 11), (O (-7) 7), (O (-3) 3) by lra.
    replace (-9 * - x) with (9 * x) by ring. replace (-5 * - x) with (5 * x) by ring. replace (-1 * - x) with (1 * x) by ring.
    replace (3 * - x) with (-3 * x) by ring. replace (7 * - x) with (-7 * x) by ring. replace (11 * - x) with (-11 * x) by ring. ring.
Qed.
Lemma sixths_even y : sixths K cos (- y) = sixths K cos y.
Proof. unfold sixths. rewrite <- !Ropp_mult_distr_r, !cos_neg. reflexivity. Qed.
Lemma sixths_odd y : sixths K sin (- y) = - sixths K sin y.
Proof. unfold sixths. rewrite <- !Ropp_mult_distr_r, !sin_neg. ring. Qed.
Lemma halves_responds_2 : responds (2 * p) (3 * p) 2 K k (sixths K cos x) (Rabs (sixths K sin x)).
Proof.
  intros m. unfold phase_cos, phase_sin. rewrite (halves_sum_2 cos m), (halves_sum_2 sin m).
  destruct (Z.even m); rewrite ?sixths_even, ?sixths_odd, ?Rabs_Ropp; rewrite Rminus_diag_eq by reflexivity; rewrite Rabs_R0; lra.
Qed.
End THREE_HALVES.

(** angles around a half turn *)
Lemma sin_2kPI z a : sin (a + 2 * IZR z * PI) = sin a.
Proof. rewrite <- !cos_shift. replace (PI / 2 - (a + 2 * IZR z * PI)) with (PI / 2 - a + 2 * IZR (- z) * PI) by (rewrite opp_IZR; ring). apply cos_2kPI. Qed.
Lemma sixth_angles y : let x := PI / 6 + y in let h := sqrt 3 / 2 in
  sin (-9 * x) = cos (9 * y) /\ sin (3 * x) = cos (3 * y) /\
  sin (-5 * x) = - (1/2 * cos (5 * y)) + h * sin (5 * y) /\ sin (-1 * x) = - (1/2 * cos y) - h * sin y /\
  sin (7 * x) = - (1/2 * cos (7 * y)) - h * sin (7 * y) /\ sin (11 * x) = - (1/2 * cos (11 * y)) + h * sin (11 * y) /\
  cos (-9 * x) = sin (9 * y) /\ cos (3 * x) = - sin (3 * y) /\
  cos (-5 * x) = - (h * cos (5 * y)) - 1/2 * sin (5 * y) /\ cos (-1 * x) = h * cos y - 1/2 * sin y /\
  cos (7 * x) = - (h * cos (7 * y)) + 1/2 * sin (7 * y) /\ cos (11 * x) = h * cos (11 * y) + 1/2 * sin (11 * y).
Proof.
  intros x h.
  assert (S1 : sin (PI / 6) = 1/2) by exact sin_PI6. assert (C1 : cos (PI / 6) = h) by exact cos_PI6.
  assert (S9 : sin (-9 * (PI / 6)) = 1) by (replace (-9 * (PI / 6)) with (PI / 2 + 2 * IZR (-1) * PI) by (change (IZR (-1)) with (-1); field); rewrite sin_2kPI; apply sin_PI2).
  assert (C9 : cos (-9 * (PI / 6)) = 0) by (replace (-9 * (PI / 6)) with (PI / 2 + 2 * IZR (-1) * PI) by (change (IZR (-1)) with (-1); field); rewrite cos_2kPI; apply cos_PI2).
  assert (S3 : sin (3 * (PI / 6)) = 1) by (replace (3 * (PI / 6)) with (PI / 2) by field; apply sin_PI2).
  assert (C3 : cos (3 * (PI / 6)) = 0) by (replace (3 * (PI / 6)) with (PI / 2) by field; apply cos_PI2).
  assert (S5 : sin (-5 * (PI / 6)) = - (1/2)) by (replace (-5 * (PI / 6)) with (- (PI - PI / 6)) by field; rewrite sin_neg, Rtrigo_facts.sin_pi_minus, S1; reflexivity).
  assert (C5 : cos (-5 * (PI / 6)) = - h) by (replace (-5 * (PI / 6)) with (- (PI - PI / 6)) by field; rewrite cos_neg, Rtrigo_facts.cos_pi_minus, C1; reflexivity).
  assert (S7 : sin (7 * (PI / 6)) = - (1/2)) by (replace (7 * (PI / 6)) with (PI / 6 + PI) by field; rewrite neg_sin, S1; reflexivity).
  assert (C7 : cos (7 * (PI / 6)) = - h) by (replace (7 * (PI / 6)) with (PI / 6 + PI) by field; rewrite neg_cos, C1; reflexivity).
  assert (S11 : sin (11 * (PI / 6)) = - (1/2)) by (replace (11 * (PI / 6)) with (- (PI / 6) + 2 * IZR 1 * PI) by (change (IZR 1) with 1; field); rewrite sin_2kPI, sin_neg, S1; reflexivity).
  assert (C11 : cos (11 * (PI / 6)) = h) by (replace (11 * (PI / 6)) with (- (PI / 6) + 2 * IZR 1 * PI) by (change (IZR 1) with 1; field); rewrite cos_2kPI, cos_neg, C1; reflexivity).
  unfold x. rewrite !Rmult_plus_distr_l, !sin_plus, !cos_plus, S9, C9, S3, C3, S5, C5, S7, C7, S11, C11.
  replace (-1 * (PI / 6)) with (- (PI / 6)) by field. rewrite sin_neg, cos_neg, S1, C1.
  replace (-9 * y) with (- (9 * y)) by ring. replace (-5 * y) with (- (5 * y)) by ring. replace (-1 * y) with (- y) by ring.
  rewrite !sin_neg, !cos_neg. repeat split; ring.
Qed.

Lemma cubic_sixths B C :
  cubic B C (9/6) = B / 48 - C / 8 /\ cubic B C (5/6) = 2/27 + (81 * B) / 432 + (50 * C) / 432 /\ cubic B C (1/6) = 25/27 - (123 * B) / 432 + (10 * C) / 432 /\
  cubic B C (3/6) = 1/2 - B / 48 + C / 8 /\ cubic B C (7/6) = (125 * B) / 1296 - (25 * C) / 216 /\ cubic B C (11/6) = B / 1296 - (5 * C) / 216.
Proof.
  unfold cubic. rewrite !Rabs_pos_eq by lra.
  repeat split; repeat (destruct (Rlt_dec _ _); try (exfalso; lra)); field.
Qed.

Lemma product_bound a b A B : Rabs a <= A -> Rabs b <= B -> - (A * B) <= a * b <= A * B.
Proof.
  intros HA HB. pose proof (Rabs_pos a). pose proof (Rabs_pos b). assert (Q : Rabs (a * b) <= A * B) by (rewrite Rabs_mult; nra).
  apply Rabs_le_inv. exact Q.
Qed.
Lemma sine_remainder z : Rabs z <= 3/10 -> Rabs (sin z - z) <= 3/20 * z ^ 2.
Proof.
  intros H. destruct (MVT_abs (fun z => sin z - z) (fun z => cos z - 1) 0 z) as (c & E & R).
  - intros c _. apply derivable_pt_lim_minus; [apply derivable_pt_lim_sin|apply derivable_pt_lim_id].
  - cbv beta in E. rewrite sin_0, !Rminus_0_r in E. rewrite E.
    assert (CB : Rabs c <= Rabs z).
    { destruct (Rle_or_lt 0 z) as [L|L].
      - rewrite Rmin_left, Rmax_right in R by exact L. rewrite !Rabs_pos_eq by lra. lra.
      - rewrite Rmin_right, Rmax_left in R by lra. rewrite !Rabs_left1 by lra. lra. }
    pose proof (cos_low c) as CL. pose proof (COS_bound c) as CU.
    assert (C2 : c ^ 2 <= Rabs z * (3/10)) by (rewrite <- (pow2_abs c); pose proof (Rabs_pos c); nra).
    rewrite Rabs_left1 by lra. rewrite <- (pow2_abs z). pose proof (Rabs_pos z). nra.
Qed.

Section CUBIC_HALVES.
Variables (B C y e : R).
Hypotheses (HB : 0 <= B <= 1) (HC : 0 <= C <= 1) (He : e <= 158/1000) (Hy : Rabs y <= e / 6).
Local Notation k9 := (cubic B C (9/6)).
Local Notation k5 := (cubic B C (5/6)).
Local Notation k1 := (cubic B C (1/6)).
Local Notation k3 := (cubic B C (3/6)).
Local Notation k7 := (cubic B C (7/6)).
Local Notation k11 := (cubic B C (11/6)).
Lemma weights : Rabs k9 <= 1/8 /\ Rabs k5 <= 378/1000 /\ Rabs k1 <= 95/100 /\ Rabs k3 <= 625/1000 /\ Rabs k7 <= 116/1000 /\ Rabs k11 <= 24/1000.
Proof. destruct (cubic_sixths B C) as (-> & -> & -> & -> & -> & ->). repeat split; apply Rabs_le; lra. Qed.
Lemma cosine_remainder n : 0 <= n <= 11 -> Rabs (1 - cos (n * y)) <= n ^ 2 / 2 * y ^ 2.
Proof. intros Hn. pose proof (cos_low (n * y)). pose proof (COS_bound (n * y)). rewrite Rabs_pos_eq by lra. nra. Qed.
Lemma sine_bound n : 0 <= n <= 11 -> Rabs (sin (n * y)) <= n * (264/10000).
Proof.
  intros Hn. pose proof (sin_close (n * y) 0) as S. rewrite sin_0, !Rminus_0_r, Rabs_mult, (Rabs_pos_eq n) in S by lra. nra.
Qed.
Lemma sine_remainder_n n : 0 <= n <= 11 -> Rabs (sin (n * y) - n * y) <= n ^ 2 * (3/20) * y ^ 2.
Proof.
  intros Hn. replace (n ^ 2 * (3/20) * y ^ 2) with (3/20 * (n * y) ^ 2) by ring. apply sine_remainder.
  rewrite Rabs_mult, (Rabs_pos_eq n) by lra. pose proof (Rabs_pos y). nra.
Qed.
Lemma root_3 : 866/1000 <= sqrt 3 / 2 <= 8661/10000.
Proof. pose proof (sqrt_sqrt 3 ltac:(lra)). pose proof (sqrt_pos 3). split; nra. Qed.

Lemma cubic_halves_leak : Rabs (sixths (cubic B C) sin (PI / 6 + y)) <= 9/100 * Rabs (B + 2 * C - 1) * e + e ^ 2 / 2.
Proof.
  unfold sixths. destruct (sixth_angles y) as (-> & -> & -> & -> & -> & -> & _). pose proof root_3 as R3. set (h := sqrt 3 / 2) in *.
  destruct weights as (W9 & W5 & W1 & W3 & W7 & W11).
  assert (Y2 : y ^ 2 <= e ^ 2 / 36) by (rewrite <- (pow2_abs y); pose proof (Rabs_pos y); nra). assert (Y0 : 0 <= y ^ 2) by nra.
  pose proof (product_bound _ _ _ _ W9 (cosine_remainder 9 ltac:(lra))) as T9.
  pose proof (product_bound _ _ _ _ W5 (cosine_remainder 5 ltac:(lra))) as T5.
  pose proof (product_bound _ _ _ _ W1 (cosine_remainder 1 ltac:(lra))) as T1. rewrite !Rmult_1_l in T1.
  pose proof (product_bound _ _ _ _ W3 (cosine_remainder 3 ltac:(lra))) as T3.
  pose proof (product_bound _ _ _ _ W7 (cosine_remainder 7 ltac:(lra))) as T7.
  pose proof (product_bound _ _ _ _ W11 (cosine_remainder 11 ltac:(lra))) as T11.
  pose proof (product_bound _ _ _ _ W5 (sine_remainder_n 5 ltac:(lra))) as U5.
  pose proof (product_bound _ _ _ _ W1 (sine_remainder_n 1 ltac:(lra))) as U1. rewrite !Rmult_1_l in U1.
  pose proof (product_bound _ _ _ _ W7 (sine_remainder_n 7 ltac:(lra))) as U7.
  pose proof (product_bound _ _ _ _ W11 (sine_remainder_n 11 ltac:(lra))) as U11.
  assert (ONE : k9 + k3 = 1/2 /\ k5 + k1 + k7 + k11 = 1 /\ 5 * k5 - k1 - 7 * k7 + 11 * k11 = 5/9 * (B + 2 * C - 1)).
  { destruct (cubic_sixths B C) as (-> & -> & -> & -> & -> & ->). repeat split; field. }
  destruct ONE as (O1 & O2 & O3).
  set (d := B + 2 * C - 1) in *.
  assert (DY : - (Rabs d * (e / 6)) <= d * y <= Rabs d * (e / 6)) by (apply product_bound; [lra|exact Hy]).
  assert (E0 : 0 <= e) by (pose proof (Rabs_pos y); lra). assert (DE : 0 <= Rabs d * (e / 6)) by (pose proof (Rabs_pos d); nra).
  set (rest := k5 * (sin (5 * y) - 5 * y) - k1 * (sin y - y) - k7 * (sin (7 * y) - 7 * y) + k11 * (sin (11 * y) - 11 * y)).
  set (q := Rabs d * (e / 6)) in *.
  match goal with |- Rabs ?t <= _ => replace t with
    (- (k9 * (1 - cos (9 * y))) - k3 * (1 - cos (3 * y))
     + 1/2 * (k5 * (1 - cos (5 * y)) + k1 * (1 - cos y) + k7 * (1 - cos (7 * y)) + k11 * (1 - cos (11 * y)))
     + (k9 + k3 - 1/2 * (k5 + k1 + k7 + k11)) + h * ((5 * k5 - k1 - 7 * k7 + 11 * k11) * y + rest)) by (unfold rest; ring) end.
  rewrite O1, O2, O3. replace (5/9 * d * y) with (5/9 * (d * y)) by ring.
  replace (9/100 * Rabs d * e + e ^ 2 / 2) with (54/100 * q + 18 * (e ^ 2 / 36)) by (unfold q; field).
  assert (RB : - (3 * y ^ 2) <= rest <= 3 * y ^ 2) by (unfold rest; lra).
  set (Y := y ^ 2) in *. set (dy := d * y) in *.
  assert (HB1 : - (8661/10000 * (5/9 * q + 3 * Y)) <= h * (5/9 * dy + rest) <= 8661/10000 * (5/9 * q + 3 * Y)).
  { apply product_bound; [rewrite Rabs_pos_eq; lra|apply Rabs_le; lra]. }
  apply Rabs_le. lra.
Qed.

Lemma cubic_halves_positive : 9/100 <= sixths (cubic B C) cos (PI / 6 + y).
Proof.
  unfold sixths. destruct (sixth_angles y) as (_ & _ & _ & _ & _ & _ & -> & -> & -> & -> & -> & ->). pose proof root_3 as R3. set (h := sqrt 3 / 2) in *.
  destruct weights as (W9 & W5 & W1 & W3 & W7 & W11).
  assert (Y2 : y ^ 2 <= 7/10000) by (rewrite <- (pow2_abs y); pose proof (Rabs_pos y); nra). assert (Y0 : 0 <= y ^ 2) by nra.
  pose proof (product_bound _ _ _ _ W5 (cosine_remainder 5 ltac:(lra))) as T5.
  pose proof (product_bound _ _ _ _ W1 (cosine_remainder 1 ltac:(lra))) as T1. rewrite !Rmult_1_l in T1.
  pose proof (product_bound _ _ _ _ W7 (cosine_remainder 7 ltac:(lra))) as T7.
  pose proof (product_bound _ _ _ _ W11 (cosine_remainder 11 ltac:(lra))) as T11.
  pose proof (product_bound _ _ _ _ W9 (sine_bound 9 ltac:(lra))) as U9.
  pose proof (product_bound _ _ _ _ W3 (sine_bound 3 ltac:(lra))) as U3.
  pose proof (product_bound _ _ _ _ W5 (sine_bound 5 ltac:(lra))) as U5.
  pose proof (product_bound _ _ _ _ W1 (sine_bound 1 ltac:(lra))) as U1. rewrite !Rmult_1_l in U1.
  pose proof (product_bound _ _ _ _ W7 (sine_bound 7 ltac:(lra))) as U7.
  pose proof (product_bound _ _ _ _ W11 (sine_bound 11 ltac:(lra))) as U11.
  assert (M : 23/81 <= k1 + k11 - k5 - k7) by (destruct (cubic_sixths B C) as (_ & -> & -> & _ & -> & ->); lra).
  set (rest := k5 * (1 - cos (5 * y)) - k1 * (1 - cos y) + k7 * (1 - cos (7 * y)) - k11 * (1 - cos (11 * y))).
  match goal with |- _ <= ?t => replace t with
    (h * (k1 + k11 - k5 - k7 + rest) + k9 * sin (9 * y) - k3 * sin (3 * y)
     + 1/2 * (- (k5 * sin (5 * y)) - k1 * sin y + k7 * sin (7 * y) + k11 * sin (11 * y))) by (unfold rest; ring) end.
  assert (RB : - (10 * y ^ 2) <= rest) by (unfold rest; lra).
  assert (866/1000 * (27/100) <= h * (k1 + k11 - k5 - k7 + rest)) by nra. lra.
Qed.
End CUBIC_HALVES.

Lemma cubic_halves_responds B C p k range : 0 <= B <= 1 -> 0 <= C <= 1 -> (1 <= p)%Z -> (20 * range <= 2 * p)%Z -> (2 * p - range <= k <= 2 * p + range)%Z ->
  exists P, 9/100 <= P /\ responds (2 * p) (3 * p) 2 (cubic B C) k P (cubic_leak B C (2 * p) range).
Proof.
  intros HB HC Hp HR Hk. set (x := PI * IZR k / IZR (2 * p) / 6). set (y := x - PI / 6). set (e := PI * IZR range / IZR (2 * p)).
  pose proof pi_near as PN. assert (NR : 0 < IZR (2 * p)) by (apply IZR_lt; lia).
  assert (Ex : x = PI / 6 + y) by (unfold y; ring).
  assert (He : e <= 158/1000).
  { unfold e. apply Rmult_le_reg_r with (IZR (2 * p)); [exact NR|]. unfold Rdiv at 1. rewrite Rmult_assoc, Rinv_l, Rmult_1_r by lra.
    apply IZR_le in HR. rewrite (mult_IZR 20) in HR. assert (0 <= IZR range) by (apply (IZR_le 0); lia). nra. }
  assert (Hy : Rabs y <= e / 6).
  { unfold y, x, e. replace (PI * IZR k / IZR (2 * p) / 6 - PI / 6) with (IZR (k - 2 * p) * (PI / IZR (2 * p) / 6)) by (rewrite minus_IZR; field; lra).
    rewrite Rabs_mult. assert (Q : 0 < PI / IZR (2 * p) / 6) by (apply Rdiv_lt_0_compat; [apply Rdiv_lt_0_compat; lra|lra]).
    rewrite (Rabs_pos_eq (PI / IZR (2 * p) / 6)) by lra.
    replace (PI * IZR range / IZR (2 * p) / 6) with (IZR range * (PI / IZR (2 * p) / 6)) by (field; lra).
    apply Rmult_le_compat_r; [lra|]. rewrite <- abs_IZR. apply IZR_le. lia. }
  exists (sixths (cubic B C) cos x). split; [rewrite Ex; apply (cubic_halves_positive B C y e); assumption|].
  intros m. eapply Rle_trans; [apply (halves_responds_2 p k (cubic B C) Hp (cubic_ok B C))|]. fold x. rewrite Ex.
  apply (cubic_halves_leak B C y e); assumption.
Qed.
