(** Responses of particular kernels. *)
From Coq Require Import Reals Lra Lia Psatz.
From Verif Require Import Base Spec SpecTransform SpecInterpolate BaseProofs Kiss KissExact UpscaleProofs AccuracyProofs InterpolateProofs.
Open Scope R_scope.

(** ** Whole factors: no aliasing *)
Section WHOLE.
Variables (N s a : Z) (K : R -> R) (k : Z).
Hypotheses (NP : (1 <= N)%Z) (SP : (1 <= s)%Z) (KO : kernel_ok a K).

Lemma offset_whole i m : offset N (s * N) i m = (IZR (2 * i + 1 - s) / (2 * IZR s)) - IZR m.
Proof. unfold offset. rewrite minus_IZR, plus_IZR, !mult_IZR. field. split; apply IZR_nz; lia. Qed.
Lemma offset_whole_shift i m : offset N (s * N) (i + s * m) m = offset N (s * N) i 0.
Proof. rewrite !offset_whole. replace (2 * (i + s * m) + 1 - s)%Z with (2 * i + 1 - s + 2 * s * m)%Z by lia. rewrite (plus_IZR _ (2 * s * m)), !mult_IZR. field. apply IZR_nz; lia. Qed.

(** a sum over the weights of one sample *)
Lemma phase_whole f m : (forall i, K (offset N (s * N) i m) = 0 -> f i = 0) ->
  rsum f ((m - a) * (s * N) / N) ((m + a + 1) * (s * N) / N + 1) = rsum (fun i => f (i + s * m)%Z) (- (a * s)) (a * s + s).
Proof.
  intros Z0. destruct KO as (A1 & _ & _).
  replace ((m - a) * (s * N))%Z with ((m - a) * s * N)%Z by ring. replace ((m + a + 1) * (s * N))%Z with ((m + a + 1) * s * N)%Z by ring.
  rewrite !Z.div_mul by lia. rewrite rsum_last by nia. rewrite (Z0 ((m + a + 1) * s)%Z).
  - rewrite Rplus_0_r. rewrite <- rsum_shift by nia. f_equal; lia.
  - destruct KO as (_ & _ & KZ). apply KZ. rewrite offset_whole.
    replace (2 * ((m + a + 1) * s) + 1 - s)%Z with (2 * s * m + 2 * s * a + (s + 1))%Z by lia.
    rewrite !plus_IZR, !mult_IZR. assert (P : 1 <= IZR s) by (apply IZR_le; lia). assert (Q : 0 <= IZR a) by (apply (IZR_le 0); lia).
    replace ((2 * IZR s * IZR m + 2 * IZR s * IZR a + (IZR s + 1)) / (2 * IZR s) - IZR m) with (IZR a + (1/2 + / (2 * IZR s))) by (field; lra).
    assert (0 < / (2 * IZR s)) by (apply Rinv_0_lt_compat; lra). rewrite Rabs_pos_eq; lra.
Qed.

Lemma responds_whole : responds N (s * N) a K k (phase_cos N (s * N) a K k 0) 0.
Proof.
  intros m. destruct KO as (A1 & EV & _).
  assert (C : forall m, phase_cos N (s * N) a K k m =
    rsum (fun i => K (offset N (s * N) i 0) * cos (PI * IZR k * offset N (s * N) i 0 / IZR N)) (- (a * s)) (a * s + s)).
  { intros m'. unfold phase_cos. rewrite phase_whole by (intros i ->; ring).
    apply rsum_ext. intros i Hi. rewrite offset_whole_shift. reflexivity. }
  rewrite (C m), (C 0%Z).
  assert (S : phase_sin N (s * N) a K k m = 0).
  { unfold phase_sin. rewrite phase_whole by (intros i ->; ring).
    set (f := fun i => K (offset N (s * N) i 0) * sin (PI * IZR k * offset N (s * N) i 0 / IZR N)).
    rewrite (rsum_ext _ f) by (intros i Hi; unfold f; rewrite offset_whole_shift; reflexivity).
    assert (FL : forall i, f (s - 1 - i)%Z = - f i).
    { intros i. unfold f. replace (offset N (s * N) (s - 1 - i) 0) with (- offset N (s * N) i 0).
      - rewrite EV. replace (PI * IZR k * - offset N (s * N) i 0 / IZR N) with (- (PI * IZR k * offset N (s * N) i 0 / IZR N)) by (field; apply IZR_nz; lia).
        rewrite sin_neg. ring.
      - rewrite !offset_whole. replace (2 * (s - 1 - i) + 1 - s)%Z with (- (2 * i + 1 - s))%Z by lia. rewrite opp_IZR. field. apply IZR_nz; lia. }
    pose proof (rsum_reverse f (2 * (a * s) + s) ltac:(nia) (a * s + s - 1)%Z) as R.
    replace (a * s + s - 1 + 1 - (2 * (a * s) + s))%Z with (- (a * s))%Z in R by lia. replace (a * s + s - 1 + 1)%Z with (a * s + s)%Z in R by lia.
    pose proof (rsum_shift (fun i => - f i) 0 (2 * (a * s) + s) (- (a * s)) ltac:(nia)) as SH.
    replace (0 + - (a * s))%Z with (- (a * s))%Z in SH by lia. replace (2 * (a * s) + s + - (a * s))%Z with (a * s + s)%Z in SH by lia.
    rewrite rsum_opp in SH by nia.
    rewrite (rsum_ext (fun j => f (a * s + s - 1 - j)%Z) (fun j => - f (j + - (a * s))%Z)) in R.
    - rewrite <- SH in R. lra.
    - intros j Hj. rewrite <- FL. f_equal. lia. }
  rewrite S, Rminus_diag_eq by reflexivity. rewrite Rabs_R0. lra.
Qed.

Lemma phase_cos_0 : phase_cos N (s * N) a K k 0 =
  rsum (fun i => K (IZR (2 * i + 1 - s) / (2 * IZR s)) * cos (PI * IZR k / IZR (s * N) / 2 * IZR (2 * i + 1 - s))) (- (a * s)) (a * s + s).
Proof.
  unfold phase_cos. rewrite phase_whole by (intros i ->; ring). apply rsum_ext. intros i Hi. rewrite offset_whole_shift, offset_whole.
  change (IZR 0) with 0. rewrite Rminus_0_r. f_equal. f_equal. rewrite mult_IZR. field. split; apply IZR_nz; lia.
Qed.
End WHOLE.

(** ** The kernels qualify *)
Lemma box_ok : kernel_ok 1 box.
Proof.
  split; [lia|]. split; intros u; unfold box.
  - rewrite Rabs_Ropp. reflexivity.
  - intros H. destruct (Rlt_dec (Rabs u) (1/2)); [lra|reflexivity].
Qed.
Lemma tent_ok : kernel_ok 1 tent.
Proof.
  split; [lia|]. split; intros u; unfold tent.
  - rewrite Rabs_Ropp. reflexivity.
  - intros H. destruct (Rlt_dec (Rabs u) 1); [lra|reflexivity].
Qed.
Lemma catmull_rom_ok : kernel_ok 2 catmull_rom.
Proof.
  split; [lia|]. split; intros u; unfold catmull_rom.
  - rewrite Rabs_Ropp. reflexivity.
  - intros H. destruct (Rlt_dec (Rabs u) 1); [lra|]. destruct (Rlt_dec (Rabs u) 2); [lra|reflexivity].
Qed.

Lemma box_int s j : (1 <= s)%Z -> box (IZR j / (2 * IZR s)) = if (Z.abs j <? s)%Z then 1 else 0.
Proof.
  intros Hs. assert (P : 0 < IZR s) by (apply IZR_lt; lia). unfold box.
  replace (Rabs (IZR j / (2 * IZR s))) with (IZR (Z.abs j) / (2 * IZR s)).
  2:{ rewrite abs_IZR. unfold Rdiv. rewrite Rabs_mult. f_equal. symmetry. apply Rabs_pos_eq. left. apply Rinv_0_lt_compat. lra. }
  destruct (Z.ltb_spec (Z.abs j) s) as [H|H]; destruct (Rlt_dec (IZR (Z.abs j) / (2 * IZR s)) (1/2)) as [L|L]; try reflexivity; exfalso.
  - apply L. apply IZR_lt in H. apply Rmult_lt_reg_r with (2 * IZR s); [lra|]. unfold Rdiv. rewrite !Rmult_assoc, Rinv_l by lra. lra.
  - apply IZR_le in H. apply (Rmult_lt_compat_r (2 * IZR s)) in L; [|lra]. unfold Rdiv in L. rewrite !Rmult_assoc, Rinv_l in L by lra. lra.
Qed.
Lemma tent_int s j : (1 <= s)%Z -> tent (IZR j / (2 * IZR s)) = IZR (Z.max 0 (2 * s - Z.abs j)) / (2 * IZR s).
Proof.
  intros Hs. assert (P : 0 < IZR s) by (apply IZR_lt; lia). unfold tent.
  replace (Rabs (IZR j / (2 * IZR s))) with (IZR (Z.abs j) / (2 * IZR s)).
  2:{ rewrite abs_IZR. unfold Rdiv. rewrite Rabs_mult. f_equal. symmetry. apply Rabs_pos_eq. left. apply Rinv_0_lt_compat. lra. }
  destruct (Rlt_dec (IZR (Z.abs j) / (2 * IZR s)) 1) as [L|L].
  - apply (Rmult_lt_compat_r (2 * IZR s)) in L; [|lra]. unfold Rdiv in L. rewrite !Rmult_assoc, Rinv_l in L by lra.
    rewrite Rmult_1_r, Rmult_1_l, <- mult_IZR in L. apply lt_IZR in L. rewrite Z.max_r by lia. rewrite minus_IZR, mult_IZR. field. lra.
  - rewrite Z.max_l; [unfold Rdiv; ring|]. destruct (Z_le_gt_dec (2 * s) (Z.abs j)) as [G|G]; [lia|]. exfalso. apply L.
    assert (G' : (Z.abs j < 2 * s)%Z) by lia. apply IZR_lt in G'. rewrite mult_IZR in G'.
    apply Rmult_lt_reg_r with (2 * IZR s); [lra|]. unfold Rdiv. rewrite !Rmult_assoc, Rinv_l by lra. lra.
Qed.

(** ** Nearest neighbour *)
Lemma resampled_box N s x i : (1 <= N)%Z -> (1 <= s)%Z -> (0 <= i < s * N)%Z -> resampled N (s * N) 1 box x i = x (i / s)%Z.
Proof.
  intros HN Hs Hi. unfold resampled. replace (i * N / (s * N))%Z with (i / s)%Z by (rewrite Z.div_mul_cancel_r by lia; reflexivity).
  pose proof (Z.div_mod i s ltac:(lia)) as D. pose proof (Z.mod_pos_bound i s ltac:(lia)) as MB. set (q := (i / s)%Z) in *. set (r := (i mod s)%Z) in *.
  assert (W : forall m, box (offset N (s * N) i m) = if (m =? q)%Z then 1 else 0).
  { intros m. rewrite offset_whole by lia. replace (IZR (2 * i + 1 - s) / (2 * IZR s) - IZR m) with (IZR (2 * i + 1 - s - 2 * s * m) / (2 * IZR s)).
    - rewrite box_int by lia. replace (Z.abs (2 * i + 1 - s - 2 * s * m) <? s)%Z with (m =? q)%Z; [reflexivity|].
      destruct (Z.eqb_spec m q) as [->|NE]; symmetry; [apply Z.ltb_lt|apply Z.ltb_ge]; nia.
    - rewrite (minus_IZR _ (2 * s * m)), !mult_IZR. field. apply IZR_nz; lia. }
  rewrite (rsum_split _ _ q) by lia. rewrite (rsum_first _ q) by lia. rewrite !W, Z.eqb_refl.
  rewrite !rsum_zero.
  - rewrite reflected_inside; [ring|lia|]. split; [apply Z.div_pos; lia|apply Z.div_lt_upper_bound; lia].
  - intros j Hj. rewrite W. replace (j =? q)%Z with false by lia. ring.
  - intros j Hj. rewrite W. replace (j =? q)%Z with false by lia. ring.
Qed.

Lemma box_response N s k : (1 <= N)%Z -> (1 <= s)%Z ->
  phase_cos N (s * N) 1 box k 0 * sin (PI * IZR k / IZR (s * N) / 2) = sin (PI * IZR k / IZR N / 2).
Proof.
  intros HN Hs. rewrite phase_cos_0 by (exact box_ok || lia).
  rewrite <- (rsum_widen _ 0 s).
  - set (t := PI * IZR k / IZR (s * N)).
    rewrite (rsum_ext _ (fun r => cos (t * (- IZR s / 2 + IZR r + 1/2)))).
    + rewrite cos_block by lia. replace (t * (- IZR s / 2 + IZR s / 2)) with 0 by field. rewrite cos_0, Rmult_1_l. f_equal.
      unfold t. rewrite mult_IZR. field. split; apply IZR_nz; lia.
    + intros i Hi. rewrite box_int by lia. replace (Z.abs (2 * i + 1 - s) <? s)%Z with true by lia. rewrite Rmult_1_l. f_equal.
      rewrite minus_IZR, plus_IZR, mult_IZR. field.
  - lia.
  - lia.
  - intros i Hi. rewrite box_int by lia. replace (Z.abs (2 * i + 1 - s) <? s)%Z with false by lia. ring.
  - intros i Hi. rewrite box_int by lia. replace (Z.abs (2 * i + 1 - s) <? s)%Z with false by lia. ring.
Qed.
Lemma box_positive N s k : (1 <= N)%Z -> (1 <= s)%Z -> (0 < k < 2 * N)%Z -> 0 < phase_cos N (s * N) 1 box k 0.
Proof.
  intros HN Hs Hk. pose proof (box_response N s k HN Hs) as E.
  pose proof (sin_pos_part k N Hk) as P. pose proof (sin_pos_part k (s * N) ltac:(nia)) as Q. rewrite <- E in P.
  destruct (Rle_or_lt (phase_cos N (s * N) 1 box k 0) 0); [nra|assumption].
Qed.

(** ** Linear *)
(** second differences *)
Lemma rsum_differences W c p lo hi : (lo <= hi)%Z -> W (lo - 1)%Z = 0 -> W lo = 0 -> W (hi - 1)%Z = 0 -> W hi = 0 ->
  rsum (fun i => W i * cos (p * (2 * IZR i + c))) lo hi * (2 - 2 * cos (2 * p)) =
  rsum (fun i => (2 * W i - W (i - 1)%Z - W (i + 1)%Z) * cos (p * (2 * IZR i + c))) lo hi.
Proof.
  intros H W1 W2 W3 W4. set (f := fun i => cos (p * (2 * IZR i + c))).
  assert (T : forall i, f i * (2 - 2 * cos (2 * p)) = 2 * f i - f (i + 1)%Z - f (i - 1)%Z).
  { intros i. unfold f. rewrite plus_IZR, minus_IZR.
    replace (p * (2 * (IZR i + 1) + c)) with (p * (2 * IZR i + c) + 2 * p) by ring.
    replace (p * (2 * (IZR i - 1) + c)) with (p * (2 * IZR i + c) - 2 * p) by ring. rewrite cos_plus, cos_minus. ring. }
  rewrite <- rsum_mul by exact H.
  rewrite (rsum_ext _ (fun i => 2 * W i * f i + (W i * - f (i + 1)%Z + W i * - f (i - 1)%Z))) by (intros i Hi; fold (f i); rewrite Rmult_assoc, T; ring).
  rewrite (rsum_ext (fun i => (2 * W i - W (i - 1)%Z - W (i + 1)%Z) * cos (p * (2 * IZR i + c)))
    (fun i => 2 * W i * f i + (W (i - 1)%Z * - f i + W (i + 1)%Z * - f i))) by (intros i Hi; fold (f i); ring).
  rewrite !rsum_add by exact H. f_equal.
  destruct (Z.eq_dec lo hi) as [->|NE]; [rewrite !rsum_empty by lia; ring|].
  f_equal.
  - pose proof (rsum_shift (fun i => W (i - 1)%Z * - f i) lo hi 1 H) as S. cbv beta in S.
    rewrite (rsum_ext (fun j => W (j + 1 - 1)%Z * - f (j + 1)%Z) (fun i => W i * - f (i + 1)%Z)) in S by (intros; do 2 f_equal; lia).
    rewrite <- S. rewrite rsum_last by lia. rewrite (rsum_first _ lo hi) by lia. rewrite W1, W3. ring.
  - pose proof (rsum_shift (fun i => W (i + 1)%Z * - f i) lo hi (-1) H) as S. cbv beta in S.
    rewrite (rsum_ext (fun j => W (j + -1 + 1)%Z * - f (j + -1)%Z) (fun i => W i * - f (i - 1)%Z)) in S by (intros; do 2 f_equal; lia).
    rewrite <- S. rewrite (rsum_first _ (lo + -1)) by lia. replace (lo + -1 + 1)%Z with lo by lia. rewrite W2.
    replace hi with (hi + -1 + 1)%Z at 2 by lia. rewrite rsum_last by lia. replace (hi + -1 + 1)%Z with hi by lia. rewrite W4. ring.
Qed.

Lemma rsum_point f lo hi p : (lo <= p < hi)%Z -> (forall j, (lo <= j < hi)%Z -> j <> p -> f j = 0) -> rsum f lo hi = f p.
Proof.
  intros H Z0. rewrite (rsum_split f lo p hi) by lia. rewrite (rsum_first f p hi) by lia.
  rewrite !rsum_zero; [ring|intros; apply Z0; lia|intros; apply Z0; lia].
Qed.

Lemma cos_minus_plus a b : cos (a - b) + cos (a + b) = 2 * cos a * cos b.
Proof. rewrite cos_plus, cos_minus. ring. Qed.

Lemma tent_response N s k : (1 <= N)%Z -> (1 <= s)%Z ->
  let p := PI * IZR k / IZR (s * N) / 2 in
  phase_cos N (s * N) 1 tent k 0 * IZR s * (2 - 2 * cos (2 * p)) =
  (if Z.even s then cos p else 1) * (2 - 2 * cos (PI * IZR k / IZR N)).
Proof.
  intros HN Hs p. rewrite phase_cos_0 by (exact tent_ok || lia). fold p.
  assert (SR : 0 < IZR s) by (apply IZR_lt; lia).
  set (V := fun i => Z.max 0 (2 * s - Z.abs (2 * i + 1 - s))%Z).
  rewrite (rsum_widen _ _ _ (- (1 * s) - 2) (1 * s + s + 2)); [|nia|nia| |].
  2:{ intros i Hi. rewrite tent_int by lia. rewrite Z.max_l by lia. unfold Rdiv. ring. }
  2:{ intros i Hi. rewrite tent_int by lia. rewrite Z.max_l by lia. unfold Rdiv. ring. }
  rewrite (rsum_ext _ (fun i => IZR (V i) * cos (p * (2 * IZR i + (1 - IZR s))) * (/ (2 * IZR s)))).
  2:{ intros i Hi. rewrite tent_int by lia. fold (V i). rewrite minus_IZR, plus_IZR, mult_IZR.
      replace (2 * IZR i + 1 - IZR s) with (2 * IZR i + (1 - IZR s)) by ring. unfold Rdiv. ring. }
  rewrite rsum_mul by nia.
  match goal with |- rsum ?f ?lo ?hi * / _ * IZR s * ?d = _ =>
    replace (rsum f lo hi * / (2 * IZR s) * IZR s * d) with (rsum f lo hi * d * (1/2)) by (field; lra) end.
  rewrite (rsum_differences (fun i => IZR (V i))); [|nia|apply (f_equal IZR); unfold V; lia..].
  rewrite (rsum_ext _ (fun i => IZR (2 * V i - V (i - 1) - V (i + 1))%Z * cos (p * IZR (2 * i + 1 - s)))).
  2:{ intros i Hi. rewrite !minus_IZR, plus_IZR, !mult_IZR. replace (2 * IZR i + (1 - IZR s)) with (2 * IZR i + 1 - IZR s) by ring. reflexivity. }
  set (g := fun i => IZR (2 * V i - V (i - 1) - V (i + 1))%Z * cos (p * IZR (2 * i + 1 - s))).
  assert (SP2 : cos (PI * IZR k / IZR N) = cos (2 * IZR s * p)).
  { f_equal. unfold p. rewrite mult_IZR. field. split; apply IZR_nz; lia. }
  rewrite SP2. pose proof (Zmod_even s) as EV. destruct (Z.even s) eqn:EE.
  - (* kinks at -2s-1, -2s+1, -1, 1, 2s-1, 2s+1 *)
    assert (Hh : s = (2 * (s / 2))%Z) by (pose proof (Z.div_mod s 2 ltac:(lia)); lia). set (h := (s / 2)%Z) in *.
    assert (gp : forall i v, (2 * V i - V (i - 1) - V (i + 1) = v)%Z -> g i = IZR v * cos (p * IZR (2 * i + 1 - s))) by (intros i v E; unfold g; rewrite E; reflexivity).
    rewrite (rsum_split g _ (h - s)) by lia. rewrite (rsum_split g (h - s) (h - s + 1)) by lia.
    rewrite (rsum_split g (h - s + 1) h) by lia. rewrite (rsum_split g h (h + 1)) by lia.
    rewrite (rsum_split g (h + 1) (h + s)) by lia.
    rewrite (rsum_point g _ _ (h - s - 1)%Z) by (try lia; intros j Hj NE; rewrite (gp j 0%Z) by (unfold V; lia); ring).
    rewrite (rsum_point g _ _ (h - s)%Z) by (try lia; intros j Hj NE; rewrite (gp j 0%Z) by (unfold V; lia); ring).
    rewrite (rsum_point g _ _ (h - 1)%Z) by (try lia; intros j Hj NE; rewrite (gp j 0%Z) by (unfold V; lia); ring).
    rewrite (rsum_point g _ _ h%Z) by (try lia; intros j Hj NE; rewrite (gp j 0%Z) by (unfold V; lia); ring).
    rewrite (rsum_point g _ _ (h + s - 1)%Z) by (try lia; intros j Hj NE; rewrite (gp j 0%Z) by (unfold V; lia); ring).
    rewrite (rsum_point g _ _ (h + s)%Z) by (try lia; intros j Hj NE; rewrite (gp j 0%Z) by (unfold V; lia); ring).
    rewrite (gp (h - s - 1)%Z (-1)%Z), (gp (h - s)%Z (-1)%Z), (gp (h - 1)%Z 2%Z), (gp h 2%Z), (gp (h + s - 1)%Z (-1)%Z), (gp (h + s)%Z (-1)%Z) by (unfold V; lia).
    replace (2 * (h - s - 1) + 1 - s)%Z with (- (2 * s + 1))%Z by lia. replace (2 * (h - s) + 1 - s)%Z with (- (2 * s - 1))%Z by lia.
    replace (2 * (h - 1) + 1 - s)%Z with (-1)%Z by lia. replace (2 * h + 1 - s)%Z with 1%Z by lia.
    replace (2 * (h + s - 1) + 1 - s)%Z with (2 * s - 1)%Z by lia. replace (2 * (h + s) + 1 - s)%Z with (2 * s + 1)%Z by lia.
    rewrite !opp_IZR, <- !Ropp_mult_distr_r, !cos_neg. rewrite plus_IZR, minus_IZR, mult_IZR.
    replace (p * (2 * IZR s + 1)) with (2 * IZR s * p + p) by ring. replace (p * (2 * IZR s - 1)) with (2 * IZR s * p - p) by ring.
    replace (p * -1) with (- p) by ring. rewrite cos_neg, Rmult_1_r, cos_plus, cos_minus. field.
  - (* kinks at -2s, 0, 2s *)
    assert (Hh : s = (2 * (s / 2) + 1)%Z) by (pose proof (Z.div_mod s 2 ltac:(lia)); lia). set (h := (s / 2)%Z) in *.
    assert (gp : forall i v, (2 * V i - V (i - 1) - V (i + 1) = v)%Z -> g i = IZR v * cos (p * IZR (2 * i + 1 - s))) by (intros i v E; unfold g; rewrite E; reflexivity).
    rewrite (rsum_split g _ (h - s + 1)) by lia. rewrite (rsum_split g (h - s + 1) (h + 1)) by lia.
    rewrite (rsum_point g _ _ (h - s)%Z) by (try lia; intros j Hj NE; rewrite (gp j 0%Z) by (unfold V; lia); ring).
    rewrite (rsum_point g _ _ h%Z) by (try lia; intros j Hj NE; rewrite (gp j 0%Z) by (unfold V; lia); ring).
    rewrite (rsum_point g _ _ (h + s)%Z) by (try lia; intros j Hj NE; rewrite (gp j 0%Z) by (unfold V; lia); ring).
    rewrite (gp (h - s)%Z (-2)%Z), (gp h 4%Z), (gp (h + s)%Z (-2)%Z) by (unfold V; lia).
    replace (2 * (h - s) + 1 - s)%Z with (- (2 * s))%Z by lia. replace (2 * h + 1 - s)%Z with 0%Z by lia.
    replace (2 * (h + s) + 1 - s)%Z with (2 * s)%Z by lia.
    rewrite !opp_IZR, <- !Ropp_mult_distr_r, !cos_neg, Rmult_0_r, cos_0, mult_IZR.
    replace (p * (2 * IZR s)) with (2 * IZR s * p) by ring. field.
Qed.

Lemma cos_below_1 t : 0 < t < 2 * PI -> cos t < 1.
Proof.
  intros H. replace t with (2 * (t / 2)) by field. rewrite cos_2a_sin. pose proof (sin_gt_0 (t / 2) ltac:(lra) ltac:(lra)) as S. nra.
Qed.
Lemma tent_positive N s k : (1 <= N)%Z -> (2 <= s)%Z -> (0 < k < 2 * N)%Z -> 0 < phase_cos N (s * N) 1 tent k 0.
Proof.
  intros HN Hs Hk. pose proof (tent_response N s k HN ltac:(lia)) as E. cbv zeta in E.
  set (p := PI * IZR k / IZR (s * N) / 2) in *.
  assert (PP : 0 < PI) by apply PI_RGT_0.
  assert (NR : 0 < IZR N) by (apply IZR_lt; lia). assert (KR : 0 < IZR k) by (apply IZR_lt; lia).
  assert (KN : IZR k < 2 * IZR N) by (rewrite <- mult_IZR; apply IZR_lt; lia).
  assert (SR : 2 <= IZR s) by (apply IZR_le; lia).
  assert (Q : 0 < PI * IZR k / IZR N < 2 * PI).
  { split; [apply Rdiv_lt_0_compat; [apply Rmult_lt_0_compat; assumption|assumption]|].
    apply Rmult_lt_reg_r with (IZR N); [exact NR|]. unfold Rdiv. rewrite Rmult_assoc, Rinv_l by lra. nra. }
  assert (PE : 2 * IZR s * p = PI * IZR k / IZR N) by (unfold p; rewrite mult_IZR; field; split; apply IZR_nz; lia).
  assert (P0 : 0 < p < PI / 2).
  { rewrite <- PE in Q. split; nra. }
  pose proof (cos_below_1 (PI * IZR k / IZR N) Q) as C1.
  pose proof (cos_below_1 (2 * p) ltac:(lra)) as C2.
  pose proof (cos_gt_0 p ltac:(lra) ltac:(lra)) as C3.
  assert (RP : 0 < (if Z.even s then cos p else 1) * (2 - 2 * cos (PI * IZR k / IZR N))).
  { apply Rmult_lt_0_compat; [destruct (Z.even s); lra|lra]. }
  rewrite <- E in RP. destruct (Rle_or_lt (phase_cos N (s * N) 1 tent k 0) 0) as [L|L]; [|exact L]. exfalso.
  assert (0 < IZR s * (2 - 2 * cos (2 * p))) by nra. nra.
Qed.

(** ** Cubic, twice the size *)
Lemma cos_3 t : cos (3 * t) = 4 * cos t ^ 3 - 3 * cos t.
Proof.
  replace (3 * t) with (2 * t + t) by ring. rewrite cos_plus, cos_2a_cos, sin_2a.
  pose proof (sin2_cos2 t) as Q. unfold Rsqr in Q.
  replace (2 * sin t * cos t * sin t) with (2 * cos t * (sin t * sin t)) by ring. replace (sin t * sin t) with (1 - cos t * cos t) by lra. ring.
Qed.
Lemma cos_5 t : cos (5 * t) = 16 * cos t ^ 5 - 20 * cos t ^ 3 + 5 * cos t.
Proof.
  pose proof (cos_minus_plus (3 * t) (2 * t)) as E. replace (3 * t - 2 * t) with t in E by ring. replace (3 * t + 2 * t) with (5 * t) in E by ring.
  rewrite cos_3, cos_2a_cos in E. apply Rplus_eq_reg_l with (cos t). rewrite E. ring.
Qed.
Lemma cos_7 t : cos (7 * t) = 64 * cos t ^ 7 - 112 * cos t ^ 5 + 56 * cos t ^ 3 - 7 * cos t.
Proof.
  pose proof (cos_minus_plus (5 * t) (2 * t)) as E. replace (5 * t - 2 * t) with (3 * t) in E by ring. replace (5 * t + 2 * t) with (7 * t) in E by ring.
  rewrite cos_3, cos_5, cos_2a_cos in E. apply Rplus_eq_reg_l with (4 * cos t ^ 3 - 3 * cos t). rewrite E. ring.
Qed.
Lemma sin_3 t : sin (3 * t) = 3 * sin t - 4 * sin t ^ 3.
Proof.
  replace (3 * t) with (2 * t + t) by ring. rewrite sin_plus, cos_2a_sin, sin_2a.
  pose proof (sin2_cos2 t) as Q. unfold Rsqr in Q.
  replace (2 * sin t * cos t * cos t) with (2 * sin t * (cos t * cos t)) by ring. replace (cos t * cos t) with (1 - sin t * sin t) by lra. ring.
Qed.
Lemma sin_5 t : sin (5 * t) = 16 * sin t ^ 5 - 20 * sin t ^ 3 + 5 * sin t.
Proof.
  assert (E : sin (3 * t - 2 * t) + sin (3 * t + 2 * t) = 2 * sin (3 * t) * cos (2 * t)) by (rewrite sin_plus, sin_minus; ring).
  replace (3 * t - 2 * t) with t in E by ring. replace (3 * t + 2 * t) with (5 * t) in E by ring.
  rewrite sin_3, cos_2a_sin in E. apply Rplus_eq_reg_l with (sin t). rewrite E. ring.
Qed.

Lemma catmull_near u : 0 <= u < 1 -> catmull_rom u = 3/2 * u ^ 3 - 5/2 * u ^ 2 + 1.
Proof. intros H. unfold catmull_rom. rewrite Rabs_pos_eq by lra. destruct (Rlt_dec u 1); [reflexivity|lra]. Qed.
Lemma catmull_far u : 1 <= u < 2 -> catmull_rom u = - (1/2) * u ^ 3 + 5/2 * u ^ 2 - 4 * u + 2.
Proof. intros H. unfold catmull_rom. rewrite Rabs_pos_eq by lra. destruct (Rlt_dec u 1); [lra|]. destruct (Rlt_dec u 2); [reflexivity|lra]. Qed.

Lemma catmull_response N k : (1 <= N)%Z ->
  let c := cos (PI * IZR k / IZR (2 * N) / 2) in phase_cos N (2 * N) 2 catmull_rom k 0 = c ^ 3 * (2 + 3 * c ^ 2 - 3 * c ^ 4).
Proof.
  intros HN c. rewrite phase_cos_0 by (exact catmull_rom_ok || lia). set (p := PI * IZR k / IZR (2 * N) / 2) in *.
  unfold rsum. change (zrange (- (2 * 2)) (2 * 2 + 2)) with [-4; -3; -2; -1; 0; 1; 2; 3; 4; 5]%Z. cbn [fold_right].
  change (2 * -4 + 1 - 2)%Z with (-9)%Z. change (2 * -3 + 1 - 2)%Z with (-7)%Z. change (2 * -2 + 1 - 2)%Z with (-5)%Z.
  change (2 * -1 + 1 - 2)%Z with (-3)%Z. change (2 * 0 + 1 - 2)%Z with (-1)%Z. change (2 * 1 + 1 - 2)%Z with 1%Z.
  change (2 * 2 + 1 - 2)%Z with 3%Z. change (2 * 3 + 1 - 2)%Z with 5%Z. change (2 * 4 + 1 - 2)%Z with 7%Z. change (2 * 5 + 1 - 2)%Z with 9%Z.
  destruct catmull_rom_ok as (_ & EV & FAR).
  assert (FL : forall j, catmull_rom (IZR (Z.neg j) / (2 * 2)) = catmull_rom (IZR (Z.pos j) / (2 * 2))).
  { intros j. rewrite <- EV. f_equal. change (Z.neg j) with (- Z.pos j)%Z. rewrite opp_IZR. field. }
  assert (CF : forall j, cos (p * IZR (Z.neg j)) = cos (p * IZR (Z.pos j))).
  { intros j. change (Z.neg j) with (- Z.pos j)%Z. rewrite opp_IZR, <- Ropp_mult_distr_r, cos_neg. reflexivity. }
  rewrite !FL, !CF.
  rewrite (FAR (9 / (2 * 2))) by (rewrite Rabs_pos_eq by lra; lra).
  rewrite (catmull_near (1 / (2 * 2))), (catmull_near (3 / (2 * 2))), (catmull_far (5 / (2 * 2))), (catmull_far (7 / (2 * 2))) by lra.
  rewrite (Rmult_comm p 3), (Rmult_comm p 5), (Rmult_comm p 7), (Rmult_1_r p), cos_3, cos_5, cos_7. fold c. field.
Qed.
Lemma catmull_positive N k : (1 <= N)%Z -> (0 < k < 2 * N)%Z -> 0 < phase_cos N (2 * N) 2 catmull_rom k 0.
Proof.
  intros HN Hk. rewrite catmull_response by exact HN. cbv zeta. set (p := PI * IZR k / IZR (2 * N) / 2).
  assert (PP : 0 < PI) by apply PI_RGT_0.
  assert (NR : 0 < IZR N) by (apply IZR_lt; lia). assert (KR : 0 < IZR k) by (apply IZR_lt; lia).
  assert (KN : IZR k < 2 * IZR N) by (rewrite <- mult_IZR; apply IZR_lt; lia).
  assert (P0 : - (PI / 2) < p < PI / 2).
  { unfold p. rewrite mult_IZR. split.
    - apply Rlt_trans with 0; [lra|]. apply Rdiv_lt_0_compat; [|lra]. apply Rdiv_lt_0_compat; nra.
    - apply Rmult_lt_reg_r with (2 * (2 * IZR N)); [lra|]. replace (PI * IZR k / (2 * IZR N) / 2 * (2 * (2 * IZR N))) with (PI * IZR k) by (field; lra). nra. }
  pose proof (cos_gt_0 p (proj1 P0) (proj2 P0)) as C. pose proof (COS_bound p) as (_ & C1). set (c := cos p) in *.
  apply Rmult_lt_0_compat; [apply pow_lt; exact C|].
  assert (c ^ 4 <= c ^ 2) by (assert (0 <= c ^ 2 <= 1) by nra; replace (c ^ 4) with (c ^ 2 * c ^ 2) by ring; nra). lra.
Qed.

(** ** Linear, from 2p to 3p samples *)
Section THREE_HALVES.
Variables (p k : Z).
Hypothesis P1 : (1 <= p)%Z.
Let x := PI * IZR k / IZR (2 * p) / 6.
Lemma offset_halves i m : offset (2 * p) (3 * p) i m = IZR (4 * i - 6 * m - 1) / 6.
Proof. unfold offset. rewrite !minus_IZR, !mult_IZR. field. apply IZR_nz; lia. Qed.
Lemma tent_sixth j : tent (IZR j / 6) = IZR (Z.max 0 (6 - Z.abs j)) / 6.
Proof. pose proof (tent_int 3 j ltac:(lia)) as T. replace (2 * 3)%R with 6 in T by ring. exact T. Qed.
Lemma halves_terms (wave : R -> R) i m : tent (offset (2 * p) (3 * p) i m) * wave (PI * IZR k * offset (2 * p) (3 * p) i m / IZR (2 * p)) =
  IZR (Z.max 0 (6 - Z.abs (4 * i - 6 * m - 1))) / 6 * wave (x * IZR (4 * i - 6 * m - 1)).
Proof.
  rewrite offset_halves, tent_sixth. f_equal. f_equal. unfold x. rewrite (mult_IZR 2 p). field. apply IZR_nz; lia.
Qed.
Lemma halves_sum (wave : R -> R) m :
  rsum (fun i => tent (offset (2 * p) (3 * p) i m) * wave (PI * IZR k * offset (2 * p) (3 * p) i m / IZR (2 * p)))
    ((m - 1) * (3 * p) / (2 * p)) ((m + 1 + 1) * (3 * p) / (2 * p) + 1) =
  let s := if Z.even m then 1%Z else (-1)%Z in
  5/6 * wave (x * IZR (- s)) + 1/2 * wave (x * IZR (3 * s)) + 1/6 * wave (x * IZR (- (5 * s))).
Proof.
  replace ((m - 1) * (3 * p))%Z with (3 * (m - 1) * p)%Z by ring. replace ((m + 1 + 1) * (3 * p))%Z with (3 * (m + 2) * p)%Z by ring.
  rewrite !Z.div_mul_cancel_r by lia. rewrite (rsum_ext _ _ _ _ (fun i _ => halves_terms wave i m)).
  pose proof (Zmod_even m) as EV. pose proof (Z.div_mod m 2 ltac:(lia)) as D. set (r := (m / 2)%Z) in *.
  set (g := fun i => IZR (Z.max 0 (6 - Z.abs (4 * i - 6 * m - 1))) / 6 * wave (x * IZR (4 * i - 6 * m - 1))).
  assert (G : forall i j v, (4 * i - 6 * m - 1 = j)%Z -> Z.max 0 (6 - Z.abs j) = v -> g i = IZR v / 6 * wave (x * IZR j))
    by (intros i j v <- <-; reflexivity).
  assert (Z0 : forall i, (6 <= Z.abs (4 * i - 6 * m - 1))%Z -> g i = 0) by (intros i H; unfold g; rewrite Z.max_l by lia; unfold Rdiv; ring).
  destruct (Z.even m) eqn:E; cbv zeta.
  - assert (M2 : m = (2 * r)%Z) by lia.
    replace (3 * (m - 1) / 2)%Z with (3 * r - 2)%Z by (apply Z.div_unique with 1%Z; lia).
    replace (3 * (m + 2) / 2)%Z with (3 * r + 3)%Z by (apply Z.div_unique with 0%Z; lia).
    do 6 (rewrite rsum_first by lia). rewrite rsum_empty by lia. fold (g (3 * r - 2)%Z).
    rewrite (Z0 (3 * r - 2)%Z) by lia.
    change (0 + (g (3 * r - 2 + 1)%Z + (g (3 * r - 2 + 1 + 1)%Z + (g (3 * r - 2 + 1 + 1 + 1)%Z + (g (3 * r - 2 + 1 + 1 + 1 + 1)%Z + (g (3 * r - 2 + 1 + 1 + 1 + 1 + 1)%Z + 0))))) =
      5/6 * wave (x * IZR (- (1))) + 1/2 * wave (x * IZR (3 * 1)) + 1/6 * wave (x * IZR (- (5 * 1)))).
    rewrite (G _ (-5)%Z 1%Z), (G _ (-1)%Z 5%Z), (G _ 3%Z 3%Z), !Z0 by lia. cbn [Z.opp Z.mul Pos.mul Pos.add Pos.succ]. field.
  - assert (M2 : m = (2 * r + 1)%Z) by lia.
    replace (3 * (m - 1) / 2)%Z with (3 * r)%Z by (apply Z.div_unique with 0%Z; lia).
    replace (3 * (m + 2) / 2)%Z with (3 * r + 4)%Z by (apply Z.div_unique with 1%Z; lia).
    do 5 (rewrite rsum_first by lia). rewrite rsum_empty by lia.
    change (g (3 * r)%Z + (g (3 * r + 1)%Z + (g (3 * r + 1 + 1)%Z + (g (3 * r + 1 + 1 + 1)%Z + (g (3 * r + 1 + 1 + 1 + 1)%Z + 0)))) =
      5/6 * wave (x * IZR (- (-1))) + 1/2 * wave (x * IZR (3 * -1)) + 1/6 * wave (x * IZR (- (5 * -1)))).
    rewrite (G (3 * r + 1)%Z (-3)%Z 3%Z), (G (3 * r + 1 + 1)%Z 1%Z 5%Z), (G (3 * r + 1 + 1 + 1)%Z 5%Z 1%Z), !Z0 by lia. cbn [Z.opp Z.mul Pos.mul Pos.add Pos.succ]. field.
Qed.

Lemma halves_cos m : phase_cos (2 * p) (3 * p) 1 tent k m = cos x / 6 * (4 * cos x ^ 2 - 1) ^ 2.
Proof.
  unfold phase_cos. rewrite (halves_sum cos m). cbv zeta.
  assert (F : 5/6 * cos x + 1/2 * cos (3 * x) + 1/6 * cos (5 * x) = cos x / 6 * (4 * cos x ^ 2 - 1) ^ 2) by (rewrite cos_3, cos_5; field).
  rewrite <- F. destruct (Z.even m); cbn [Z.opp Z.mul Pos.mul Pos.add Pos.succ].
  - replace (x * -1) with (- x) by ring. replace (x * 3) with (3 * x) by ring. replace (x * -5) with (- (5 * x)) by ring. rewrite !cos_neg. reflexivity.
  - replace (x * 1) with x by ring. replace (x * -3) with (- (3 * x)) by ring. replace (x * 5) with (5 * x) by ring. rewrite !cos_neg. reflexivity.
Qed.
Lemma halves_sin m : Rabs (phase_sin (2 * p) (3 * p) 1 tent k m) = Rabs (sin x) / 6 * (1 - 4 * sin x ^ 2) ^ 2.
Proof.
  unfold phase_sin. rewrite (halves_sum sin m). cbv zeta.
  assert (F : 5/6 * sin x - 1/2 * sin (3 * x) + 1/6 * sin (5 * x) = sin x * ((1 - 4 * sin x ^ 2) ^ 2 / 6)) by (rewrite sin_3, sin_5; field).
  assert (V : Rabs (sin x * ((1 - 4 * sin x ^ 2) ^ 2 / 6)) = Rabs (sin x) / 6 * (1 - 4 * sin x ^ 2) ^ 2).
  { rewrite Rabs_mult, (Rabs_pos_eq ((1 - 4 * sin x ^ 2) ^ 2 / 6)); [field|]. pose proof (pow2_ge_0 (1 - 4 * sin x ^ 2)). lra. }
  rewrite <- V, <- F. destruct (Z.even m); cbn [Z.opp Z.mul Pos.mul Pos.add Pos.succ].
  - replace (x * -1) with (- x) by ring. replace (x * 3) with (3 * x) by ring. replace (x * -5) with (- (5 * x)) by ring. rewrite !sin_neg.
    rewrite <- Rabs_Ropp. f_equal. ring.
  - replace (x * 1) with x by ring. replace (x * -3) with (- (3 * x)) by ring. replace (x * 5) with (5 * x) by ring. rewrite !sin_neg.
    f_equal. ring.
Qed.
End THREE_HALVES.

Lemma sin_close a b : Rabs (sin a - sin b) <= Rabs (a - b).
Proof.
  destruct (MVT_abs sin cos a b) as (c & E & _).
  - intros c _. apply derivable_pt_lim_sin.
  - rewrite <- Rabs_Ropp. replace (- (sin a - sin b)) with (sin b - sin a) by ring. rewrite E.
    rewrite <- (Rabs_Ropp (a - b)). replace (- (a - b)) with (b - a) by ring.
    assert (Rabs (cos c) <= 1) by (apply Rabs_le; pose proof (COS_bound c); lra). pose proof (Rabs_pos (b - a)). nra.
Qed.

Lemma halves_responds p k range : (1 <= p)%Z -> (0 < range < 2 * p)%Z -> (2 * p - range <= k <= 2 * p + range)%Z ->
  exists P, 0 < P /\ responds (2 * p) (3 * p) 1 tent k P ((PI * IZR range / IZR (2 * p)) ^ 2 / 6).
Proof.
  intros Hp Hr Hk. set (x := PI * IZR k / IZR (2 * p) / 6). exists (cos x / 6 * (4 * cos x ^ 2 - 1) ^ 2).
  assert (PP : 0 < PI) by apply PI_RGT_0.
  assert (NR : 0 < IZR (2 * p)) by (apply IZR_lt; lia).
  assert (KR : 0 < IZR k) by (apply IZR_lt; lia).
  assert (KN : IZR k < 2 * IZR (2 * p)) by (rewrite <- mult_IZR; apply IZR_lt; lia).
  assert (X : 0 < x < PI / 3).
  { unfold x. split; [apply Rdiv_lt_0_compat; [|lra]; apply Rdiv_lt_0_compat; nra|].
    apply Rmult_lt_reg_r with (6 * IZR (2 * p)); [lra|]. replace (PI * IZR k / IZR (2 * p) / 6 * (6 * IZR (2 * p))) with (PI * IZR k) by (field; lra). nra. }
  split.
  - assert (C : 1/2 < cos x) by (rewrite <- cos_PI3; apply cos_decreasing_1; lra).
    assert (1/4 < cos x ^ 2) by nra. apply Rmult_lt_0_compat; [lra|]. apply pow_lt. lra.
  - intros m. rewrite halves_cos, halves_sin by exact Hp. fold x.
    rewrite Rminus_diag_eq by reflexivity. rewrite Rabs_R0, Rplus_0_l.
    assert (E : Rabs (x - PI / 6) <= PI * IZR range / IZR (2 * p) / 6).
    { replace (x - PI / 6) with (IZR (k - 2 * p) * (PI / IZR (2 * p) / 6)) by (unfold x; rewrite minus_IZR; field; lra).
      rewrite Rabs_mult. assert (Q : 0 < PI / IZR (2 * p) / 6) by (apply Rdiv_lt_0_compat; [apply Rdiv_lt_0_compat; lra|lra]).
      rewrite (Rabs_pos_eq (PI / IZR (2 * p) / 6)) by lra.
      replace (PI * IZR range / IZR (2 * p) / 6) with (IZR range * (PI / IZR (2 * p) / 6)) by (field; lra).
      apply Rmult_le_compat_r; [lra|]. rewrite <- abs_IZR. apply IZR_le. lia. }
    pose proof (sin_close x (PI / 6)) as S. rewrite sin_PI6 in S. pose proof (SIN_bound x) as SB.
    pose proof (sin_gt_0 x ltac:(lra) ltac:(lra)) as SP.
    set (e := PI * IZR range / IZR (2 * p)) in *. set (v := sin x) in *.
    assert (D : Rabs (1 - 4 * v ^ 2) <= e).
    { replace (1 - 4 * v ^ 2) with ((v - 1/2) * (-4 * (v + 1/2))) by field. rewrite Rabs_mult.
      assert (Rabs (-4 * (v + 1/2)) <= 6) by (apply Rabs_le; lra). pose proof (Rabs_pos (v - 1/2)). nra. }
    rewrite (Rabs_pos_eq v) by lra. rewrite <- (pow2_abs (1 - 4 * v ^ 2)).
    pose proof (Rabs_pos (1 - 4 * v ^ 2)) as A0. set (w := Rabs (1 - 4 * v ^ 2)) in *.
    assert (w ^ 2 <= e ^ 2) by nra. assert (0 <= w ^ 2) by nra. nra.
Qed.
