(** Coefficients of images scaled up by interpolation. *)
From Coq Require Import Reals Lra Lia Psatz.
From Verif Require Import Base Spec SpecTransform SpecInterpolate BaseProofs Kiss KissExact UpscaleProofs KissRound AccuracyProofs.
Open Scope R_scope.

(** ** Sums *)
Lemma rsum_zero f lo hi : (forall j, (lo <= j < hi)%Z -> f j = 0) -> rsum f lo hi = 0.
Proof.
  intros H. destruct (Z_lt_le_dec hi lo) as [L|L]; [apply rsum_empty; lia|].
  rewrite (rsum_ext f (fun j => 0 * 0)) by (intros; rewrite H by assumption; ring). rewrite rsum_mul by exact L. ring.
Qed.
Lemma rsum_widen f lo hi lo' hi' : (lo' <= lo <= hi)%Z -> (hi <= hi')%Z ->
  (forall j, (lo' <= j < lo)%Z -> f j = 0) -> (forall j, (hi <= j < hi')%Z -> f j = 0) -> rsum f lo hi = rsum f lo' hi'.
Proof.
  intros H1 H2 Z1 Z2. rewrite (rsum_split f lo' lo hi') by lia. rewrite (rsum_split f lo hi hi') by lia.
  rewrite (rsum_zero f lo' lo) by assumption. rewrite (rsum_zero f hi hi') by assumption. ring.
Qed.
Lemma rsum_flip f A : (0 <= A)%Z -> rsum f (- A) A = rsum (fun j => f (-1 - j)%Z) (- A) A.
Proof.
  intros H. pose proof (rsum_reverse f (2 * A) ltac:(lia) (A - 1)%Z) as R.
  replace (A - 1 + 1 - 2 * A)%Z with (- A)%Z in R by lia. replace (A - 1 + 1)%Z with A in R by lia. rewrite <- R.
  pose proof (rsum_shift (fun j => f (-1 - j)%Z) 0 (2 * A) (- A) ltac:(lia)) as S.
  replace (0 + - A)%Z with (- A)%Z in S by lia. replace (2 * A + - A)%Z with A in S by lia. rewrite S.
  apply rsum_ext. intros j Hj. f_equal. lia.
Qed.
Lemma rsum_negate f a : (0 <= a)%Z -> rsum f (- a) (a + 1) = rsum (fun t => f (- t)%Z) (- a) (a + 1).
Proof.
  intros H. pose proof (rsum_reverse f (2 * a + 1) ltac:(lia) a) as R.
  replace (a + 1 - (2 * a + 1))%Z with (- a)%Z in R by lia. rewrite <- R.
  pose proof (rsum_shift (fun j => f (- j)%Z) 0 (2 * a + 1) (- a) ltac:(lia)) as S.
  replace (0 + - a)%Z with (- a)%Z in S by lia. replace (2 * a + 1 + - a)%Z with (a + 1)%Z in S by lia. rewrite S.
  apply rsum_ext. intros j Hj. f_equal. lia.
Qed.
(** blocks of 2c around 0 *)
Lemma rsum_lattice f c a : (0 <= c)%Z -> (0 <= a)%Z ->
  rsum f (- (c + 2 * c * a)) (c + 2 * c * a) = rsum (fun t => rsum (fun j => f (j + 2 * c * t)%Z) (- c) c) (- a) (a + 1).
Proof.
  intros Hc Ha.
  pose proof (rsum_shift f 0 (2 * c * (2 * a + 1)) (- (c + 2 * c * a)) ltac:(nia)) as S.
  replace (0 + - (c + 2 * c * a))%Z with (- (c + 2 * c * a))%Z in S by lia.
  replace (2 * c * (2 * a + 1) + - (c + 2 * c * a))%Z with (c + 2 * c * a)%Z in S by lia. rewrite S, rsum_blocks by lia.
  pose proof (rsum_shift (fun t => rsum (fun j => f (j + 2 * c * t)%Z) (- c) c) 0 (2 * a + 1) (- a) ltac:(lia)) as S2.
  replace (0 + - a)%Z with (- a)%Z in S2 by lia. replace (2 * a + 1 + - a)%Z with (a + 1)%Z in S2 by lia. rewrite S2.
  apply rsum_ext. intros t Ht.
  pose proof (rsum_shift (fun j => f (j + 2 * c * (t + - a))%Z) 0 (2 * c) (- c) ltac:(lia)) as S3.
  replace (0 + - c)%Z with (- c)%Z in S3 by lia. replace (2 * c + - c)%Z with c in S3 by lia. rewrite S3.
  apply rsum_ext. intros j Hj. f_equal. lia.
Qed.
Lemma rsum_interchange f lo hi lo' hi' : (lo <= hi)%Z -> (lo' <= hi')%Z ->
  rsum (fun y => rsum (fun x => f y x) lo' hi') lo hi = rsum (fun x => rsum (fun y => f y x) lo hi) lo' hi'.
Proof.
  intros H H'. revert hi H. apply csum_ind.
  - rewrite rsum_empty by lia. symmetry. apply rsum_zero. intros. apply rsum_empty. lia.
  - intros hi H IH. rewrite rsum_last, IH by lia. rewrite <- rsum_add by lia.
    apply rsum_ext. intros x Hx. rewrite rsum_last by lia. reflexivity.
Qed.
Lemma rsum_bounded f lo hi B : (lo <= hi)%Z -> (forall j, (lo <= j < hi)%Z -> Rabs (f j) <= B) -> Rabs (rsum f lo hi) <= IZR (hi - lo) * B.
Proof.
  intros H HB. pose proof (rsum_shift f 0 (hi - lo) lo ltac:(lia)) as S. rewrite Z.add_0_l in S.
  replace (hi - lo + lo)%Z with hi in S by lia. rewrite S. apply rsum_bound; [lia|]. intros; apply HB; lia.
Qed.

(** ** Mirrored samples *)
Section LINE.
Variables (N : Z) (x : Z -> R).
Hypothesis NP : (1 <= N)%Z.
Lemma reflected_inside j : (0 <= j < N)%Z -> reflected N x j = x j.
Proof. intros H. unfold reflected. rewrite Z.mod_small by lia. replace (j <? N)%Z with true by lia. reflexivity. Qed.
Lemma reflected_period j t : reflected N x (j + 2 * N * t) = reflected N x j.
Proof. unfold reflected. replace (j + 2 * N * t)%Z with (j + t * (2 * N))%Z by lia. rewrite Z.mod_add by lia. reflexivity. Qed.
Lemma reflected_flip j : reflected N x (-1 - j) = reflected N x j.
Proof.
  unfold reflected. pose proof (Z.mod_pos_bound j (2 * N) ltac:(lia)) as B. pose proof (Z.div_mod j (2 * N) ltac:(lia)) as E.
  set (r := (j mod (2 * N))%Z) in *.
  assert (R : ((-1 - j) mod (2 * N) = 2 * N - 1 - r)%Z).
  { symmetry. apply Z.mod_unique with (- (j / (2 * N)) - 1)%Z; [lia|nia]. }
  rewrite R. f_equal. destruct (Z.ltb_spec r N), (Z.ltb_spec (2 * N - 1 - r) N); lia.
Qed.
Lemma reflected_bound G : (forall j, (0 <= j < N)%Z -> Rabs (x j) <= G) -> forall j, Rabs (reflected N x j) <= G.
Proof.
  intros H j. unfold reflected. pose proof (Z.mod_pos_bound j (2 * N) ltac:(lia)) as B. apply H.
  destruct (Z.ltb_spec (j mod (2 * N)) N); lia.
Qed.
End LINE.

Lemma reflected_ext N x y j : (1 <= N)%Z -> (forall i, (0 <= i < N)%Z -> x i = y i) -> reflected N x j = reflected N y j.
Proof.
  intros HN H. unfold reflected. pose proof (Z.mod_pos_bound j (2 * N) ltac:(lia)) as B. apply H.
  destruct (Z.ltb_spec (j mod (2 * N)) N); lia.
Qed.

Lemma cos_2kPI t k : cos (t + 2 * IZR k * PI) = cos t.
Proof.
  destruct (Z_le_gt_dec 0 k) as [H|H].
  - replace k with (Z.of_nat (Z.to_nat k)) by lia. rewrite <- INR_IZR_INZ. apply cos_period.
  - rewrite <- (cos_period _ (Z.to_nat (- k))). f_equal. rewrite INR_IZR_INZ, Z2Nat.id by lia. rewrite opp_IZR. ring.
Qed.

(** the transform is a sum over a whole period *)
Lemma dct_period N x k : (1 <= N)%Z ->
  dct N x k = rsum (fun m => reflected N x m * cos (PI * IZR k * (IZR m + 1/2) / IZR N)) (- N) N.
Proof.
  intros HN. set (c := fun m => reflected N x m * cos (PI * IZR k * (IZR m + 1/2) / IZR N)).
  assert (C : forall m, c (-1 - m)%Z = c m).
  { intros m. unfold c. rewrite reflected_flip by exact HN. f_equal.
    rewrite <- (cos_neg (PI * IZR k * (IZR m + 1/2) / IZR N)). f_equal. rewrite minus_IZR. field. apply IZR_nz; lia. }
  rewrite (rsum_split c (- N) 0 N) by lia.
  pose proof (rsum_reverse c N ltac:(lia) (-1)%Z) as R. replace (-1 + 1 - N)%Z with (- N)%Z in R by lia. change (-1 + 1)%Z with 0%Z in R.
  rewrite <- R. rewrite (rsum_ext (fun j => c (-1 - j)%Z) c) by (intros; apply C).
  unfold dct. rewrite (rsum_ext _ c).
  - ring.
  - intros j Hj. unfold c. rewrite reflected_inside by lia. reflexivity.
Qed.

(** ** Interpolation *)
Section KERNEL.
Variables (N M a : Z) (K : R -> R) (x : Z -> R) (k : Z).
Hypotheses (N1 : (1 <= N <= M)%Z) (KO : kernel_ok a K).

Lemma offset_flip i m : offset N M (-1 - i) (-1 - m) = - offset N M i m.
Proof. unfold offset. rewrite !minus_IZR. field. apply IZR_nz; lia. Qed.
Lemma offset_period i m t : offset N M (i + 2 * M * t) (m + 2 * N * t) = offset N M i m.
Proof. unfold offset. rewrite !plus_IZR, !mult_IZR. field. apply IZR_nz; lia. Qed.

(** which samples count *)
Lemma div_bounds p q : (0 < q)%Z -> IZR (p / q) <= IZR p / IZR q < IZR (p / q) + 1.
Proof.
  intros H. assert (P : 0 < IZR q) by (apply IZR_lt; lia). pose proof (Z.div_mod p q ltac:(lia)) as E. pose proof (Z.mod_pos_bound p q H) as B.
  assert (L : (q * (p / q) <= p)%Z) by lia. assert (U : (p + 1 <= q * (p / q) + q)%Z) by lia.
  apply IZR_le in L, U. rewrite !plus_IZR, !mult_IZR in *.
  split; apply Rmult_le_reg_r with (IZR q) || apply Rmult_lt_reg_r with (IZR q); try exact P; unfold Rdiv; rewrite Rmult_assoc, Rinv_l by lra; lra.
Qed.
Lemma ratio_bounds : 0 < IZR N / IZR M <= 1.
Proof.
  assert (P : 0 < IZR N) by (apply IZR_lt; lia). assert (Q : IZR N <= IZR M) by (apply IZR_le; lia).
  split; [apply Rdiv_lt_0_compat; lra|]. apply Rmult_le_reg_r with (IZR M); [lra|]. unfold Rdiv. rewrite Rmult_assoc, Rinv_l by lra. lra.
Qed.
Lemma weight_zero_m i m : (m < i * N / M - a \/ i * N / M + a < m)%Z -> K (offset N M i m) = 0.
Proof.
  destruct KO as (A1 & _ & Z0). intros H. apply Z0. pose proof (div_bounds (i * N) M ltac:(lia)) as B. pose proof ratio_bounds as RB.
  assert (E : offset N M i m = IZR (i * N) / IZR M + (IZR N / IZR M) / 2 - 1/2 - IZR m).
  { unfold offset. rewrite mult_IZR. field. apply IZR_nz; lia. }
  rewrite E. set (q := (i * N / M)%Z) in *. destruct H as [H|H].
  - assert (H' : (m + 1 <= q - a)%Z) by lia. apply IZR_le in H'. rewrite plus_IZR, minus_IZR in H'.
    rewrite Rabs_pos_eq; lra || (assert (0 <= IZR a) by (apply (IZR_le 0); lia); lra).
  - assert (H' : (q + a + 1 <= m)%Z) by lia. apply IZR_le in H'. rewrite !plus_IZR in H'.
    assert (0 <= IZR a) by (apply (IZR_le 0); lia). rewrite Rabs_left1; lra.
Qed.
Lemma weight_zero_i i m : (i < (m - a) * M / N \/ (m + a + 1) * M / N < i)%Z -> K (offset N M i m) = 0.
Proof.
  destruct KO as (A1 & _ & Z0). intros H. apply Z0. pose proof (div_bounds ((m - a) * M) N ltac:(lia)) as B1.
  pose proof (div_bounds ((m + a + 1) * M) N ltac:(lia)) as B2. pose proof ratio_bounds as RB.
  assert (P : 0 < IZR N) by (apply IZR_lt; lia). assert (Q : 0 < IZR M) by (apply IZR_lt; lia).
  assert (AP : 0 <= IZR a) by (apply (IZR_le 0); lia).
  rewrite mult_IZR in B1, B2. rewrite minus_IZR in B1. rewrite !plus_IZR in B2.
  set (r := IZR N / IZR M) in *.
  assert (E : offset N M i m = (IZR i + 1/2) * r - (IZR m + 1/2)) by (unfold offset, r; field; lra).
  assert (D1 : (IZR m - IZR a) * IZR M / IZR N * r = IZR m - IZR a) by (unfold r; field; lra).
  assert (D2 : (IZR m + IZR a + 1) * IZR M / IZR N * r = IZR m + IZR a + 1) by (unfold r; field; lra).
  destruct H as [H|H].
  - assert (H' : (i + 1 <= (m - a) * M / N)%Z) by lia. apply IZR_le in H'. rewrite plus_IZR in H'.
    assert (HH : (IZR i + 1) * r <= IZR m - IZR a) by (rewrite <- D1; apply Rmult_le_compat_r; lra).
    rewrite E, Rabs_left1; nra.
  - assert (H' : ((m + a + 1) * M / N + 1 <= i)%Z) by lia. apply IZR_le in H'. rewrite plus_IZR in H'.
    assert (HH : IZR m + IZR a + 1 <= IZR i * r) by (rewrite <- D2; apply Rmult_le_compat_r; lra).
    rewrite E, Rabs_pos_eq; nra.
Qed.

Let A := (N + 2 * N * a)%Z.
Let B := (M + 2 * M * a)%Z.
Let F (i m : Z) : R := reflected N x m * K (offset N M i m) * cos (PI * IZR k * (IZR i + 1/2) / IZR M).

Lemma F_flip i m : F (-1 - i) (-1 - m) = F i m.
Proof.
  unfold F. rewrite reflected_flip by lia. rewrite offset_flip. destruct KO as (_ & EV & _). rewrite EV. f_equal.
  rewrite <- (cos_neg (PI * IZR k * (IZR i + 1/2) / IZR M)). f_equal. rewrite minus_IZR. field. apply IZR_nz; lia.
Qed.
Lemma F_period i m t : F (i + 2 * M * t) (m + 2 * N * t) = F i m.
Proof.
  unfold F. rewrite reflected_period by lia. rewrite offset_period. f_equal.
  rewrite <- (cos_2kPI (PI * IZR k * (IZR i + 1/2) / IZR M) (k * t)). f_equal. rewrite plus_IZR, !mult_IZR. field. apply IZR_nz; lia.
Qed.

Lemma resampled_wide i : (- M <= i < M)%Z -> resampled N M a K x i = rsum (fun m => reflected N x m * K (offset N M i m)) (- A) A.
Proof.
  intros Hi. destruct KO as (A1 & _ & _). unfold resampled.
  assert (Q : (- N <= i * N / M < N)%Z).
  { split; [apply Z.div_le_lower_bound; nia|apply Z.div_lt_upper_bound; nia]. }
  apply rsum_widen; try (unfold A; nia); intros m Hm; rewrite weight_zero_m by lia; ring.
Qed.

Lemma dct_double : dct M (resampled N M a K x) k = rsum (fun i => rsum (F i) (- A) A) (- M) M.
Proof.
  destruct KO as (A1 & _ & _).
  assert (W : forall i, (0 <= i < M)%Z -> resampled N M a K x i * cos (PI * IZR k * (IZR i + 1/2) / IZR M) = rsum (F i) (- A) A).
  { intros i Hi. rewrite resampled_wide by lia. rewrite <- rsum_mul by (unfold A; nia). reflexivity. }
  rewrite (rsum_split _ (- M) 0 M) by lia.
  pose proof (rsum_reverse (fun i => rsum (F i) (- A) A) M ltac:(lia) (-1)%Z) as R.
  replace (-1 + 1 - M)%Z with (- M)%Z in R by lia. change (-1 + 1)%Z with 0%Z in R. cbv beta in R. rewrite <- R.
  rewrite (rsum_ext (fun j => rsum (F (-1 - j)) (- A) A) (fun i => rsum (F i) (- A) A)).
  - unfold dct. rewrite (rsum_ext _ _ 0 M W). ring.
  - intros i Hi. rewrite rsum_flip by (unfold A; nia). apply rsum_ext. intros m Hm. apply F_flip.
Qed.

(** the sums exchanged, with the periods *)
Lemma F_exchange : rsum (fun i => rsum (F i) (- A) A) (- M) M = rsum (fun m => rsum (fun i => F i m) (- B) B) (- N) N.
Proof.
  destruct KO as (A1 & _ & _).
  rewrite (rsum_ext _ (fun i => rsum (fun t => rsum (fun m => F (i - 2 * M * t) m) (- N) N) (- a) (a + 1))).
  - rewrite rsum_interchange by lia.
    rewrite (rsum_ext _ (fun t => rsum (fun m => rsum (fun i => F (i - 2 * M * t) m) (- M) M) (- N) N)) by (intros; apply rsum_interchange; lia).
    rewrite rsum_interchange by lia. apply rsum_ext. intros m Hm. unfold B. rewrite rsum_lattice by lia.
    rewrite rsum_negate by lia. apply rsum_ext. intros t Ht. apply rsum_ext. intros i Hi. f_equal. lia.
  - intros i Hi. unfold A. rewrite rsum_lattice by lia. apply rsum_ext. intros t Ht. apply rsum_ext. intros m Hm.
    rewrite <- (F_period (i - 2 * M * t) m t). f_equal. lia.
Qed.

Lemma F_phase m : (- N <= m < N)%Z -> rsum (fun i => F i m) (- B) B =
  reflected N x m * (cos (PI * IZR k * (IZR m + 1/2) / IZR N) * phase_cos N M a K k m - sin (PI * IZR k * (IZR m + 1/2) / IZR N) * phase_sin N M a K k m).
Proof.
  intros Hm. destruct KO as (A1 & _ & _). unfold phase_cos, phase_sin. set (lo := ((m - a) * M / N)%Z). set (hi := ((m + a + 1) * M / N + 1)%Z).
  assert (AM : (1 * (a * M) <= N * (a * M))%Z) by (apply Z.mul_le_mono_nonneg_r; nia).
  assert (AM1 : (1 <= a * M)%Z) by nia.
  assert (L : (- B <= lo)%Z).
  { unfold lo, B. apply Z.div_le_lower_bound; [lia|].
    assert ((- N - a) * M <= (m - a) * M)%Z by (apply Z.mul_le_mono_nonneg_r; lia). lia. }
  assert (LH : (lo <= hi)%Z).
  { unfold lo, hi. assert ((m - a) * M / N <= (m + a + 1) * M / N)%Z by (apply Z.div_le_mono; nia). lia. }
  assert (H : (hi <= B)%Z).
  { unfold hi, B. assert ((m + a + 1) * M / N < M + a * M + 1)%Z; [|lia].
    apply Z.div_lt_upper_bound; [lia|].
    assert ((m + a + 1) * M <= (N + a) * M)%Z by (apply Z.mul_le_mono_nonneg_r; lia). lia. }
  rewrite <- (rsum_widen (fun i => F i m) lo hi (- B) B); [|lia|lia| |].
  - set (p := PI * IZR k * (IZR m + 1/2) / IZR N).
    rewrite (rsum_ext _ (fun i => K (offset N M i m) * cos (PI * IZR k * offset N M i m / IZR N) * (reflected N x m * cos p)
      + K (offset N M i m) * sin (PI * IZR k * offset N M i m / IZR N) * (- (reflected N x m * sin p)))).
    + rewrite rsum_add by lia. rewrite !rsum_mul by lia. ring.
    + intros i Hi. unfold F. replace (PI * IZR k * (IZR i + 1 / 2) / IZR M) with (p + PI * IZR k * offset N M i m / IZR N).
      * rewrite cos_plus. ring.
      * unfold p, offset. field. split; apply IZR_nz; lia.
  - intros i Hi. unfold F. rewrite weight_zero_i by (left; exact (proj2 Hi)). ring.
  - intros i Hi. unfold F. rewrite weight_zero_i by (right; unfold hi in Hi; lia). ring.
Qed.

(** the coefficients are those of the old samples times the response, up to aliasing *)
Lemma resampled_dct P leak G : (forall j, (0 <= j < N)%Z -> Rabs (x j) <= G) -> responds N M a K k P leak ->
  Rabs (dct M (resampled N M a K x) k - P * dct N x k) <= 2 * IZR N * G * leak.
Proof.
  intros HG HR. rewrite dct_double, F_exchange, dct_period by lia.
  rewrite (rsum_ext _ _ _ _ F_phase). rewrite (Rmult_comm P), <- rsum_mul by lia.
  replace (rsum (fun m => reflected N x m * (cos (PI * IZR k * (IZR m + 1/2) / IZR N) * phase_cos N M a K k m - sin (PI * IZR k * (IZR m + 1/2) / IZR N) * phase_sin N M a K k m)) (- N) N
    - rsum (fun m => reflected N x m * cos (PI * IZR k * (IZR m + 1/2) / IZR N) * P) (- N) N)
    with (rsum (fun m => reflected N x m * (cos (PI * IZR k * (IZR m + 1/2) / IZR N) * (phase_cos N M a K k m - P) - sin (PI * IZR k * (IZR m + 1/2) / IZR N) * phase_sin N M a K k m)) (- N) N).
  2:{ match goal with |- _ = ?p - ?q => replace (p - q) with (p + - q) by ring end. rewrite <- rsum_opp by lia. rewrite <- rsum_add by lia. apply rsum_ext. intros. ring. }
  replace (2 * IZR N * G * leak) with (IZR (N - - N) * (G * leak)) by (rewrite minus_IZR, opp_IZR; ring).
  apply rsum_bounded; [lia|]. intros m Hm. rewrite Rabs_mult. apply Rmult_le_compat; try apply Rabs_pos.
  - apply reflected_bound; [lia|exact HG].
  - set (p := PI * IZR k * (IZR m + 1/2) / IZR N). specialize (HR m).
    eapply Rle_trans; [apply Rabs_triang|]. rewrite Rabs_Ropp, !Rabs_mult.
    assert (C : Rabs (cos p) <= 1) by (apply Rabs_le; pose proof (COS_bound p); lra).
    assert (S : Rabs (sin p) <= 1) by (apply Rabs_le; pose proof (SIN_bound p); lra).
    pose proof (Rabs_pos (phase_cos N M a K k m - P)). pose proof (Rabs_pos (phase_sin N M a K k m)). nra.
Qed.
End KERNEL.
