(** The inverse real transform in exact arithmetic. *)
From Coq Require Import Reals Lra Lia.
From Verif Require Import Base Spec Kiss History SpecTransform KissInverse SpecInverse.
From Verif Require Import BaseProofs WorldProofs KissProofs KissFactor KissTransform KissExact KissInverseProofs KissInverseTransform.
Open Scope R_scope.
Notation e0 := (czero exact_ops).

Lemma dft_ext n x y k : (forall j, (0 <= j < n)%Z -> x j = y j) -> dft n x k = dft n y k.
Proof. intros H. unfold dft. apply csum_ext. intros j Hj. rewrite H by exact Hj. reflexivity. Qed.
Lemma inverse_dft_ext n x y k : (forall j, (0 <= j < n)%Z -> x j = y j) -> inverse_dft n x k = inverse_dft n y k.
Proof. intros H. unfold inverse_dft. apply csum_ext. intros j Hj. rewrite H by exact Hj. reflexivity. Qed.

(** the transforms are inverse to each other in both orders *)
Lemma inverse_dft_forward n y l : (1 <= n)%Z -> (0 <= l < n)%Z -> dft n (inverse_dft n y) l = cmul (y l) (IZR n, 0).
Proof.
  intros Hn Hl.
  assert (A : dft n (inverse_dft n y) l = conj (inverse_dft n (dft n (fun j => conj (y j))) l)).
  { rewrite inverse_dft_conj, conj_conj by lia. apply dft_ext. intros j Hj. apply inverse_dft_conj. lia. }
  rewrite A, dft_inverse by assumption. rewrite conj_mul, conj_conj. f_equal. unfold conj. cbn. f_equal. ring.
Qed.
Lemma inverse_dft_scale n x c l : (0 <= n)%Z -> inverse_dft n (fun j => cmul (x j) c) l = cmul (inverse_dft n x l) c.
Proof. intros Hn. unfold inverse_dft. rewrite <- csum_mul by exact Hn. apply csum_ext. intros j Hj. cxring. Qed.
Lemma dft_scale n x c l : (0 <= n)%Z -> dft n (fun j => cmul (x j) c) l = cmul (dft n x l) c.
Proof. intros Hn. unfold dft. rewrite <- csum_mul by exact Hn. apply csum_ext. intros j Hj. cxring. Qed.

Lemma csum_reverse f n : (0 <= n)%Z -> csum (fun j => f (n - j)%Z) 1 n = csum f 1 n.
Proof.
  intros Hn. destruct (Z.eq_dec n 0) as [->|]; [rewrite !csum_empty by lia; reflexivity|].
  assert (G : forall m, (0 <= m)%Z -> forall b, csum (fun j => f (b - j)%Z) 0 m = csum f (b + 1 - m) (b + 1)).
  { apply (csum_ind (fun m => forall b, csum (fun j => f (b - j)%Z) 0 m = csum f (b + 1 - m) (b + 1))).
    - intros b. rewrite !csum_empty by lia. reflexivity.
    - intros m Hm IH b. rewrite csum_last by exact Hm. rewrite IH. rewrite (csum_first f (b + 1 - (m + 1))) by lia.
      replace (b + 1 - (m + 1))%Z with (b - m)%Z by lia. replace (b - m + 1)%Z with (b + 1 - m)%Z by lia. cring. }
  specialize (G (n - 1)%Z ltac:(lia) (n - 1)%Z). replace (n - 1 + 1 - (n - 1))%Z with 1%Z in G by lia. replace (n - 1 + 1)%Z with n in G by lia.
  rewrite <- G. pose proof (csum_shift (fun j => f (n - j)%Z) 0 (n - 1) 1 ltac:(lia)) as S.
  replace (0 + 1)%Z with 1%Z in S by lia. replace (n - 1 + 1)%Z with n in S by lia. rewrite S. apply csum_ext. intros j Hj. f_equal. lia.
Qed.

(** the inverse transform of a spectrum with the symmetry of real data is real *)
Lemma inverse_dft_real n H l : (1 <= n)%Z -> H 0%Z = conj (H 0%Z) -> (forall k, (1 <= k < n)%Z -> H (n - k)%Z = conj (H k)) ->
  snd (inverse_dft n H l) = 0.
Proof.
  intros Hn H0 HC. assert (E : conj (inverse_dft n H l) = inverse_dft n H l).
  { transitivity (dft n (fun j => conj (H j)) l); [rewrite inverse_dft_conj by lia; apply conj_conj|].
    assert (IW : inverse_dft n H l = csum (fun j => cmul (H j) (conj (W n (j * l)))) 0 n).
    { unfold inverse_dft. apply csum_ext. intros j Hj. f_equal. unfold W. rewrite cis_opp, conj_conj. reflexivity. }
    rewrite IW, dft_W. rewrite !(csum_first _ 0) by lia. change (0 + 1)%Z with 1%Z. f_equal.
    - rewrite <- H0, Z.mul_0_l, W_0. f_equal. cring.
    - rewrite <- (csum_reverse (fun j => cmul (H j) (conj (W n (j * l)))) n) by lia. apply csum_ext. intros j Hj. cbv beta.
      rewrite HC, W_conj by exact Hj. f_equal. replace (- ((n - j) * l))%Z with (j * l + n * - l)%Z by ring. rewrite W_period by lia. reflexivity. }
  apply (f_equal snd) in E. unfold conj in E. cbn in E. lra.
Qed.

Lemma super_inverse n k : (1 <= n)%Z -> cis (PI * (IZR (k - 1 + 1) / IZR n + 1/2)) = cmul (0, 1) (conj (W (2 * n) k)).
Proof.
  intros Hn. pose proof (super_W n k Hn) as S. rewrite cis_opp in S. apply (f_equal conj) in S. rewrite conj_conj, conj_mul in S. rewrite S. f_equal. unfold conj. cbn. f_equal; ring.
Qed.

Definition twice (a : cx) : cx := cmul a (2, 0).
Lemma irfft_lo_exact sup n x k : (1 <= n)%Z -> sup (k - 1)%Z = cmul (0, 1) (conj (W (2 * n) k)) ->
  irfft_lo exact_ops sup n (dft (2 * n) (fun j => re (x j))) k = twice (dft n (packed x) k).
Proof.
  intros Hn HS. unfold irfft_lo. change (o_neg exact_ops) with Ropp.
  change (fst (dft (2 * n) (fun j => re (x j)) (n - k)), - snd (dft (2 * n) (fun j => re (x j)) (n - k))) with (conj (dft (2 * n) (fun j => re (x j)) (n - k))).
  rewrite HS, dft_packed, !dft_evens_odds by exact Hn. rewrite evens_conj, odds_conj by exact Hn.
  assert (EW : W (2 * n) (n - k) = copp (conj (W (2 * n) k))).
  { rewrite W_conj. unfold Z.sub. rewrite W_add, W_half by lia. cring. }
  rewrite EW.
  assert (U : cmul (W (2 * n) k) (conj (W (2 * n) k)) = c_1) by (rewrite W_conj, <- W_add, Z.add_opp_diag_r; apply W_0).
  revert U. generalize (evens x n k) (odds x n k) (W (2 * n) k). intros (e1 & e2) (o1 & o2) (w1 & w2). unfold cmul, conj, c_1. cbn [fst snd]. intros U.
  injection U as U1 _. unfold twice, C_ADD, C_SUB, C_MUL, conj, cmul, cadd, copp, exact_ops. cbn [fst snd o_add o_sub o_mul].
  assert (N : w1 * w1 + w2 * w2 = 1) by lra.
  f_equal.
  - transitivity (2 * e1 - 2 * o2 * (w1 * w1 + w2 * w2)); [ring|rewrite N; ring].
  - transitivity (2 * e2 + 2 * o1 * (w1 * w1 + w2 * w2)); [ring|rewrite N; ring].
Qed.
Lemma irfft_hi_exact sup n x k : (1 <= n)%Z -> sup (k - 1)%Z = cmul (0, 1) (conj (W (2 * n) k)) ->
  irfft_hi exact_ops sup n (dft (2 * n) (fun j => re (x j))) k = twice (dft n (packed x) (n - k)).
Proof.
  intros Hn HS. unfold irfft_hi. change (o_neg exact_ops) with Ropp.
  change (fst (dft (2 * n) (fun j => re (x j)) (n - k)), - snd (dft (2 * n) (fun j => re (x j)) (n - k))) with (conj (dft (2 * n) (fun j => re (x j)) (n - k))).
  rewrite HS, dft_packed, !dft_evens_odds by exact Hn. rewrite evens_conj, odds_conj by exact Hn.
  assert (EW : W (2 * n) (n - k) = copp (conj (W (2 * n) k))).
  { rewrite W_conj. unfold Z.sub. rewrite W_add, W_half by lia. cring. }
  rewrite EW.
  assert (U : cmul (W (2 * n) k) (conj (W (2 * n) k)) = c_1) by (rewrite W_conj, <- W_add, Z.add_opp_diag_r; apply W_0).
  revert U. generalize (evens x n k) (odds x n k) (W (2 * n) k). intros (e1 & e2) (o1 & o2) (w1 & w2). unfold cmul, conj, c_1. cbn [fst snd]. intros U.
  injection U as U1 _. unfold twice, C_ADD, C_SUB, C_MUL, conj, cmul, cadd, copp, exact_ops. cbn [fst snd o_add o_sub o_mul].
  assert (N : w1 * w1 + w2 * w2 = 1) by lra.
  f_equal.
  - transitivity (2 * e1 + 2 * o2 * (w1 * w1 + w2 * w2)); [ring|rewrite N; ring].
  - transitivity (- (2 * e2) + 2 * o1 * (w1 * w1 + w2 * w2)); [ring|rewrite N; ring].
Qed.

Lemma evens_real x n : (1 <= n)%Z -> snd (evens x n 0) = 0.
Proof.
  intros Hn. pose proof (evens_conj x n 0 Hn) as C. assert (D : evens x n (n - 0) = evens x n 0).
  { unfold evens. apply csum_ext. intros j Hj. replace (j * (n - 0))%Z with (j * 0 + n * j)%Z by ring. rewrite W_period by lia. reflexivity. }
  rewrite D in C. apply (f_equal snd) in C. cbn in C. lra.
Qed.
Lemma odds_real x n : (1 <= n)%Z -> snd (odds x n 0) = 0.
Proof.
  intros Hn. pose proof (odds_conj x n 0 Hn) as C. assert (D : odds x n (n - 0) = odds x n 0).
  { unfold odds. apply csum_ext. intros j Hj. replace (j * (n - 0))%Z with (j * 0 + n * j)%Z by ring. rewrite W_period by lia. reflexivity. }
  rewrite D in C. apply (f_equal snd) in C. cbn in C. lra.
Qed.

Lemma irfft_exact n st x k : fftr_ok exact_inverse_ops n st -> (1 <= n)%Z -> (0 <= k < n)%Z ->
  irfft_val exact_ops (at_ e0 (fr_super st)) n (dft (2 * n) (fun j => re (x j))) k = twice (dft n (packed x) k).
Proof.
  intros [_ _ SV _] Hn Hk.
  assert (HS : forall j, (1 <= j)%Z -> (2 * j <= n)%Z -> at_ e0 (fr_super st) (j - 1) = cmul (0, 1) (conj (W (2 * n) j))).
  { intros j Hj Hj2. rewrite <- super_inverse by exact Hn. apply (SV (j - 1)%Z). split; [lia|]. apply Z.lt_le_trans with j; [lia|]. apply Z.div_le_lower_bound; lia. }
  unfold irfft_val. destruct (Z.eqb_spec k 0) as [->|].
  - rewrite dft_packed, !dft_evens_odds, W_0, W_half by lia.
    assert (EE : evens x n n = evens x n 0).
    { unfold evens. apply csum_ext. intros j Hj. replace (j * n)%Z with (j * 0 + n * j)%Z by ring. rewrite W_period by lia. reflexivity. }
    assert (EO : odds x n n = odds x n 0).
    { unfold odds. apply csum_ext. intros j Hj. replace (j * n)%Z with (j * 0 + n * j)%Z by ring. rewrite W_period by lia. reflexivity. }
    rewrite EE, EO. pose proof (evens_real x n Hn) as IE. pose proof (odds_real x n Hn) as IO.
    destruct (evens x n 0) as (a & b), (odds x n 0) as (c & d). cbn in IE, IO. subst b d. unfold twice, exact_ops, cadd, cmul, copp, c_1. cbn. f_equal; ring.
  - destruct (Z.ltb_spec k (n - k)).
    + apply irfft_lo_exact; [exact Hn|]. apply HS; lia.
    + rewrite irfft_hi_exact by (try exact Hn; apply HS; lia). f_equal. f_equal. lia.
Qed.

Lemma irfft_val_ext sup n F G k : (1 <= n)%Z -> (0 <= k < n)%Z -> fst (F 0%Z) = fst (G 0%Z) -> fst (F n) = fst (G n) ->
  (forall j, (1 <= j < n)%Z -> F j = G j) -> irfft_val exact_ops sup n F k = irfft_val exact_ops sup n G k.
Proof.
  intros Hn Hk H0 HN H. unfold irfft_val. destruct (Z.eqb_spec k 0); [rewrite H0, HN; reflexivity|].
  destruct (Z.ltb_spec k (n - k)); [unfold irfft_lo|unfold irfft_hi]; rewrite !H by lia; reflexivity.
Qed.

(** with the spectrum of real data *)
Lemma real_ifft_round n st x k : fftr_ok exact_inverse_ops n st -> (1 <= n)%Z -> (0 <= k < n)%Z ->
  real_ifft exact_ops st n (dft (2 * n) (fun j => re (x j))) k = (IZR (2 * n) * x (2 * k)%Z, IZR (2 * n) * x (2 * k + 1)%Z).
Proof.
  intros F Hn Hk. unfold real_ifft. rewrite (ifft_exact n) by (try assumption; apply F).
  rewrite (inverse_dft_ext n _ (fun j => cmul (dft n (packed x) j) (2, 0))) by (intros j Hj; apply (irfft_exact n st x j F Hn Hj)).
  rewrite inverse_dft_scale, dft_inverse by lia. unfold packed, cmul. cbn [fst snd]. rewrite mult_IZR. f_equal; ring.
Qed.

(** with any spectrum *)
Lemma real_ifft_exact n st F k : fftr_ok exact_inverse_ops n st -> (1 <= n)%Z -> (0 <= k < n)%Z ->
  real_ifft exact_ops st n F k = (fst (inverse_dft (2 * n) (real_spectrum n F) (2 * k)), fst (inverse_dft (2 * n) (real_spectrum n F) (2 * k + 1))).
Proof.
  intros FO Hn Hk. set (H := real_spectrum n F).
  set (x := fun j => fst (inverse_dft (2 * n) H j) / IZR (2 * n)).
  assert (NZ : IZR (2 * n) <> 0) by (apply IZR_nz; lia).
  assert (RL : forall j, snd (inverse_dft (2 * n) H j) = 0).
  { intros j. apply inverse_dft_real; [lia| |].
    - unfold H, real_spectrum. cbn. unfold conj, re. cbn. f_equal. ring.
    - intros i Hi. unfold H, real_spectrum. replace (i =? 0)%Z with false by lia. replace (2 * n - i =? 0)%Z with false by lia.
      destruct (Z.eqb_spec i n) as [->|].
      { replace (2 * n - n =? n)%Z with true by lia. unfold conj, re. cbn. f_equal. ring. }
      replace (2 * n - i =? n)%Z with false by lia. destruct (Z.ltb_spec i n).
      + replace (2 * n - i <? n)%Z with false by lia. replace (2 * n - (2 * n - i))%Z with i by lia. reflexivity.
      + replace (2 * n - i <? n)%Z with true by lia. apply injective_projections; unfold conj; cbn [fst snd]; ring. }
  assert (HX : forall j, (0 <= j < 2 * n)%Z -> dft (2 * n) (fun i => re (x i)) j = H j).
  { intros j Hj. rewrite (dft_ext _ _ (fun i => cmul (inverse_dft (2 * n) H i) (/ IZR (2 * n), 0))).
    - rewrite dft_scale, inverse_dft_forward by lia. destruct (H j) as (a & b). unfold cmul. cbn [fst snd]. f_equal; field; exact NZ.
    - intros i Hi. unfold x, re, cmul. cbn [fst snd]. rewrite RL. f_equal; field; exact NZ. }
  assert (E : real_ifft exact_ops st n F k = real_ifft exact_ops st n (dft (2 * n) (fun j => re (x j))) k).
  { unfold real_ifft. apply (ifft_val_ext exact_ops _ n _ n); [apply (fk_factors _ _ _ (rk_sub _ _ _ FO))|exact Hk|].
    intros j Hj. apply irfft_val_ext; [exact Hn|exact Hj|rewrite HX by lia; reflexivity| |].
    - rewrite HX by lia. unfold H, real_spectrum. replace (n =? 0)%Z with false by lia. rewrite Z.eqb_refl. reflexivity.
    - intros i Hi. rewrite HX by lia. unfold H, real_spectrum. replace (i =? 0)%Z with false by lia. replace (i =? n)%Z with false by lia.
      replace (i <? n)%Z with true by lia. reflexivity. }
  rewrite E, real_ifft_round by assumption. unfold x. f_equal; field; exact NZ.
Qed.
