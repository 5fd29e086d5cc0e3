(** Sizes of complex numbers, and what the exact transform does to them. *)
From Coq Require Import Reals Lra Lia Psatz.
From Verif Require Import Base Spec SpecTransform BaseProofs Util Methods Analysis WorldProofs Kiss KissProofs KissFactor KissTransform KissExact.
Open Scope R_scope.

(** ** Sizes of complex numbers *)
(** |a| <= r *)
Definition cle (a : cx) (r : R) : Prop := 0 <= r /\ fst a * fst a + snd a * snd a <= r * r.

Lemma sq_le a r : 0 <= r -> a * a <= r * r -> Rabs a <= r.
Proof. intros Hr H. apply Rsqr_le_abs_0 in H. rewrite (Rabs_pos_eq r Hr) in H. exact H. Qed.
Lemma le_sq a r : Rabs a <= r -> a * a <= r * r.
Proof.
  intros H. assert (0 <= r) by (pose proof (Rabs_pos a); lra).
  replace (a * a) with (Rabs a * Rabs a) by (rewrite <- Rabs_mult; apply Rabs_pos_eq; nra).
  pose proof (Rabs_pos a). nra.
Qed.
Lemma cle_fst a r : cle a r -> Rabs (fst a) <= r.
Proof. intros (H & E). apply sq_le; [exact H|]. nra. Qed.
Lemma cle_snd a r : cle a r -> Rabs (snd a) <= r.
Proof. intros (H & E). apply sq_le; [exact H|]. nra. Qed.
Lemma cle_weaken a r s : cle a r -> r <= s -> cle a s.
Proof. intros (H & E) L. split; [lra|]. nra. Qed.
Lemma cle_0 : cle (0, 0) 0.
Proof. split; cbn; lra. Qed.
Lemma cle_add a b r s : cle a r -> cle b s -> cle (cadd a b) (r + s).
Proof.
  destruct a as (a1 & a2), b as (b1 & b2). intros (Hr & Ea) (Hs & Eb). cbn [fst snd] in *. split; [lra|]. cbn [fst snd cadd].
  assert (C : a1 * b1 + a2 * b2 <= r * s).
  { apply Rle_trans with (Rabs (a1 * b1 + a2 * b2)); [apply Rle_abs|]. apply sq_le; [nra|].
    apply Rle_trans with ((a1 * a1 + a2 * a2) * (b1 * b1 + b2 * b2)).
    - pose proof (Rle_0_sqr (a1 * b2 - a2 * b1)) as Q. unfold Rsqr in Q. nra.
    - replace (r * s * (r * s)) with ((r * r) * (s * s)) by ring. apply Rmult_le_compat; nra. }
  replace ((a1 + b1) * (a1 + b1) + (a2 + b2) * (a2 + b2)) with ((a1 * a1 + a2 * a2) + (b1 * b1 + b2 * b2) + 2 * (a1 * b1 + a2 * b2)) by ring.
  replace ((r + s) * (r + s)) with (r * r + s * s + 2 * (r * s)) by ring. lra.
Qed.
Lemma cle_opp a r : cle a r -> cle (copp a) r.
Proof. intros (H & E). split; [exact H|]. cbn. nra. Qed.
Lemma cle_conj a r : cle a r -> cle (conj a) r.
Proof. intros (H & E). split; [exact H|]. cbn. nra. Qed.
Lemma cle_sub a b r s : cle a r -> cle b s -> cle (csub a b) (r + s).
Proof.
  intros Ha Hb. replace (csub a b) with (cadd a (copp b)) by cring. apply cle_add; [exact Ha|]. apply cle_opp, Hb.
Qed.
Lemma cle_mul a b r s : cle a r -> cle b s -> cle (cmul a b) (r * s).
Proof.
  destruct a as (a1 & a2), b as (b1 & b2). intros (Hr & Ea) (Hs & Eb). cbn [fst snd] in *. split; [nra|]. cbn [fst snd cmul].
  replace ((a1 * b1 - a2 * b2) * (a1 * b1 - a2 * b2) + (a1 * b2 + a2 * b1) * (a1 * b2 + a2 * b1))
    with ((a1 * a1 + a2 * a2) * (b1 * b1 + b2 * b2)) by ring.
  replace (r * s * (r * s)) with ((r * r) * (s * s)) by ring. apply Rmult_le_compat; nra.
Qed.
Lemma cle_cis t : cle (cis t) 1.
Proof. split; [lra|]. cbn. pose proof (sin2_cos2 t) as H. unfold Rsqr in H. lra. Qed.
Lemma cle_parts a e : Rabs (fst a) <= e -> Rabs (snd a) <= e -> cle a (3/2 * e).
Proof.
  intros H1 H2. assert (0 <= e) by (pose proof (Rabs_pos (fst a)); lra). apply le_sq in H1. apply le_sq in H2. split; [lra|]. nra.
Qed.
Lemma cle_csum f M n : (0 <= n)%Z -> 0 <= M -> (forall j, (0 <= j < n)%Z -> cle (f j) M) -> cle (csum f 0 n) (IZR n * M).
Proof.
  intros Hn HM. revert n Hn.
  apply (csum_ind (fun n => (forall j, (0 <= j < n)%Z -> cle (f j) M) -> cle (csum f 0 n) (IZR n * M))).
  - intros _. rewrite csum_empty by lia. rewrite Rmult_0_l. apply cle_0.
  - intros n Hn IH H. rewrite csum_last by lia. rewrite plus_IZR. replace ((IZR n + 1) * M) with (IZR n * M + M) by ring.
    apply cle_add; [|apply H; lia]. apply IH. intros j Hj. apply H. lia.
Qed.

Lemma W_cle n k : cle (W n k) 1. Proof. apply cle_cis. Qed.

(** the butterfly is linear *)
Lemma bfly_sub n s m p u x y q1 : (0 <= p)%Z ->
  csub (bfly n s m p u x q1) (bfly n s m p u y q1) = bfly n s m p u (fun q => csub (x q) (y q)) q1.
Proof.
  intros Hp. unfold bfly. revert p Hp. apply csum_ind.
  - rewrite !csum_empty by lia. cring.
  - intros p Hp IH. rewrite !csum_last by lia. rewrite <- IH. cring.
Qed.
Lemma bfly_cle n s m p u x q1 M : (0 <= p)%Z -> 0 <= M -> (forall q, (0 <= q < p)%Z -> cle (x q) M) ->
  cle (bfly n s m p u x q1) (IZR p * M).
Proof.
  intros Hp HM H. apply cle_csum; try assumption. intros j Hj. rewrite <- (Rmult_1_r M). apply cle_mul; [apply H, Hj|apply W_cle].
Qed.

(** ** Factors *)
Lemma direction_factors {T} (K : ops T) n d l : make_direction K n = Ok (Some d) -> (1 <= n <= INT_MAX / 3)%Z -> kf_factor n = Ok l ->
  ft_factors (fr_sub (dr_cfg d)) = l.
Proof.
  intros E Hn El. unfold make_direction in E. rewrite INT3' in Hn.
  rewrite (wrap_small (8 * n)) in E by lia.
  replace (8 * n / 8)%Z with n in E by (rewrite Z.mul_comm; symmetry; apply Z.div_mul; lia).
  destruct (fill_table_ok K n n (o_shift K n)) as (t & Et & _); [lia|]. rewrite Et in E. cbn [bind] in E.
  rewrite wrap_small in E by lia. rewrite cint_ok in E by (unfold INT_MAX; lia). cbn [bind] in E.
  unfold kiss_fftr_alloc in E.
  assert (OD : Z.odd (n * 2) = false) by (rewrite Z.odd_mul; apply andb_false_r). rewrite OD in E.
  rewrite Z.div_mul in E by lia. rewrite cint_ok in E by (unfold INT_MAX; lia). cbn [bind] in E.
  unfold kiss_fft_alloc in E. rewrite cint_ok in E by (unfold INT_MAX; lia). cbn [bind] in E.
  rewrite El in E.
  destruct (fill_table K n _ (o_twiddle K n)) as [tt|]; [|discriminate]. cbn [bind] in E.
  destruct (fill_table K (Z.quot n 2) _ (o_super K n)) as [ts|]; [|discriminate]. cbn [bind] in E.
  inversion E. reflexivity.
Qed.

Lemma exp_small x : x <= 4 -> exp x <= 81.
Proof.
  intros H. apply Rle_trans with (exp (2 + 2)).
  { destruct (Req_dec x 4) as [->|]; [replace (2 + 2) with 4 by ring; lra|]. left. apply exp_increasing. lra. }
  rewrite exp_plus. replace 2 with (1 + 1) by ring. rewrite exp_plus. pose proof exp_le_3. pose proof (exp_pos 1).
  assert (0 <= exp 1 * exp 1 <= 9) by nra. nra.
Qed.

(** ** The exact DCT is linear and bounded *)
Lemma rsum_bound f n M : (0 <= n)%Z -> (forall j, (0 <= j < n)%Z -> Rabs (f j) <= M) -> Rabs (rsum f 0 n) <= IZR n * M.
Proof.
  intros Hn. revert n Hn. apply (csum_ind (fun n => (forall j, (0 <= j < n)%Z -> Rabs (f j) <= M) -> Rabs (rsum f 0 n) <= IZR n * M)).
  - intros _. rewrite rsum_empty by lia. rewrite Rabs_R0. lra.
  - intros n Hn IH H. rewrite rsum_last by lia. eapply Rle_trans; [apply Rabs_triang|]. rewrite plus_IZR.
    pose proof (H n ltac:(lia)). pose proof (IH ltac:(intros j Hj; apply H; lia)). lra.
Qed.
Lemma dct_bound n x k M : (0 <= n)%Z -> (forall j, (0 <= j < n)%Z -> Rabs (x j) <= M) -> Rabs (dct n x k) <= 2 * IZR n * M.
Proof.
  intros Hn H. unfold dct. rewrite Rabs_mult, (Rabs_pos_eq 2) by lra. rewrite Rmult_assoc. apply Rmult_le_compat_l; [lra|].
  apply rsum_bound; [exact Hn|]. intros j Hj. rewrite Rabs_mult. rewrite <- (Rmult_1_r M).
  apply Rmult_le_compat; try apply Rabs_pos; [apply H, Hj|]. apply Rabs_le. match goal with |- context [cos ?t] => pose proof (COS_bound t) end. lra.
Qed.
Lemma dct_sub n x y k : (0 <= n)%Z -> dct n x k - dct n y k = dct n (fun j => x j - y j) k.
Proof.
  intros Hn. unfold dct. rewrite <- Rmult_minus_distr_l. f_equal. revert n Hn. intros n Hn.
  set (c := fun j => cos (PI * IZR k * (IZR j + 1 / 2) / IZR n)).
  assert (H : forall h, (0 <= h)%Z -> rsum (fun j => x j * c j) 0 h - rsum (fun j => y j * c j) 0 h = rsum (fun j => (x j - y j) * c j) 0 h).
  { apply csum_ind; [rewrite !rsum_empty by lia; ring|]. intros h Hh IH. rewrite !rsum_last by lia. rewrite <- IH. ring. }
  apply H, Hn.
Qed.
