(** Coefficients of images upscaled by repeating samples. *)
From Coq Require Import Reals Lra Lia Psatz.
From Verif Require Import Base Spec SpecTransform BaseProofs Kiss KissExact.
Open Scope R_scope.

(** a sum over s*n indices, in n blocks of s *)
Lemma rsum_shift f lo hi d : (lo <= hi)%Z -> rsum f (lo + d) (hi + d) = rsum (fun j => f (j + d)%Z) lo hi.
Proof.
  revert hi. apply csum_ind; [rewrite !rsum_empty by lia; reflexivity|]. intros hi H IH.
  replace (hi + 1 + d)%Z with (hi + d + 1)%Z by lia. rewrite !rsum_last, IH by lia. reflexivity.
Qed.
Lemma rsum_blocks f s n : (0 <= s)%Z -> (0 <= n)%Z ->
  rsum f 0 (s * n) = rsum (fun j => rsum (fun r => f (s * j + r)%Z) 0 s) 0 n.
Proof.
  intros Hs Hn. revert n Hn. apply csum_ind.
  - rewrite !rsum_empty by lia. reflexivity.
  - intros n Hn IH. rewrite (rsum_split f 0 (s * n)) by nia. rewrite IH, rsum_last by lia. f_equal.
    replace (s * (n + 1))%Z with (s + s * n)%Z by lia. change (s * n)%Z with (0 + s * n)%Z at 1. rewrite rsum_shift by lia.
    apply rsum_ext. intros r Hr. f_equal. lia.
Qed.
Lemma rsum_opp f lo hi : (lo <= hi)%Z -> rsum (fun j => - f j) lo hi = - rsum f lo hi.
Proof.
  intros H. transitivity (rsum (fun j => f j * -1) lo hi); [apply rsum_ext; intros; ring|]. rewrite rsum_mul by exact H. ring.
Qed.

(** the sum of s consecutive cosines *)
Lemma cos_block t a s : (0 <= s)%Z ->
  rsum (fun r => cos (t * (a + IZR r + 1/2))) 0 s * sin (t / 2) = cos (t * (a + IZR s / 2)) * sin (t * IZR s / 2).
Proof.
  intros Hs.
  assert (G : rsum (fun r => cos (t * (a + IZR r + 1/2))) 0 s * sin (t / 2) * 2 = sin (t * (a + IZR s)) - sin (t * a)).
  { revert s Hs. apply csum_ind.
    - rewrite rsum_empty by lia. rewrite Rplus_0_r. ring.
    - intros s Hs IH. rewrite rsum_last by lia. rewrite !Rmult_plus_distr_r, IH. rewrite plus_IZR.
      replace (t * (a + (IZR s + 1))) with (t * (a + IZR s + 1/2) + t / 2) by field.
      replace (t * (a + IZR s)) with (t * (a + IZR s + 1/2) - t / 2) by field.
      rewrite sin_plus, sin_minus. ring. }
  apply Rmult_eq_reg_r with 2; [|lra]. rewrite G.
  replace (t * (a + IZR s)) with (t * (a + IZR s / 2) + t * IZR s / 2) by field.
  replace (t * a) with (t * (a + IZR s / 2) - t * IZR s / 2) by field.
  rewrite sin_plus, sin_minus. ring.
Qed.

(** repeating every sample s times multiplies coefficient k of the original, continued
    beyond its length, by a ratio of sines *)
Lemma dct_repeat s n x k : (1 <= s)%Z -> (1 <= n)%Z ->
  dct (s * n) (fun i => x (i / s)%Z) k * sin (PI * IZR k / IZR (s * n) / 2) = dct n x k * sin (PI * IZR k / IZR n / 2).
Proof.
  intros Hs Hn. unfold dct. rewrite rsum_blocks by lia. rewrite !Rmult_assoc. f_equal.
  rewrite <- !rsum_mul by lia. apply rsum_ext. intros j Hj.
  set (t := PI * IZR k / IZR (s * n)).
  rewrite (rsum_ext _ (fun r => cos (t * (IZR (s * j) + IZR r + 1/2)) * x j)).
  - rewrite rsum_mul by lia. rewrite Rmult_assoc, (Rmult_comm (x j)), <- Rmult_assoc. rewrite cos_block by lia.
    unfold t. rewrite !mult_IZR.
    replace (PI * IZR k / (IZR s * IZR n) * (IZR s * IZR j + IZR s / 2)) with (PI * IZR k * (IZR j + 1/2) / IZR n)
      by (field; split; apply IZR_nz; lia).
    replace (PI * IZR k / (IZR s * IZR n) * IZR s / 2) with (PI * IZR k / IZR n / 2) by (field; split; apply IZR_nz; lia).
    ring.
  - intros r Hr. rewrite (Z.mul_comm s j), Z.div_add_l by lia. rewrite Z.div_small by lia. rewrite Z.add_0_r.
    rewrite Rmult_comm. f_equal. f_equal. unfold t. rewrite plus_IZR. unfold Rdiv. ring.
Qed.

(** the continuation is odd around n *)
Lemma dct_odd n x i : (1 <= n)%Z -> dct n x (n + i) = - dct n x (n - i).
Proof.
  intros Hn. unfold dct. rewrite Ropp_mult_distr_r. f_equal. rewrite <- rsum_opp by lia. apply rsum_ext. intros j Hj.
  rewrite Ropp_mult_distr_r. f_equal.
  replace (PI * IZR (n + i) * (IZR j + 1/2) / IZR n) with (IZR j * PI + PI / 2 + PI * IZR i * (IZR j + 1/2) / IZR n)
    by (rewrite plus_IZR; field; apply IZR_nz; lia).
  replace (PI * IZR (n - i) * (IZR j + 1/2) / IZR n) with (IZR j * PI + PI / 2 - PI * IZR i * (IZR j + 1/2) / IZR n)
    by (rewrite minus_IZR; field; apply IZR_nz; lia).
  rewrite cos_plus, cos_minus.
  assert (Z0 : cos (IZR j * PI + PI / 2) = 0).
  { rewrite cos_plus, cos_PI2, sin_PI2. rewrite sin_eq_0_1; [ring|]. exists j. reflexivity. }
  rewrite Z0. ring.
Qed.

Lemma sin_pos_part k n : (0 < k < 2 * n)%Z -> 0 < sin (PI * IZR k / IZR n / 2).
Proof.
  intros H. assert (NP : 0 < IZR n) by (apply IZR_lt; lia). assert (KP : 0 < IZR k) by (apply IZR_lt; lia).
  assert (KN : IZR k < 2 * IZR n) by (rewrite <- mult_IZR; apply IZR_lt; lia).
  apply sin_gt_0.
  - apply Rdiv_lt_0_compat; [|lra]. apply Rdiv_lt_0_compat; [|exact NP]. apply Rmult_lt_0_compat; [apply PI_RGT_0|exact KP].
  - replace (PI * IZR k / IZR n / 2) with (PI * (IZR k / (2 * IZR n))) by (field; lra).
    rewrite <- (Rmult_1_r PI) at 2. apply Rmult_lt_compat_l; [apply PI_RGT_0|].
    apply Rmult_lt_reg_r with (2 * IZR n); [lra|]. unfold Rdiv. rewrite Rmult_assoc, Rinv_l by lra. lra.
Qed.

(** mirrored coefficients of the upscaled signal are negative multiples of each other *)
Lemma dct_mirror s n i : (1 <= s)%Z -> (1 <= n)%Z -> (0 <= i < n)%Z -> exists c, 0 < c /\ forall x,
  dct (s * n) (fun j => x (j / s)%Z) (n + i) = - c * dct (s * n) (fun j => x (j / s)%Z) (n - i).
Proof.
  intros Hs Hn Hi.
  pose proof (sin_pos_part (n + i) (s * n) ltac:(nia)) as P1. pose proof (sin_pos_part (n - i) (s * n) ltac:(nia)) as P2.
  assert (SE : sin (PI * IZR (n + i) / IZR n / 2) = sin (PI * IZR (n - i) / IZR n / 2)).
  { rewrite plus_IZR, minus_IZR.
    replace (PI * (IZR n + IZR i) / IZR n / 2) with (PI - (PI * (IZR n - IZR i) / IZR n / 2)) by (field; apply IZR_nz; lia).
    apply sin_PI_x. }
  set (s1 := sin (PI * IZR (n + i) / IZR (s * n) / 2)) in *. set (s2 := sin (PI * IZR (n - i) / IZR (s * n) / 2)) in *.
  exists (s2 / s1). split; [apply Rdiv_lt_0_compat; assumption|]. intros x.
  pose proof (dct_repeat s n x (n + i) Hs Hn) as A. pose proof (dct_repeat s n x (n - i) Hs Hn) as B.
  rewrite dct_odd in A by exact Hn. rewrite SE in A. fold s1 in A. fold s2 in B.
  apply Rmult_eq_reg_r with s1; [|lra].
  rewrite A. replace (- (s2 / s1) * dct (s * n) (fun j => x (j / s)%Z) (n - i) * s1)
    with (- (dct (s * n) (fun j => x (j / s)%Z) (n - i) * s2)) by (field; lra). rewrite B. ring.
Qed.

Lemma dct_scale n x c k : (1 <= n)%Z -> dct n (fun j => c * x j) k = c * dct n x k.
Proof.
  intros Hn. unfold dct. rewrite (rsum_ext _ (fun j => x j * cos (PI * IZR k * (IZR j + 1 / 2) / IZR n) * c)) by (intros; ring).
  rewrite rsum_mul by lia. ring.
Qed.

(** ** Images *)
Lemma widened_mirror s n h g row i : (1 <= s)%Z -> (1 <= n)%Z -> (1 <= h)%Z -> (0 <= i < n)%Z -> exists c, 0 < c /\
  dct_2d (s * n) h (widened s g) row (n + i) = - c * dct_2d (s * n) h (widened s g) row (n - i).
Proof.
  intros Hs Hn Hh Hi. destruct (dct_mirror s n i Hs Hn Hi) as (c & Pc & H). exists c. split; [exact Pc|].
  rewrite <- !dct_dct by nia. rewrite <- dct_scale by lia. apply dct_ext. intros y Hy. apply (H (g y)).
Qed.

Lemma rsum_swap f n m : (0 <= n)%Z -> (0 <= m)%Z ->
  rsum (fun y => rsum (fun x => f y x) 0 m) 0 n = rsum (fun x => rsum (fun y => f y x) 0 n) 0 m.
Proof.
  intros Hn Hm. revert n Hn. apply csum_ind.
  - rewrite rsum_empty by lia. rewrite (rsum_ext _ (fun x => 0 * 0)) by (intros; rewrite rsum_empty by lia; ring).
    rewrite rsum_mul by lia. ring.
  - intros n Hn IH. rewrite rsum_last, IH by lia. rewrite <- rsum_add by lia.
    apply rsum_ext. intros x Hx. rewrite rsum_last by lia. reflexivity.
Qed.

Lemma dct_2d_flip w h g row col : (1 <= w)%Z -> (1 <= h)%Z ->
  dct_2d w h g row col = dct_2d h w (fun a b => g b a) col row.
Proof.
  intros Hw Hh. unfold dct_2d. f_equal. rewrite rsum_swap by lia. apply rsum_ext. intros x Hx. apply rsum_ext. intros y Hy. ring.
Qed.

Lemma heightened_mirror s n w g i col : (1 <= s)%Z -> (1 <= n)%Z -> (1 <= w)%Z -> (0 <= i < n)%Z -> exists c, 0 < c /\
  dct_2d w (s * n) (heightened s g) (n + i) col = - c * dct_2d w (s * n) (heightened s g) (n - i) col.
Proof.
  intros Hs Hn Hw Hi. destruct (widened_mirror s n w (fun a b => g b a) col i) as (c & Pc & H); try assumption.
  exists c. split; [exact Pc|]. rewrite !(dct_2d_flip w) by nia. exact H.
Qed.
