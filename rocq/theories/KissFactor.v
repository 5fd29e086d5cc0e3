(** The factor table of the FFT. *)
From Coq Require Import Reals Lra Znumtheory Psatz.
From Flocq Require Import Core.Core IEEE754.Binary IEEE754.Bits.
From Verif Require Import Base Spec SpecTransform BaseProofs Flt FltProofs Kiss KissProofs.
Open Scope list_scope.
Open Scope Z_scope.

(** ** floor(sqrt(n)) *)
Lemma generic_format_small (m e : Z) : Z.abs m <= 2^53 -> -1074 <= e -> generic_format radix2 (FLT_exp (-1074) 53) (F2R (Float radix2 m e)).
Proof.
  intros Hm He. destruct (Z.eq_dec (Z.abs m) (2^53)) as [E|N].
  - assert (C : m = 2^53 \/ m = - 2^53) by lia.
    assert (G : F2R (Float radix2 m e) = F2R (Float radix2 (m / 2) (e + 1))).
    { unfold F2R. cbn [Fnum Fexp]. rewrite bpow_plus. change (bpow radix2 1) with 2%R.
      assert (M : m = m / 2 * 2) by (destruct C as [-> | ->]; reflexivity).
      rewrite M at 1. rewrite mult_IZR. ring. }
    rewrite G. apply generic_format_FLT. exists (Float radix2 (m / 2) (e + 1)); [reflexivity| |cbn; lia].
    cbn [Fnum]. destruct C as [-> | ->]; reflexivity.
  - apply generic_format_FLT. exists (Float radix2 m e); [reflexivity|cbn [Fnum]; change (radix_val radix2) with 2; lia|exact He].
Qed.

Lemma f64_of_Z_exact n : Z.abs n <= 2^53 -> B2R 53 1024 (f64_of_Z n) = IZR n /\ is_finite 53 1024 (f64_of_Z n) = true.
Proof.
  intros H. unfold f64_of_Z.
  pose proof (binary_normalize_correct 53 1024 eq_refl eq_refl BinarySingleNaN.mode_NE n 0 false) as C.
  assert (R : round radix2 (FLT_exp (3 - 1024 - 53) 53) ZnearestE (F2R (Float radix2 n 0)) = IZR n).
  { rewrite round_generic; [|apply valid_rnd_N|apply generic_format_small; lia].
    unfold F2R. cbn. ring. }
  change (BinarySingleNaN.round_mode BinarySingleNaN.mode_NE) with ZnearestE in C.
  change (SpecFloat.fexp 53 1024) with (FLT_exp (3 - 1024 - 53) 53) in C. rewrite R in C.
  rewrite Rlt_bool_true in C.
  - destruct C as (C1 & C2 & _). split; assumption.
  - rewrite <- abs_IZR. apply Rle_lt_trans with (IZR (2^53)); [apply IZR_le; exact H|].
    change (2^53) with (Zpower radix2 53). rewrite IZR_Zpower by lia. apply bpow_lt. lia.
Qed.

Lemma floor_sqrt_ok n : 0 <= n < 2^38 -> floor_sqrt n = Z.sqrt n.
Proof.
  intros Hn. unfold floor_sqrt. destruct (f64_of_Z_exact n ltac:(lia)) as (V & F).
  unfold b64_sqrt. apply eq_IZR. rewrite Btrunc_correct by reflexivity.
  rewrite (proj1 (Bsqrt_correct 53 1024 eq_refl eq_refl unop_nan_pl64 BinarySingleNaN.mode_NE (f64_of_Z n))).
  rewrite V. change (BinarySingleNaN.round_mode BinarySingleNaN.mode_NE) with ZnearestE.
  change (SpecFloat.fexp 53 1024) with (FLT_exp (-1074) 53).
  assert (TR : forall x, round radix2 (FIX_exp 0) Ztrunc x = IZR (Ztrunc x)).
  { intros x. unfold round, scaled_mantissa, F2R, cexp, FIX_exp. cbn. rewrite !Rmult_1_r. reflexivity. }
  rewrite TR.
  pose proof (Z.sqrt_spec n ltac:(lia)) as (S1 & S2). pose proof (Z.sqrt_nonneg n) as S0.
  remember (Z.sqrt n) as s eqn:Es. clear Es. clear V F TR.
  assert (SB : s < 2^19).
  { change (2^38) with 274877906944 in Hn. change (2^19) with 524288. apply Z.square_lt_simpl_nonneg; lia. }
  set (r := round radix2 (FLT_exp (-1074) 53) ZnearestE (sqrt (IZR n))).
  assert (LO : (IZR s <= r)%R).
  { unfold r. apply round_ge_generic; [apply FLT_exp_valid; reflexivity|apply valid_rnd_N| |].
    - replace (IZR s) with (F2R (Float radix2 s 0)) by (unfold F2R; cbn; ring). apply generic_format_small; lia.
    - rewrite <- (sqrt_square (IZR s)) by (apply IZR_le; lia). apply sqrt_le_1_alt.
      rewrite <- mult_IZR. apply IZR_le. lia. }
  assert (HI : (r <= F2R (Float radix2 ((s + 1) * 2^20 - 1) (-20)))%R).
  { unfold r. apply round_le_generic; [apply FLT_exp_valid; reflexivity|apply valid_rnd_N| |].
    - apply generic_format_small; lia.
    - assert (P : (0 <= F2R (Float radix2 ((s + 1) * 2 ^ 20 - 1) (-20)))%R) by (apply F2R_ge_0; cbn [Fnum]; lia).
      rewrite <- (sqrt_square _ P). apply sqrt_le_1_alt.
      unfold F2R. cbn [Fnum Fexp].
      assert (B : (bpow radix2 (-20) * bpow radix2 (-20) * bpow radix2 40 = 1)%R) by (rewrite <- !bpow_plus; reflexivity).
      apply Rmult_le_reg_r with (bpow radix2 40); [apply bpow_gt_0|].
      replace (IZR ((s + 1) * 2 ^ 20 - 1) * bpow radix2 (-20) * (IZR ((s + 1) * 2 ^ 20 - 1) * bpow radix2 (-20)) * bpow radix2 40)%R
        with (IZR ((s + 1) * 2 ^ 20 - 1) * IZR ((s + 1) * 2 ^ 20 - 1) * (bpow radix2 (-20) * bpow radix2 (-20) * bpow radix2 40))%R by ring.
      rewrite B, Rmult_1_r. rewrite <- mult_IZR. rewrite <- (IZR_Zpower radix2 40) by lia. rewrite <- mult_IZR. apply IZR_le.
      change (Zpower radix2 40) with (2^40). nia. }
  assert (HI' : (r < IZR (s + 1))%R).
  { eapply Rle_lt_trans; [exact HI|]. unfold F2R. cbn [Fnum Fexp].
    apply Rmult_lt_reg_r with (bpow radix2 20); [apply bpow_gt_0|]. rewrite Rmult_assoc, <- bpow_plus.
    change (bpow radix2 (-20 + 20)) with 1%R. rewrite Rmult_1_r. rewrite <- (IZR_Zpower radix2 20) by lia. rewrite <- mult_IZR.
    apply IZR_lt. change (Zpower radix2 20) with (2^20). lia. }
  rewrite Ztrunc_floor.
  - f_equal. apply Zfloor_imp. split; assumption.
  - apply Rle_trans with (IZR s); [apply IZR_le; lia|exact LO].
Qed.

(** ** The search for the next factor *)
(** what is known about the candidate p when the remaining length is n *)
Definition candidate (n p : Z) : Prop :=
  p = 4 \/ p = 2 \/ (3 <= p /\ Z.odd p = true /\ forall d, 2 <= d < p -> ~ (d | n)).

Definition need (fs p : Z) : Z := if p =? 4 then fs + 4 else if p =? 2 then fs + 3 else Z.max 0 (fs - p) + 2.

Lemma prime_no_divisor p n : 2 <= p -> (p | n) -> (forall d, 2 <= d < p -> ~ (d | n)) -> prime p.
Proof.
  intros Hp D N. apply prime_alt. split; [lia|]. intros k Hk C. apply (N k); [lia|]. eapply Z.divide_trans; eauto.
Qed.

Lemma prime_square n p : 1 < n -> n < p * p -> 2 <= p -> (forall d, 2 <= d < p -> ~ (d | n)) -> prime n.
Proof.
  intros H1 Hn Hp N. apply prime_alt. split; [lia|]. intros k Hk (q & E).
  assert (2 <= q) by nia. destruct (Z.lt_ge_cases k p) as [L|G].
  - apply (N k); [lia|]. exists q. exact E.
  - destruct (Z.lt_ge_cases q p) as [L'|G']; [|nia]. apply (N q); [lia|]. exists k. lia.
Qed.

Lemma rem_div n p : 0 <= n -> 1 <= p -> Z.rem n p = 0 <-> (p | n).
Proof. intros. rewrite Z.rem_mod_nonneg by lia. apply Z.mod_divide. lia. Qed.


Lemma next_factor_ok fs n : 1 < n <= INT_MAX - 2 -> 0 <= fs <= INT_MAX - 2 -> n < (fs + 1) * (fs + 1) ->
  forall fuel p, candidate n p -> p <= INT_MAX - 2 -> need fs p <= Z.of_nat fuel ->
  exists p', next_factor fuel n fs p = Ok p' /\ (p' | n) /\ (p' = 4 \/ prime p') /\
    (candidate (n / p') p' \/ p' = n).
Proof.
  intros Hn Hfs Hsq. induction fuel as [|fuel IH]; intros p C Hp Hf.
  { exfalso. unfold need in Hf. destruct (p =? 4), (p =? 2); lia. }
  assert (P2 : 2 <= p) by (destruct C as [->|[->|(? & _)]]; lia).
  cbn [next_factor]. replace (p =? 0) with false by lia.
  destruct (Z.eqb_spec (Z.rem n p) 0) as [D|ND].
  { apply rem_div in D; [|lia..]. exists p. split; [reflexivity|]. split; [exact D|].
    split.
    - destruct C as [->|[->|(C1 & C2 & C3)]]; [left; reflexivity|right; apply prime_2|right; eapply prime_no_divisor; eauto].
    - left. destruct C as [->|[->|(C1 & C2 & C3)]]; [left; reflexivity|right; left; reflexivity|right; right].
      split; [exact C1|]. split; [exact C2|]. intros d Hd (q & E). apply (C3 d Hd). destruct D as (r & D).
      exists (q * p). rewrite D in E. rewrite Z.div_mul in E by lia. rewrite D, E. ring. }
  rewrite rem_div in ND by lia.
  assert (STEP : exists p1, (if p =? 4 then Ok 2 else if p =? 2 then Ok 3 else cint (p + 2)) = Ok p1 /\
      candidate n p1 /\ 2 <= p1 /\ (forall d, 2 <= d < p1 -> ~ (d | n)) /\ (p1 <= fs -> need fs p1 < need fs p) /\ p1 <= INT_MAX).
  { unfold need. destruct (Z.eqb_spec p 4) as [->|N4]; [|destruct (Z.eqb_spec p 2) as [->|N2]].
    - exists 2. split; [reflexivity|]. split; [right; left; reflexivity|]. split; [lia|]. split; [lia|]. cbn. split; [lia|unfold INT_MAX; lia].
    - exists 3. split; [reflexivity|].
      assert (DV : forall d, 2 <= d < 3 -> ~ (d | n)) by (intros d Hd; replace d with 2 by lia; exact ND).
      split; [right; right; repeat split; [lia|exact DV]|]. split; [lia|]. split; [exact DV|]. cbn. split; [lia|unfold INT_MAX; lia].
    - destruct C as [?|[?|(C1 & C2 & C3)]]; [lia|lia|].
      exists (p + 2). split; [apply cint_ok; lia|].
      assert (DV : forall d, 2 <= d < p + 2 -> ~ (d | n)).
      { intros d Hd DD. destruct (Z.eq_dec d p) as [->|]; [contradiction|].
        destruct (Z.eq_dec d (p + 1)) as [->|]; [|apply (C3 d); [lia|exact DD]].
        apply (C3 2); [lia|]. eapply Z.divide_trans; [|exact DD]. apply Z.mod_divide; [lia|].
        rewrite Zodd_mod in C2. apply Zeq_bool_eq in C2. rewrite Z.add_mod, C2 by lia. reflexivity. }
      assert (OD : Z.odd (p + 2) = true) by (rewrite Z.odd_add, C2; reflexivity).
      split; [right; right; split; [lia|]; split; assumption|]. split; [lia|]. split; [exact DV|].
      replace (p + 2 =? 4) with false by lia. replace (p + 2 =? 2) with false by lia. split; lia. }
  destruct STEP as (p1 & -> & C1 & P1 & DV & ME & MX). cbn [bind].
  destruct (Z.gtb_spec p1 fs) as [G|L].
  - (* p = n *)
    assert (E : next_factor fuel n fs n = Ok n).
    { destruct fuel; cbn [next_factor]; replace (n =? 0) with false by lia; rewrite Z.rem_same by lia; reflexivity. }
    exists n. split; [exact E|]. split; [apply Z.divide_refl|]. split; [|right; reflexivity].
    right. apply prime_square with p1; try lia; [nia|exact DV].
  - apply IH; [exact C1|lia|]. specialize (ME ltac:(lia)). lia.
Qed.

(** ** The table *)

Definition good_factor (p : Z) : Prop := p = 4 \/ prime p.

(** the entries (p, m) of the table *)
Notation radices := radices_of.

Lemma good_factor_2 p : good_factor p -> 2 <= p.
Proof. intros [->|P]; [lia|destruct P; lia]. Qed.

Lemma factor_loop_ok fs : 0 <= fs <= 2^30 -> forall fuel n p acc,
  1 < n <= INT_MAX - 2 -> n < (fs + 1) * (fs + 1) -> candidate n p -> p <= INT_MAX - 2 ->
  Z.log2 n <= Z.of_nat fuel -> (2 | zlen acc) -> zlen acc + 2 * Z.log2 n <= 64 ->
  exists l, factor_loop (S fuel) n fs p acc = Ok (acc ++ l) /\ factors_ok l n /\ Forall good_factor (radices l) /\
     zlen l <= 2 * Z.log2 n /\ fold_right Z.mul 1 (radices l) = n /\ factor_table n l.
Proof.
  intros Hfs. induction fuel as [|fuel IH]; intros n p acc Hn Hsq C Hp Hf Hd Hl.
  { pose proof (Z.log2_pos n ltac:(lia)). lia. }
  remember (S fuel) as fuel1. cbn [factor_loop].
  destruct (next_factor_ok fs n) with (fuel := (Z.to_nat fs + 5)%nat) (p := p) as (p' & E & D & G & C'); try assumption.
  { unfold INT_MAX; lia. }
  { unfold need. assert (2 <= p) by (destruct C as [->|[->|(? & _)]]; lia). destruct (p =? 4), (p =? 2); lia. }
  rewrite E. cbn [bind]. pose proof (good_factor_2 _ G) as P2.
  destruct D as (m & Dm). assert (Hm : 1 <= m) by nia.
  assert (Q : Z.quot n p' = m) by (rewrite Z.quot_div_nonneg by lia; rewrite Dm; apply Z.div_mul; lia).
  rewrite Q. clear Q. change (2 * MAXFACTORS) with 64.
  pose proof (Z.log2_pos n ltac:(lia)) as LP.
  destruct (Z.gtb_spec (zlen acc + 2) 64) as [|_]; [lia|].
  destruct (Z.gtb_spec m 1) as [M|M].
  - assert (LG : Z.log2 m + 1 <= Z.log2 n).
    { rewrite Z.add_1_r, <- Z.log2_double by lia. apply Z.log2_le_mono. nia. }
    assert (C2 : candidate m p').
    { destruct C' as [C'|C']; [|exfalso; subst p'; nia].
      rewrite Dm in C'. rewrite Z.div_mul in C' by lia. exact C'. }
    subst fuel1.
    destruct (IH m p' (acc ++ [p'; m])) as (l & E2 & F2 & G2 & Z2 & PR & FT); try assumption; try nia.
    { rewrite zlen_app. apply Z.divide_add_r; [exact Hd|]. exists 1. reflexivity. }
    { rewrite zlen_app. change (zlen [p'; m]) with 2. lia. }
    exists (p' :: m :: l). split; [rewrite E2, <- app_assoc; reflexivity|].
    split; [rewrite Dm, Z.mul_comm; apply fo_step; [lia|lia|exact F2]|].
    split; [cbn; constructor; assumption|]. split; [unfold zlen in *; cbn [length]; lia|].
    split; [cbn [radices_of fold_right]; rewrite PR; lia|].
    cbn [factor_table]. split; [lia|]. split; [lia|]. split; [lia|]. right. split; [lia|exact FT].
  - assert (m = 1) by lia. subst m. exists [p'; 1]. split; [reflexivity|].
    rewrite Z.mul_1_l in Dm. subst p'.
    split; [apply fo_last; lia|]. split; [cbn; constructor; [exact G|constructor]|]. split; [change (zlen [n; 1]) with 2; lia|].
    split; [cbn; lia|]. cbn [factor_table]. split; [lia|]. split; [lia|]. split; [lia|]. left. split; reflexivity.
Qed.

Lemma kf_factor_ok n : 1 <= n <= INT_MAX - 2 ->
  exists l, kf_factor n = Ok l /\ factors_ok l n /\ zlen l <= 60 /\ fold_right Z.mul 1 (radices l) = n /\
    (1 < n -> Forall good_factor (radices l)) /\ factor_table n l.
Proof.
  intros Hn. unfold kf_factor. rewrite floor_sqrt_ok by (unfold INT_MAX in Hn; lia).
  destruct (Z.eq_dec n 1) as [->|N].
  { exists [1; 1]. split; [reflexivity|]. split; [apply fo_last; lia|]. split; [unfold zlen; cbn; lia|]. split; [reflexivity|]. split; [lia|]. cbn. repeat split; try lia. left. split; reflexivity. }
  assert (LB : Z.log2 n <= 30).
  { apply Z.lt_succ_r. apply Z.log2_lt_pow2; [lia|]. unfold INT_MAX in Hn. lia. }
  replace (Z.to_nat (Z.log2 n) + 1)%nat with (S (Z.to_nat (Z.log2 n))) by lia.
  pose proof (Z.sqrt_spec n ltac:(lia)) as (S1 & S2). pose proof (Z.sqrt_nonneg n) as S0.
  destruct (factor_loop_ok (Z.sqrt n)) with (fuel := Z.to_nat (Z.log2 n)) (n := n) (p := 4) (acc := @nil Z)
    as (l & E & F & G & L & P & FT).
  - split; [exact S0|]. apply Z.square_le_simpl_nonneg; [lia|]. unfold INT_MAX in Hn. lia.
  - lia.
  - lia.
  - left. reflexivity.
  - unfold INT_MAX; lia.
  - lia.
  - exists 0. reflexivity.
  - change (zlen (@nil Z)) with 0. lia.
  - exists l. split; [exact E|]. split; [exact F|]. split; [lia|]. split; [exact P|]. split; [auto|exact FT].
Qed.
