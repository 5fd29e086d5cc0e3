(** kiss_fft_next_fast_size. *)
From Coq Require Import Lia Znumtheory Zpow_facts.
From Verif Require Import Base Spec Kiss History KissInverse SpecInverse BaseProofs KissProofs.
Open Scope Z_scope.

Lemma divide_out_ok d : 2 <= d -> forall fuel m, m <> 0 -> Z.abs m < 2 ^ Z.of_nat fuel ->
  exists r e, divide_out fuel d m = Ok r /\ 0 <= e /\ m = d ^ e * r /\ ~ (d | r).
Proof.
  intros Hd. induction fuel as [|fuel IH]; intros m Hm HB; [cbn in HB; lia|]. cbn [divide_out].
  destruct (Z.eqb_spec (Z.rem m d) 0) as [E|NE].
  - assert (Q : m = d * Z.quot m d) by (pose proof (Z.quot_rem' m d); lia). set (q := Z.quot m d) in *.
    rewrite Nat2Z.inj_succ, Z.pow_succ_r in HB by lia.
    destruct (IH q) as (r & e & A & B & C & D); [nia| |].
    { rewrite Q, Z.abs_mul in HB. rewrite (Z.abs_eq d) in HB by lia. nia. }
    exists r, (e + 1). split; [exact A|]. split; [lia|]. split; [|exact D]. rewrite Q, C, Z.pow_add_r, Z.pow_1_r by lia. ring.
  - exists m, 0. split; [reflexivity|]. split; [lia|]. split; [rewrite Z.pow_0_r; ring|].
    intros (q & Q). apply NE. rewrite Q. apply Z.rem_mul. lia.
Qed.

Lemma prime_5 : prime 5.
Proof.
  apply prime_intro; [lia|]. intros n Hn. apply Zgcd_1_rel_prime.
  assert (C : n = 1 \/ n = 2 \/ n = 3 \/ n = 4) by lia. destruct C as [->|[->|[->| ->]]]; reflexivity.
Qed.

Lemma without_235_ok n : n <> 0 -> exists m, without_235 n = Ok m /\ (m | n) /\ Z.sgn m = Z.sgn n /\
  (~ (2 | m)) /\ (~ (3 | m)) /\ (~ (5 | m)) /\ exists a b c, 0 <= a /\ 0 <= b /\ 0 <= c /\ n = 2 ^ a * 3 ^ b * 5 ^ c * m.
Proof.
  intros Hn. unfold without_235. pose proof (Z.log2_nonneg (Z.abs n)) as LN. pose proof (Z.log2_spec (Z.abs n) ltac:(lia)) as LS.
  set (fuel := Z.to_nat (Z.log2 (Z.abs n) + 1)).
  assert (F : Z.abs n < 2 ^ Z.of_nat fuel) by (unfold fuel; rewrite Z2Nat.id by lia; rewrite Z.add_1_r; lia).
  clearbody fuel.
  assert (LE : forall d e r, 2 <= d -> 0 <= e -> Z.abs r <= Z.abs (d ^ e * r)).
  { intros d e r Hd He. rewrite Z.abs_mul. pose proof (Z.pow_pos_nonneg d e ltac:(lia) He). nia. }
  destruct (divide_out_ok 2 ltac:(lia) fuel n Hn F) as (m2 & a & E2 & A & Q2 & D2). rewrite E2. cbn [bind].
  pose proof (LE 2 a m2 ltac:(lia) A) as L2. rewrite <- Q2 in L2.
  destruct (divide_out_ok 3 ltac:(lia) fuel m2) as (m3 & b & E3 & B & Q3 & D3); [nia|lia|]. rewrite E3. cbn [bind].
  pose proof (LE 3 b m3 ltac:(lia) B) as L3. rewrite <- Q3 in L3.
  destruct (divide_out_ok 5 ltac:(lia) fuel m3) as (m5 & c & E5 & C & Q5 & D5); [nia|lia|]. rewrite E5.
  pose proof (Z.pow_pos_nonneg 2 a ltac:(lia) A) as P2. pose proof (Z.pow_pos_nonneg 3 b ltac:(lia) B) as P3. pose proof (Z.pow_pos_nonneg 5 c ltac:(lia) C) as P5.
  assert (Q : n = 2 ^ a * 3 ^ b * 5 ^ c * m5) by (rewrite Q2, Q3, Q5; ring).
  exists m5. split; [reflexivity|]. split; [exists (2 ^ a * 3 ^ b * 5 ^ c); exact Q|]. split.
  { rewrite Q, !Z.sgn_mul, (Z.sgn_pos (2 ^ a)), (Z.sgn_pos (3 ^ b)), (Z.sgn_pos (5 ^ c)) by lia. lia. }
  split; [intros X; apply D2; rewrite Q3, Q5; apply Z.divide_mul_r, Z.divide_mul_r; exact X|].
  split; [intros X; apply D3; rewrite Q5; apply Z.divide_mul_r; exact X|]. split; [exact D5|].
  exists a, b, c. repeat split; assumption.
Qed.

Lemma without_235_smooth n : 1 <= n -> exists m, without_235 n = Ok m /\ 1 <= m /\ (m <= 1 <-> smooth n).
Proof.
  intros Hn. destruct (without_235_ok n ltac:(lia)) as (m & E & D & S & N2 & N3 & N5 & a & b & c & A & B & C & Q).
  assert (M : 1 <= m) by (destruct (Z.sgn_spec m) as [(X & Y)|[(X & Y)|(X & Y)]]; destruct (Z.sgn_spec n) as [(X' & Y')|[(X' & Y')|(X' & Y')]]; lia).
  exists m. split; [exact E|]. split; [exact M|]. split.
  - intros L. assert (m = 1) by lia. subst m. exists a, b, c. repeat split; try assumption. rewrite Q. ring.
  - intros (a' & b' & c' & A' & B' & C' & Q').
    assert (R : rel_prime m n).
    { rewrite Q'. apply rel_prime_mult; [apply rel_prime_mult|]; apply rel_prime_Zpower_r; try assumption; apply rel_prime_sym, prime_rel_prime;
        first [apply prime_2|apply prime_3|apply prime_5|assumption]. }
    destruct R as [_ _ R]. apply Z.divide_pos_le; [lia|]. apply R; [apply Z.divide_refl|exact D].
Qed.

Lemma fast_size_found : forall fuel n m, 1 <= n <= m -> m <= INT_MAX -> smooth m -> (forall j, n <= j < m -> ~ smooth j) ->
  m - n <= Z.of_nat fuel -> fast_size_loop fuel n = Ok m.
Proof.
  induction fuel as [|fuel IH]; intros n m Hn HM S L HF; cbn [fast_size_loop];
    destruct (without_235_smooth n ltac:(lia)) as (r & E & R & X); rewrite E; cbn [bind].
  - assert (n = m) by lia. subst m. apply X in S. destruct (Z.leb_spec r 1); [reflexivity|lia].
  - destruct (Z.leb_spec r 1) as [L1|G1].
    + destruct (Z.eq_dec n m) as [->|NE]; [reflexivity|]. exfalso. apply (L n); [lia|]. apply X. exact L1.
    + assert (n <> m) by (intros ->; apply X in S; lia). rewrite cint_ok by (unfold INT_MAX in *; lia). cbn [bind].
      apply IH; try lia; try assumption. intros j Hj. apply L. lia.
Qed.
Lemma fast_size_none : forall fuel n, 1 <= n <= INT_MAX -> (forall j, n <= j <= INT_MAX -> ~ smooth j) ->
  INT_MAX - n < Z.of_nat fuel -> fast_size_loop fuel n = Undef IntOverflow.
Proof.
  induction fuel as [|fuel IH]; intros n Hn L HF; [lia|]. cbn [fast_size_loop].
  destruct (without_235_smooth n ltac:(lia)) as (r & E & R & X); rewrite E; cbn [bind].
  destruct (Z.leb_spec r 1) as [L1|G1]; [exfalso; apply (L n); [lia|]; apply X; exact L1|].
  destruct (Z.eq_dec n INT_MAX) as [->|NE]; [reflexivity|].
  rewrite cint_ok by (unfold INT_MAX in *; lia). cbn [bind]. apply IH; try lia. intros j Hj. apply L. lia.
Qed.

Lemma smooth_dec n : 1 <= n -> smooth n \/ ~ smooth n.
Proof. intros Hn. destruct (without_235_smooth n Hn) as (m & _ & _ & X). destruct (Z.le_gt_cases m 1); [left|right]; intuition lia. Qed.
Lemma least_smooth n m : 1 <= n <= m -> smooth m -> exists k, n <= k <= m /\ smooth k /\ forall j, n <= j < k -> ~ smooth j.
Proof.
  intros H S. assert (G : forall d, 0 <= d -> (exists k, n <= k < n + d /\ smooth k /\ forall j, n <= j < k -> ~ smooth j) \/ forall j, n <= j < n + d -> ~ smooth j).
  { apply natlike_ind.
    - right. intros; lia.
    - intros d Hd [(k & K & A)|A]; [left; exists k; split; [lia|exact A]|].
      destruct (smooth_dec (n + d) ltac:(lia)) as [Y|N].
      + left. exists (n + d). split; [lia|]. split; [exact Y|exact A].
      + right. intros j Hj. destruct (Z.eq_dec j (n + d)) as [->|]; [exact N|]. apply A. lia. }
  destruct (G (m - n) ltac:(lia)) as [(k & K & A)|A].
  - exists k. split; [lia|exact A].
  - exists m. split; [lia|]. split; [exact S|]. intros j Hj. apply A. lia.
Qed.
Lemma power_above n : 1 <= n -> exists e, 0 <= e /\ n <= 2 ^ e < 2 * n.
Proof.
  intros Hn. destruct (Z.eq_dec n 1) as [->|]; [exists 0; cbn; lia|].
  exists (Z.log2 (n - 1) + 1). pose proof (Z.log2_nonneg (n - 1)). pose proof (Z.log2_spec (n - 1) ltac:(lia)) as L.
  rewrite <- Z.add_1_r in L. rewrite Z.pow_add_r, Z.pow_1_r in * by lia. lia.
Qed.
Lemma power_smooth e : 0 <= e -> smooth (2 ^ e).
Proof. intros He. exists e, 0, 0. repeat split; try lia. Qed.
Lemma next_fast_size_found n k : 1 <= n -> n <= k <= INT_MAX -> smooth k -> (forall j, n <= j < k -> ~ smooth j) -> kiss_fft_next_fast_size n = Ok k.
Proof.
  intros Hn Hk S L. unfold kiss_fft_next_fast_size. apply fast_size_found; try lia; try assumption.
  destruct (power_above n Hn) as (e & He & B). rewrite Z2Nat.id by lia.
  assert (k <= 2 ^ e); [|lia]. apply Z.nlt_ge. intros X. apply (L (2 ^ e)); [lia|]. apply power_smooth. exact He.
Qed.
Lemma next_fast_size_none n : 1 <= n <= INT_MAX -> (forall j, n <= j <= INT_MAX -> ~ smooth j) -> kiss_fft_next_fast_size n = Undef IntOverflow.
Proof.
  intros Hn L. unfold kiss_fft_next_fast_size. apply fast_size_none; try assumption. rewrite Z2Nat.id by lia.
  assert (2 ^ 30 < n); [|unfold INT_MAX; lia]. apply Z.nle_gt. intros X. apply (L (2 ^ 30)); [unfold INT_MAX; lia|]. apply power_smooth. lia.
Qed.
Lemma next_fast_size_negative n : n < 0 -> kiss_fft_next_fast_size n = Ok n.
Proof.
  intros Hn. unfold kiss_fft_next_fast_size. replace (Z.to_nat n) with 0%nat by lia. cbn [fast_size_loop].
  destruct (without_235_ok n ltac:(lia)) as (m & E & _ & S & _). rewrite E. cbn [bind].
  rewrite (Z.sgn_neg n) in S by lia. destruct (Z.leb_spec m 1); [reflexivity|]. rewrite Z.sgn_pos in S by lia. lia.
Qed.
Lemma divide_zero fuel : divide_out fuel 2 0 = Undef OutOfFuel.
Proof. induction fuel as [|fuel IH]; [reflexivity|]. exact IH. Qed.

(** the largest smooth int *)
Lemma smooth_last n : smooth n -> n <= INT_MAX -> n <= 2125764000.
Proof.
  intros (a & b & c & A & B & C & Q) H.
  assert (P2 := Z.pow_pos_nonneg 2 a ltac:(lia) A). assert (P3 := Z.pow_pos_nonneg 3 b ltac:(lia) B). assert (P5 := Z.pow_pos_nonneg 5 c ltac:(lia) C).
  assert (A' : a < 31).
  { apply Z.nle_gt. intros X. pose proof (Z.pow_le_mono_r 2 31 a ltac:(lia) X). unfold INT_MAX in H. change (2 ^ 31) with 2147483648 in *. nia. }
  assert (B' : b < 20).
  { apply Z.nle_gt. intros X. pose proof (Z.pow_le_mono_r 3 20 b ltac:(lia) X) as Y. change (3 ^ 20) with 3486784401 in Y. unfold INT_MAX in H. change (2 ^ 31) with 2147483648 in *.
    assert (3 ^ b <= n) by (rewrite Q; nia). lia. }
  assert (C' : c < 14).
  { apply Z.nle_gt. intros X. pose proof (Z.pow_le_mono_r 5 14 c ltac:(lia) X) as Y. change (5 ^ 14) with 6103515625 in Y. unfold INT_MAX in H. change (2 ^ 31) with 2147483648 in *.
    assert (5 ^ c <= n) by (rewrite Q; nia). lia. }
  assert (G : forallb (fun a => forallb (fun b => forallb (fun c =>
     let v := 2 ^ a * 3 ^ b * 5 ^ c in (v <=? 2125764000) || (INT_MAX <? v)) (zrange 0 14)) (zrange 0 20)) (zrange 0 31) = true) by (vm_compute; reflexivity).
  rewrite forallb_forall in G. specialize (G a ltac:(apply in_zrange; lia)). rewrite forallb_forall in G. specialize (G b ltac:(apply in_zrange; lia)).
  rewrite forallb_forall in G. specialize (G c ltac:(apply in_zrange; lia)). cbv zeta in G. rewrite <- Q in G. lia.
Qed.
Lemma smooth_2125764000 : smooth 2125764000.
Proof. exists 5, 12, 3. repeat split; lia. Qed.
