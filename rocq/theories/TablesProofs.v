(** The trigonometric tables of the KISS transform are accurate. *)
From Coq Require Import ZArith Reals Lra Lia Psatz Machin.
From Flocq Require Import Core Relative IEEE754.BinarySingleNaN IEEE754.Binary IEEE754.Bits.
From Verif Require Import Base Flt FltProofs BaseProofs Kiss SpecTransform SpecAccuracy RoundProofs Tables SpecTables InterpolateKernels.
Open Scope R_scope.

(** ** Pi *)
Lemma pi_literal_ok : dfin pi_literal = true /\ rd pi_literal = 884279719003555 / 281474976710656.
Proof.
  unfold pi_literal. pose proof (binary_normalize_correct 53 1024 eq_refl eq_refl mode_NE 884279719003555 (-48) false) as C.
  change (round_mode mode_NE) with ZnearestE in C. fold (rnd64 (F2R (Float radix2 884279719003555 (-48)))) in C.
  assert (V : F2R (Float radix2 884279719003555 (-48)) = 884279719003555 / 281474976710656) by (unfold F2R; cbn; lra).
  rewrite rnd64_id in C.
  2:{ change fexp64 with (FLT_exp (-1074) 53). apply generic_format_FLT. exists (Float radix2 884279719003555 (-48)); cbn; try lia. reflexivity. }
  rewrite V in C. rewrite Rlt_bool_true in C.
  - destruct C as (C1 & C2 & _). split; assumption.
  - rewrite Rabs_pos_eq by lra. apply Rlt_le_trans with (bpow radix2 2); [cbn; lra|apply bpow_le; lia].
Qed.


Lemma pi_bound : Rabs (884279719003555 / 281474976710656 - PI) <= / 1073741824.
Proof.
  destruct (PI_2_3_7_ineq 5) as (L & H). revert L H. unfold tg_alt, PI_2_3_7_tg, Ratan_seq.
  cbn [sum_f_R0 Nat.mul Nat.add]. rewrite !INR_IZR_INZ. cbn [Z.of_nat Pos.of_succ_nat Pos.succ pow]. intros L H.
  apply Rabs_le. lra.
Qed.

(** ** Doubles *)
Definition ulpd : R := / 1099511627776.   (* 2^-40: ample *)
Lemma rnd64_small r Y : Rabs r <= Y -> 1 <= Y -> Rabs (rnd64 r - r) <= ulpd * Y.
Proof.
  intros Hr HY. unfold rnd64. change fexp64 with (FLT_exp (-1074) 53).
  destruct (error_N_FLT radix2 (-1074) 53 ltac:(lia) (fun x => negb (Z.even x)) r) as (eps & eta & He & Ht & Hp & ->).
  replace (r * (1 + eps) + eta - r) with (r * eps + eta) by ring.
  assert (U : ulpd = bpow radix2 (-40)) by (unfold ulpd; cbn; lra). assert (P : 0 < ulpd) by (unfold ulpd; lra).
  destruct (Rmult_integral _ _ Hp) as [->| ->].
  - rewrite Rmult_0_r, Rplus_0_l. eapply Rle_trans; [exact Ht|].
    apply Rle_trans with (ulpd * 1); [|apply Rmult_le_compat_l; lra].
    rewrite Rmult_1_r, U. apply Rle_trans with (bpow radix2 (-1074)); [|apply bpow_le; lia].
    pose proof (bpow_gt_0 radix2 (-1074)). lra.
  - rewrite Rplus_0_r, Rabs_mult, (Rmult_comm ulpd). apply Rmult_le_compat; try apply Rabs_pos; [exact Hr|].
    eapply Rle_trans; [exact He|]. rewrite U. apply Rle_trans with (bpow radix2 (- (53) + 1)); [|apply bpow_le; lia].
    pose proof (bpow_gt_0 radix2 (- (53) + 1)). lra.
Qed.

(** [x] is finite and within e of r *)
Definition nearby (x : f64) (r e : R) : Prop := dfin x = true /\ Rabs (rd x - r) <= e.
Lemma nearby_more x r e e' : nearby x r e -> e <= e' -> nearby x r e'.
Proof. intros (F & B) H. split; [exact F|]. lra. Qed.
Definition huge : R := IZR (2 ^ 60).
Lemma huge_bpow r : Rabs r <= huge -> Rabs r <= bpow radix2 1023.
Proof. intros H. eapply Rle_trans; [exact H|]. unfold huge. rewrite <- (bpow_IZR 60) by lia. apply bpow_le. lia. Qed.

Lemma dmul_rnd a b : dfin a = true -> dfin b = true -> Rabs (rd a * rd b) <= huge ->
  dfin (dmul a b) = true /\ rd (dmul a b) = rnd64 (rd a * rd b).
Proof.
  intros Fa Fb H. apply huge_bpow in H. unfold dmul, b64_mult.
  match goal with |- context [Bmult _ _ ?p1 ?p2 ?n _ _ _] => pose proof (Bmult_correct 53 1024 p1 p2 n mode_NE a b) as C end.
  change (round_mode mode_NE) with ZnearestE in C. fold (rnd64 (rd a * rd b)) in C.
  rewrite small_lt_emax64 in C by exact H. destruct C as (C1 & C2 & _). unfold dfin in *.
  rewrite Fa, Fb in C2. split; assumption.
Qed.
Lemma dadd_rnd a b : dfin a = true -> dfin b = true -> Rabs (rd a + rd b) <= huge ->
  dfin (dadd a b) = true /\ rd (dadd a b) = rnd64 (rd a + rd b).
Proof.
  intros Fa Fb H. apply huge_bpow in H. unfold dadd, b64_plus.
  match goal with |- context [Bplus _ _ ?p1 ?p2 ?n _ _ _] => pose proof (Bplus_correct 53 1024 p1 p2 n mode_NE a b Fa Fb) as C end.
  change (round_mode mode_NE) with ZnearestE in C. fold (rnd64 (rd a + rd b)) in C.
  rewrite small_lt_emax64 in C by exact H. destruct C as (C1 & C2 & _). split; assumption.
Qed.
Lemma ddiv_rnd a b : dfin a = true -> rd b <> 0 -> Rabs (rd a / rd b) <= huge ->
  dfin (ddiv a b) = true /\ rd (ddiv a b) = rnd64 (rd a / rd b).
Proof.
  intros Fa Nb H. apply huge_bpow in H. unfold ddiv, b64_div.
  match goal with |- context [Bdiv _ _ ?p1 ?p2 ?n _ _ _] => pose proof (Bdiv_correct 53 1024 p1 p2 n mode_NE a b Nb) as C end.
  change (round_mode mode_NE) with ZnearestE in C. fold (rnd64 (rd a / rd b)) in C.
  rewrite small_lt_emax64 in C by exact H. destruct C as (C1 & C2 & _). unfold dfin in *. rewrite Fa in C2. split; assumption.
Qed.
Lemma dopp_rnd a : dfin (dopp a) = dfin a /\ rd (dopp a) = - rd a.
Proof. split; [apply is_finite_Bopp|apply B2R_Bopp]. Qed.
Lemma d_of_Z z : (Z.abs z <= 2^53)%Z -> dfin (f64_of_Z z) = true /\ rd (f64_of_Z z) = IZR z.
Proof.
  intros H. unfold f64_of_Z. pose proof (binary_normalize_correct 53 1024 eq_refl eq_refl mode_NE z 0 false) as C.
  change (round_mode mode_NE) with ZnearestE in C. replace (F2R (Float radix2 z 0)) with (IZR z) in C by (unfold F2R; cbn; lra).
  fold (rnd64 (IZR z)) in C. rewrite rnd64_Z in C by exact H. rewrite Rlt_bool_true in C.
  - destruct C as (C1 & C2 & _). split; assumption.
  - rewrite <- abs_IZR. apply Rle_lt_trans with (bpow radix2 53); [rewrite bpow_IZR by lia; apply IZR_le; exact H|apply bpow_lt; lia].
Qed.

(** ** Entries *)
Lemma f32_of_f64_rnd x : dfin x = true -> Rabs (rd x) <= bpow radix2 127 -> ffinite (f32_of_f64 x) = true /\ rf (f32_of_f64 x) = rnd32 (rd x).
Proof.
  intros F B. destruct x as [s|s|s pl H|s m e H]; try discriminate.
  - cbn. rewrite rnd32_0. split; reflexivity.
  - unfold f32_of_f64. pose proof (binary_normalize_correct 24 128 eq_refl eq_refl mode_NE (cond_Zopp s (Zpos m)) e s) as C.
    change (round_mode mode_NE) with ZnearestE in C.
    change (F2R {| Fnum := cond_Zopp s (Zpos m); Fexp := e |}) with (rd (B754_finite 53 1024 s m e H)) in C.
    fold (rnd32 (rd (B754_finite 53 1024 s m e H))) in C. rewrite small_lt_emax32 in C by exact B.
    destruct C as (C1 & C2 & _). split; assumption.
Qed.
(** rounding a number of magnitude about 1 costs at most 2^-25 *)
Lemma rnd32_unit r : Rabs r <= 1 + / 1073741824 -> Rabs (rnd32 r - r) <= / 33554432.
Proof.
  intros H. set (m := ZnearestE (r * 16777216)).
  assert (D : Rabs (IZR m - r * 16777216) <= /2) by (unfold m; rewrite Rabs_minus_sym; apply Znearest_half).
  assert (MB : (Z.abs m <= 2^24)%Z).
  { apply Rabs_le_inv in D. apply Rabs_le_inv in H.
    apply Z.abs_le; split; apply Z.lt_succ_r; apply lt_IZR; rewrite ?succ_IZR, ?opp_IZR; change (IZR (2 ^ 24)) with 16777216; lra. }
  assert (V : F2R (Float radix2 m (-24)) = IZR m / 16777216) by (unfold F2R; cbn; lra).
  assert (G : generic_format radix2 fexp32 (F2R (Float radix2 m (-24)))).
  { destruct (Z.eq_dec (Z.abs m) (2^24)) as [E|N].
    - assert (C : m = (2^24)%Z \/ m = (- 2^24)%Z) by lia. rewrite V. destruct C as [->| ->].
      + replace (IZR (2^24) / 16777216) with (IZR 1) by (cbn; field). apply fmt32_Z. lia.
      + replace (IZR (- 2^24) / 16777216) with (IZR (-1)) by (cbn; field). apply fmt32_Z. lia.
    - change fexp32 with (FLT_exp (-149) 24). apply generic_format_FLT. exists (Float radix2 m (-24)); cbn; try lia. reflexivity. }
  pose proof (round_N_pt radix2 fexp32 (fun x => negb (Z.even x)) r) as (_ & N). specialize (N _ G). fold (rnd32 r) in N.
  eapply Rle_trans; [exact N|]. rewrite V. replace (IZR m / 16777216 - r) with ((IZR m - r * 16777216) / 16777216) by field.
  unfold Rdiv. rewrite Rabs_mult, (Rabs_pos_eq (/ 16777216)) by lra. lra.
Qed.
Lemma entry_close y r : near64 y r -> Rabs r <= 1 -> forall s, Rabs (r - s) <= / 67108864 -> close32 (f32_of_f64 y) s.
Proof.
  intros (F & B) R1 s S. assert (Y : Rabs (rd y) <= 1 + / 1073741824).
  { replace (rd y) with (rd y - r + r) by ring. eapply Rle_trans; [apply Rabs_triang|]. lra. }
  destruct (f32_of_f64_rnd y F) as (F' & V).
  { apply Rle_trans with 2; [lra|]. apply Rle_trans with (bpow radix2 1); [cbn; lra|apply bpow_le; lia]. }
  split; [exact F'|]. rewrite V. pose proof (rnd32_unit _ Y) as E.
  replace (rnd32 (rd y) - s) with ((rnd32 (rd y) - rd y) + ((rd y - r) + (r - s))) by ring.
  eapply Rle_trans; [apply Rabs_triang|]. pose proof (Rabs_triang (rd y - r) (r - s)). lra.
Qed.
Lemma cos_close a b : Rabs (cos a - cos b) <= Rabs (a - b).
Proof. rewrite <- !sin_shift. eapply Rle_trans; [apply sin_close|]. right. rewrite <- Rabs_Ropp. f_equal. ring. Qed.
Lemma cexp_close M phase t : libm_ok M -> nearby phase t (/ 67108864) -> Rabs t <= 7 -> close_pair (kf_cexp M phase) (cis t).
Proof.
  intros OK (F & B) T. assert (P : Rabs (rd phase) <= 8).
  { replace (rd phase) with (rd phase - t + t) by ring. eapply Rle_trans; [apply Rabs_triang|]. lra. }
  split; cbn [kf_cexp cis fst snd].
  - apply (entry_close _ _ (lm_cos M OK phase F P)); [apply Rabs_le; pose proof (COS_bound (rd phase)); lra|].
    eapply Rle_trans; [apply cos_close|exact B].
  - apply (entry_close _ _ (lm_sin M OK phase F P)); [apply Rabs_le; pose proof (SIN_bound (rd phase)); lra|].
    eapply Rle_trans; [apply sin_close|exact B].
Qed.

(** ** Phases *)
Lemma nearby_round x v r e Y : dfin x = true -> rd x = rnd64 v -> Rabs (v - r) <= e -> Rabs r + e <= Y -> 1 <= Y ->
  nearby x r (e + ulpd * Y).
Proof.
  intros F V E B Y1. split; [exact F|]. rewrite V. replace (rnd64 v - r) with ((rnd64 v - v) + (v - r)) by ring.
  eapply Rle_trans; [apply Rabs_triang|]. assert (Rabs v <= Y).
  { replace v with ((v - r) + r) by ring. eapply Rle_trans; [apply Rabs_triang|]. lra. }
  pose proof (rnd64_small v Y H Y1). lra.
Qed.
Lemma nearby_mul a b r q e Y : nearby a r e -> dfin b = true -> rd b = q -> Rabs (r * q) + e * Rabs q <= Y -> 1 <= Y <= huge ->
  nearby (dmul a b) (r * q) (e * Rabs q + ulpd * Y).
Proof.
  intros (F & E) Fb <- B Y1. assert (Q : Rabs (rd a * rd b - r * rd b) <= e * Rabs (rd b)).
  { replace (rd a * rd b - r * rd b) with ((rd a - r) * rd b) by ring. rewrite Rabs_mult. apply Rmult_le_compat_r; [apply Rabs_pos|exact E]. }
  assert (H : Rabs (rd a * rd b) <= huge).
  { replace (rd a * rd b) with ((rd a * rd b - r * rd b) + r * rd b) by ring. eapply Rle_trans; [apply Rabs_triang|]. lra. }
  destruct (dmul_rnd a b F Fb H) as (F' & V). eapply nearby_round; try eassumption. lra.
Qed.
Lemma nearby_lmul a b r q e Y : nearby b r e -> dfin a = true -> rd a = q -> Rabs (r * q) + e * Rabs q <= Y -> 1 <= Y <= huge ->
  nearby (dmul a b) (r * q) (e * Rabs q + ulpd * Y).
Proof.
  intros (F & E) Fb <- B Y1. assert (Q : Rabs (rd a * rd b - r * rd a) <= e * Rabs (rd a)).
  { replace (rd a * rd b - r * rd a) with ((rd b - r) * rd a) by ring. rewrite Rabs_mult. apply Rmult_le_compat_r; [apply Rabs_pos|exact E]. }
  assert (H : Rabs (rd a * rd b) <= huge).
  { replace (rd a * rd b) with ((rd a * rd b - r * rd a) + r * rd a) by ring. eapply Rle_trans; [apply Rabs_triang|]. lra. }
  destruct (dmul_rnd a b Fb F H) as (F' & V). eapply nearby_round; try eassumption. lra.
Qed.
Lemma nearby_div a b r n e Y : nearby a r e -> rd b = n -> 1 <= n -> Rabs (r / n) + e / n <= Y -> 1 <= Y <= huge ->
  nearby (ddiv a b) (r / n) (e / n + ulpd * Y).
Proof.
  intros (F & E) <- N B Y1. assert (P : 0 < / rd b) by (apply Rinv_0_lt_compat; lra).
  assert (Q : Rabs (rd a / rd b - r / rd b) <= e / rd b).
  { replace (rd a / rd b - r / rd b) with ((rd a - r) * / rd b) by (unfold Rdiv; ring). rewrite Rabs_mult, (Rabs_pos_eq (/ rd b)) by lra.
    apply Rmult_le_compat_r; [lra|exact E]. }
  assert (H : Rabs (rd a / rd b) <= huge).
  { replace (rd a / rd b) with ((rd a / rd b - r / rd b) + r / rd b) by ring. eapply Rle_trans; [apply Rabs_triang|]. lra. }
  destruct (ddiv_rnd a b F ltac:(lra) H) as (F' & V). eapply nearby_round; try eassumption. lra.
Qed.
Lemma nearby_opp a r e : nearby a r e -> nearby (dopp a) (- r) e.
Proof.
  intros (F & E). destruct (dopp_rnd a) as (F' & V). split; [rewrite F'; exact F|]. rewrite V. replace (- rd a - - r) with (- (rd a - r)) by ring.
  rewrite Rabs_Ropp. exact E.
Qed.

Definition tiny : R := / 1073741824.
Lemma pi_within : nearby pi_literal PI tiny.
Proof. destruct pi_literal_ok as (F & V). split; [exact F|]. rewrite V. exact pi_bound. Qed.
Lemma pi_range : 3 <= PI <= 13 / 4.
Proof. pose proof pi_bound as H. apply Rabs_le_inv in H. lra. Qed.
Lemma huge_big : 4611686018427387 <= huge.
Proof. unfold huge. apply IZR_le. lia. Qed.

Section SIZE.
Variables n i : Z.
Hypothesis Hn : (1 <= n <= 2^40)%Z.
Hypothesis Hi : (0 <= i < n)%Z.
Local Notation N := (IZR n).
Local Notation I := (IZR i).
Lemma N_range : 1 <= N <= 1099511627776.
Proof. split; [apply (IZR_le 1)|apply (IZR_le _ 1099511627776)]; lia. Qed.
Lemma I_range : 0 <= I <= N.
Proof. split; [apply (IZR_le 0)|apply IZR_le]; lia. Qed.
Lemma part : 0 <= I / N <= 1.
Proof.
  pose proof N_range. pose proof I_range. split; [apply Rmult_le_pos; [lra|]; left; apply Rinv_0_lt_compat; lra|].
  apply (Rmult_le_reg_r N); [lra|]. replace (I / N * N) with I by (field; lra). lra.
Qed.

(** (c * i) / m where c is about r, of magnitude at most 7, for a divisor of at least n *)
Lemma ratio_within c r e b m : nearby c r e -> Rabs r <= 7 -> 0 <= e <= / 134217728 -> rd b = m -> N <= m ->
  nearby (ddiv (dmul c (f64_of_Z i)) b) (r * I / m) (/ 67108864).
Proof.
  intros W R7 E Vb Hm. pose proof N_range as NR. pose proof I_range as IR. pose proof huge_big as HB.
  destruct (d_of_Z i ltac:(lia)) as (Fi & Vi).
  assert (AI : Rabs I = I) by (apply Rabs_pos_eq; lra).
  assert (W1 : nearby (dmul c (f64_of_Z i)) (r * I) (e * Rabs I + ulpd * (8 * m))).
  { assert (W2 : nearby (dmul c (f64_of_Z i)) (r * I) (e * Rabs I + ulpd * (8 * N))).
    { apply nearby_mul; try assumption; [|lra]. rewrite Rabs_mult, AI.
      assert (Rabs r * I <= 7 * N) by (apply Rmult_le_compat; try lra; apply Rabs_pos). assert (e * I <= 1 * N) by (apply Rmult_le_compat; lra). lra. }
    eapply nearby_more; [exact W2|]. unfold ulpd. lra. }
  rewrite AI in W1.
  assert (M0 : 0 < / m) by (apply Rinv_0_lt_compat; lra).
  assert (P : 0 <= I / m <= 1).
  { split; [apply Rmult_le_pos; lra|]. apply (Rmult_le_reg_r m); [lra|]. replace (I / m * m) with I by (field; lra). lra. }
  assert (EM : (e * I + ulpd * (8 * m)) / m = e * (I / m) + 8 * ulpd) by (field; lra).
  assert (EE : e * (I / m) <= / 134217728 * 1) by (apply Rmult_le_compat; lra).
  assert (RM : Rabs (r * I / m) <= 7 * 1).
  { replace (r * I / m) with (r * (I / m)) by (field; lra). rewrite Rabs_mult, (Rabs_pos_eq (I / m)) by lra. apply Rmult_le_compat; try lra. apply Rabs_pos. }
  eapply nearby_more; [eapply (nearby_div _ b _ m _ 8 W1 Vb); [lra| |]|]; rewrite ?EM; unfold ulpd; lra.
Qed.

Lemma twiddle_within : nearby (twiddle_phase n i) (- (2 * PI * I / N)) (/ 67108864).
Proof.
  pose proof pi_range as PR. pose proof huge_big as HB. destruct (d_of_Z (-2) ltac:(lia)) as (F2 & V2). destruct (d_of_Z n ltac:(lia)) as (Fn & Vn).
  assert (A2 : Rabs (-2) = 2) by (rewrite Rabs_left by lra; lra).
  assert (W : nearby (dmul (f64_of_Z (-2)) pi_literal) (PI * -2) (tiny * Rabs (-2) + ulpd * 8)).
  { apply nearby_lmul; [exact pi_within|exact F2|exact V2| |lra]. rewrite Rabs_mult, A2, Rabs_pos_eq by lra. unfold tiny. lra. }
  rewrite A2 in W. replace (- (2 * PI * I / N)) with (PI * -2 * I / N) by (unfold Rdiv; ring).
  eapply nearby_more; [eapply (ratio_within _ _ _ _ N W)|]; [ | |exact Vn|lra|lra].
  - rewrite Rabs_mult, A2, Rabs_pos_eq by lra. lra.
  - unfold tiny, ulpd. lra.
Qed.

Lemma super_within : nearby (super_phase n i) (- (PI * (IZR (i + 1) / N + 1/2))) (/ 67108864).
Proof.
  pose proof pi_range as PR. pose proof huge_big as HB. pose proof N_range as NR. pose proof I_range as IR.
  destruct (d_of_Z (i + 1) ltac:(lia)) as (F1 & V1). destruct (d_of_Z n ltac:(lia)) as (Fn & Vn).
  destruct (d_of_Z 1 ltac:(lia)) as (Fa & Va). destruct (d_of_Z 2 ltac:(lia)) as (Fb & Vb).
  set (q := IZR (i + 1) / N).
  assert (Q : 0 <= q <= 1).
  { unfold q. assert (0 < / N) by (apply Rinv_0_lt_compat; lra). assert (0 <= IZR (i + 1)) by (apply (IZR_le 0); lia).
    split; [apply Rmult_le_pos; lra|]. apply (Rmult_le_reg_r N); [lra|]. replace (IZR (i + 1) / N * N) with (IZR (i + 1)) by (field; lra).
    rewrite Rmult_1_l. apply IZR_le. lia. }
  assert (W1 : nearby (ddiv (f64_of_Z (i + 1)) (f64_of_Z n)) q (ulpd * 1)).
  { destruct (ddiv_rnd (f64_of_Z (i + 1)) (f64_of_Z n) F1) as (F & V); [rewrite Vn; lra| |].
    - rewrite V1, Vn. fold q. rewrite Rabs_pos_eq by lra. lra.
    - rewrite V1, Vn in V. fold q in V. split; [exact F|]. rewrite V. apply rnd64_small; [rewrite Rabs_pos_eq by lra; lra|lra]. }
  assert (W2 : nearby (ddiv (f64_of_Z 1) (f64_of_Z 2)) (1/2) (ulpd * 1)).
  { destruct (ddiv_rnd (f64_of_Z 1) (f64_of_Z 2) Fa) as (F & V); [rewrite Vb; lra| |]; rewrite Va, Vb in *; [rewrite Rabs_pos_eq by lra; lra|].
    split; [exact F|]. rewrite V. apply rnd64_small; [rewrite Rabs_pos_eq by lra; lra|lra]. }
  assert (W3 : nearby (dadd (ddiv (f64_of_Z (i + 1)) (f64_of_Z n)) (ddiv (f64_of_Z 1) (f64_of_Z 2))) (q + 1/2) (ulpd * 4)).
  { destruct W1 as (G1 & B1). destruct W2 as (G2 & B2). apply Rabs_le_inv in B1. apply Rabs_le_inv in B2.
    match goal with |- nearby (dadd ?a ?b) _ _ => set (x := a) in *; set (y := b) in * end.
    assert (S : Rabs (rd x + rd y - (q + 1/2)) <= ulpd * 2) by (apply Rabs_le; lra).
    destruct (dadd_rnd x y G1 G2) as (F & V); [apply Rabs_le; unfold ulpd in *; lra|].
    eapply nearby_more; [eapply (nearby_round _ _ (q + 1/2) _ 2 F V S)|]; unfold ulpd; try lra. rewrite Rabs_pos_eq by lra. lra. }
  pose proof (nearby_opp _ _ _ pi_within) as (FP & BP). destruct W3 as (F3 & B3).
  unfold super_phase. match goal with |- nearby (dmul ?a ?b) _ _ => set (x := a) in *; set (y := b) in * end.
  assert (S : Rabs (rd x * rd y - - (PI * (q + 1/2))) <= tiny * 2 + ulpd * 16).
  { replace (rd x * rd y - - (PI * (q + 1/2))) with ((rd x - - PI) * rd y + (- PI) * (rd y - (q + 1/2))) by ring.
    eapply Rle_trans; [apply Rabs_triang|]. rewrite !Rabs_mult, Rabs_Ropp, (Rabs_pos_eq PI) by lra.
    assert (Rabs (rd y) <= 2). { apply Rabs_le_inv in B3. apply Rabs_le. unfold ulpd in *. lra. }
    assert (Rabs (rd x - - PI) * Rabs (rd y) <= tiny * 2) by (apply Rmult_le_compat; try apply Rabs_pos; assumption).
    assert (PI * Rabs (rd y - (q + 1 / 2)) <= 4 * (ulpd * 4)) by (apply Rmult_le_compat; try apply Rabs_pos; try lra). lra. }
  assert (PQ : 0 <= PI * (q + 1/2) <= 4 * (3/2)) by (split; [apply Rmult_le_pos|apply Rmult_le_compat]; lra).
  destruct (dmul_rnd x y FP F3) as (F & V).
  { apply Rabs_le_inv in S. apply Rabs_le. unfold tiny, ulpd in *. lra. }
  eapply nearby_more; [eapply (nearby_round _ _ _ _ 8 F V S)|]; unfold tiny, ulpd; try lra. rewrite Rabs_Ropp, Rabs_pos_eq by lra. lra.
Qed.

Lemma shift_within M : libm_ok M -> nearby (shift_phase M n i) (- (PI * I / (2 * N))) (/ 67108864).
Proof.
  intros OK. pose proof pi_range as PR. pose proof huge_big as HB. pose proof N_range as NR.
  destruct (d_of_Z 4 ltac:(lia)) as (F4 & V4). unfold shift_phase. rewrite wrap_small by (unfold SIZE_MAX; lia). destruct (d_of_Z (2 * n) ltac:(lia)) as (Fn & Vn).
  rewrite mult_IZR in Vn.
  assert (W : nearby (dmul (m_atan M (f64_of_Z 1)) (f64_of_Z 4)) (PI / 4 * 4) (tiny * Rabs 4 + ulpd * 4)).
  { apply nearby_mul; [|exact F4|exact V4| |lra].
    - pose proof (lm_atan M OK) as A. rewrite atan_1 in A. exact A.
    - rewrite Rabs_pos_eq, (Rabs_pos_eq 4) by lra. unfold tiny. lra. }
  rewrite (Rabs_pos_eq 4) in W by lra. replace (PI / 4 * 4) with PI in W by field. apply nearby_opp in W.
  replace (- (PI * I / (2 * N))) with (- PI * I / (2 * N)) by (unfold Rdiv; ring).
  eapply nearby_more; [eapply (ratio_within _ _ _ _ (2 * N) W)|]; [ | |exact Vn|lra|lra].
  - rewrite Rabs_Ropp, Rabs_pos_eq by lra. lra.
  - unfold tiny, ulpd. lra.
Qed.

Lemma entries_close M : libm_ok M ->
  close_pair (twiddle_table M n i) (o_twiddle exact_ops n i) /\
  close_pair (super_table M n i) (o_super exact_ops n i) /\
  close_pair (shift_table M n i) (o_shift exact_ops n i).
Proof.
  intros OK. pose proof part as P. pose proof pi_range as PR. pose proof N_range as NR. pose proof I_range as IR.
  assert (D : 0 < / N <= 1) by (split; [apply Rinv_0_lt_compat; lra|rewrite <- Rinv_1; apply Rinv_le; lra]).
  split; [|split]; cbn [exact_ops o_twiddle o_super o_shift]; apply cexp_close; try exact OK.
  - exact twiddle_within.
  - rewrite Rabs_Ropp. replace (2 * PI * I / N) with (2 * PI * (I / N)) by (field; lra).
    assert (0 <= PI * (I / N) <= 13/4 * 1) by (split; [apply Rmult_le_pos|apply Rmult_le_compat]; lra). rewrite Rabs_pos_eq; lra.
  - exact super_within.
  - rewrite Rabs_Ropp. assert (Q : 0 <= IZR (i + 1) / N <= 1).
    { split; [apply Rmult_le_pos; [apply (IZR_le 0); lia|lra]|]. apply (Rmult_le_reg_r N); [lra|]. replace (IZR (i + 1) / N * N) with (IZR (i + 1)) by (field; lra).
      rewrite Rmult_1_l. apply IZR_le. lia. }
    assert (0 <= PI * (IZR (i + 1) / N + 1/2) <= 13/4 * (3/2)) by (split; [apply Rmult_le_pos|apply Rmult_le_compat]; lra). rewrite Rabs_pos_eq; lra.
  - apply shift_within. exact OK.
  - rewrite Rabs_Ropp. replace (PI * I / (2 * N)) with (PI * (I / N) / 2) by (field; lra).
    assert (0 <= PI * (I / N) <= 13/4 * 1) by (split; [apply Rmult_le_pos|apply Rmult_le_compat]; lra). rewrite Rabs_pos_eq; lra.
Qed.
End SIZE.

Lemma tables_from_libm M n : libm_ok M -> (1 <= n <= 2^40)%Z -> tables_close (twiddle_table M) (super_table M) (shift_table M) n.
Proof. intros OK Hn i Hi. apply entries_close; assumption. Qed.
