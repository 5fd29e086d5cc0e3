(** The trigonometric tables of the KISS transform are accurate in every precision. *)
From Coq Require Import ZArith Reals Lra Lia Psatz Machin.
From Flocq Require Import Core Relative IEEE754.BinarySingleNaN IEEE754.Binary IEEE754.Bits.
From Verif Require Import Base Flt FltProofs BaseProofs Precision SpecPrecision PrecisionProofs Kiss SpecTransform SpecAccuracy RoundProofs.
From Verif Require Import KissPrecision SpecKissPrecision KissAccuracy Tables TablesProofs TablesPrecision SpecTablesPrecision InterpolateKernels KissPrecisionProofs.
Open Scope R_scope.

(** ** Pi *)
Definition e51 : R := / 2251799813685248.
Lemma pi_bound51 : Rabs (884279719003555 / 281474976710656 - PI) <= e51.
Proof.
  destruct (PI_2_3_7_ineq 8) as (L & H). revert L H. unfold tg_alt, PI_2_3_7_tg, Ratan_seq.
  cbn [sum_f_R0 Nat.mul Nat.add]. rewrite !INR_IZR_INZ. cbn [Z.of_nat Pos.of_succ_nat Pos.succ pow]. unfold e51. intros L H.
  apply Rabs_le. lra.
Qed.
Lemma pi_close : within_unit binary64_format e51 pi_literal PI.
Proof. destruct pi_literal_ok as (F & V). split; [exact F|]. change (real binary64_format pi_literal) with (rd pi_literal). rewrite V. exact pi_bound51. Qed.

(** ** Numbers *)
Definition e52 : R := / 4503599627370496.
Lemma e52_bpow : e52 = bpow radix2 (-52). Proof. unfold e52. cbn. lra. Qed.

Lemma convert_rnd F G x : roomy G -> finite F x = true -> Rabs (real F x) <= 2 -> finite G (convert F G x) = true /\ real G (convert F G x) = rn G (real F x).
Proof.
  intros RG A B. unfold finite, real in *. destruct x as [s|s|s pl H|s m e H]; try discriminate.
  - cbn [convert is_finite B2R]. rewrite rn_0 by exact RG. split; reflexivity.
  - unfold convert. pose proof (binary_normalize_correct (f_prec G) (f_emax G) (f_pos G) (f_room G) mode_NE (cond_Zopp s (Zpos m)) e s) as C.
    change (round_mode mode_NE) with ZnearestE in C.
    change (F2R {| Fnum := cond_Zopp s (Zpos m); Fexp := e |}) with (B2R _ _ (B754_finite (f_prec F) (f_emax F) s m e H)) in C.
    fold (rn G (B2R _ _ (B754_finite (f_prec F) (f_emax F) s m e H))) in C.
    rewrite (rn_top G RG) in C. { destruct C as (C1 & C2 & _). split; assumption. }
    eapply Rle_trans; [exact B|]. change 2 with (bpow radix2 1). apply bpow_le. destruct RG. lia.
Qed.

Section Unit.
Context (F : format) (RM : roomy F) (rr : R) (RR : bpow radix2 (- f_prec F) <= rr).
Lemma rn_small r Y : Rabs r <= Y -> 1 <= Y -> Rabs (rn F r - r) <= rr * Y.
Proof. apply (rn_err F RM rr RR). Qed.
Lemma huge_limit r : Rabs r <= huge -> Rabs r <= 2000 * big.
Proof. intros H. eapply Rle_trans; [exact H|]. unfold huge, big. rewrite <- mult_IZR. apply IZR_le. vm_compute. discriminate. Qed.
Lemma div_rnd a b : finite F a = true -> real F b <> 0 -> Rabs (real F a / real F b) <= huge ->
  finite F (ndiv F a b) = true /\ real F (ndiv F a b) = rn F (real F a / real F b).
Proof.
  intros Fa Nb H. pose proof (Bdiv_correct (f_prec F) (f_emax F) (f_pos F) (f_room F) (f_nan2 F) mode_NE a b Nb) as C.
  change (round_mode mode_NE) with ZnearestE in C. fold (real F a) (real F b) in C. fold (rn F (real F a / real F b)) in C.
  rewrite (big_top F RM) in C by (apply huge_limit, H). destruct C as (C1 & C2 & _). unfold finite in *. rewrite Fa in C2. split; assumption.
Qed.
Lemma of_integer z : (Z.abs z <= 2 ^ f_prec F)%Z -> finite F (num_of_Z F z) = true /\ real F (num_of_Z F z) = IZR z.
Proof.
  intros H. unfold num_of_Z. pose proof (binary_normalize_correct (f_prec F) (f_emax F) (f_pos F) (f_room F) mode_NE z 0 false) as C.
  change (round_mode mode_NE) with ZnearestE in C. replace (F2R (Float radix2 z 0)) with (IZR z) in C by (unfold F2R; cbn; lra).
  fold (rn F (IZR z)) in C. rewrite (rn_Z F RM) in C by exact H. rewrite Rlt_bool_true in C.
  - destruct C as (C1 & C2 & _). split; assumption.
  - rewrite <- abs_IZR. destruct RM. apply Rle_lt_trans with (bpow radix2 (f_prec F)); [rewrite bpow_IZR by lia; apply IZR_le; exact H|apply bpow_lt; lia].
Qed.

Notation near x r e := (within_unit F e x r).
Lemma near_more x r e e' : near x r e -> e <= e' -> near x r e'.
Proof. intros (A & B) H. split; [exact A|]. lra. Qed.
Lemma near_round x v r e Y : finite F x = true -> real F x = rn F v -> Rabs (v - r) <= e -> Rabs r + e <= Y -> 1 <= Y -> near x r (e + rr * Y).
Proof.
  intros A V E B Y1. split; [exact A|]. rewrite V. replace (rn F v - r) with ((rn F v - v) + (v - r)) by ring.
  eapply Rle_trans; [apply Rabs_triang|]. assert (Rabs v <= Y).
  { replace v with ((v - r) + r) by ring. eapply Rle_trans; [apply Rabs_triang|]. lra. }
  pose proof (rn_small v Y H Y1). lra.
Qed.
Lemma near_mul a b r q e Y : near a r e -> finite F b = true -> real F b = q -> Rabs (r * q) + e * Rabs q <= Y -> 1 <= Y <= huge ->
  near (nmul F a b) (r * q) (e * Rabs q + rr * Y).
Proof.
  intros (A & E) Fb <- B Y1. assert (Q : Rabs (real F a * real F b - r * real F b) <= e * Rabs (real F b)).
  { replace (real F a * real F b - r * real F b) with ((real F a - r) * real F b) by ring. rewrite Rabs_mult. apply Rmult_le_compat_r; [apply Rabs_pos|exact E]. }
  assert (H : Rabs (real F a * real F b) <= huge).
  { replace (real F a * real F b) with ((real F a * real F b - r * real F b) + r * real F b) by ring. eapply Rle_trans; [apply Rabs_triang|]. lra. }
  destruct (fmul_rnd F RM a b A Fb (huge_limit _ H)) as (A' & V). eapply near_round; try eassumption. lra.
Qed.
Lemma near_lmul a b r q e Y : near b r e -> finite F a = true -> real F a = q -> Rabs (r * q) + e * Rabs q <= Y -> 1 <= Y <= huge ->
  near (nmul F a b) (r * q) (e * Rabs q + rr * Y).
Proof.
  intros (A & E) Fb <- B Y1. assert (Q : Rabs (real F a * real F b - r * real F a) <= e * Rabs (real F a)).
  { replace (real F a * real F b - r * real F a) with ((real F b - r) * real F a) by ring. rewrite Rabs_mult. apply Rmult_le_compat_r; [apply Rabs_pos|exact E]. }
  assert (H : Rabs (real F a * real F b) <= huge).
  { replace (real F a * real F b) with ((real F a * real F b - r * real F a) + r * real F a) by ring. eapply Rle_trans; [apply Rabs_triang|]. lra. }
  destruct (fmul_rnd F RM a b Fb A (huge_limit _ H)) as (A' & V). eapply near_round; try eassumption. lra.
Qed.
Lemma near_div a b r n e Y : near a r e -> real F b = n -> 1 <= n -> Rabs (r / n) + e / n <= Y -> 1 <= Y <= huge ->
  near (ndiv F a b) (r / n) (e / n + rr * Y).
Proof.
  intros (A & E) <- N B Y1. assert (P : 0 < / real F b) by (apply Rinv_0_lt_compat; lra).
  assert (Q : Rabs (real F a / real F b - r / real F b) <= e / real F b).
  { replace (real F a / real F b - r / real F b) with ((real F a - r) * / real F b) by (unfold Rdiv; ring). rewrite Rabs_mult, (Rabs_pos_eq (/ real F b)) by lra.
    apply Rmult_le_compat_r; [lra|exact E]. }
  assert (H : Rabs (real F a / real F b) <= huge).
  { replace (real F a / real F b) with ((real F a / real F b - r / real F b) + r / real F b) by ring. eapply Rle_trans; [apply Rabs_triang|]. lra. }
  destruct (div_rnd a b A ltac:(lra) H) as (A' & V). eapply near_round; try eassumption. lra.
Qed.
Lemma near_opp a r e : near a r e -> near (nopp F a) (- r) e.
Proof.
  intros (A & E). destruct (fopp_rnd F a) as (A' & V). split; [rewrite A'; exact A|]. rewrite V. replace (- real F a - - r) with (- (real F a - r)) by ring.
  rewrite Rabs_Ropp. exact E.
Qed.


(** ** Entries *)
Lemma entry_near S u e d y r s : roomy S -> e <= / 2 -> (forall v, Rabs v <= 1 + e -> Rabs (rn S v - v) <= u) ->
  near y r e -> Rabs r <= 1 -> Rabs (r - s) <= d -> within_unit S (u + e + d) (convert F S y) s.
Proof.
  intros RS E2 HU (A & B) R1 D. assert (Y : Rabs (real F y) <= 1 + e).
  { replace (real F y) with (real F y - r + r) by ring. eapply Rle_trans; [apply Rabs_triang|]. lra. }
  destruct (convert_rnd F S y RS A) as (A' & V); [lra|].
  split; [exact A'|]. rewrite V. pose proof (HU _ Y) as E.
  replace (rn S (real F y) - s) with ((rn S (real F y) - real F y) + ((real F y - r) + (r - s))) by ring.
  eapply Rle_trans; [apply Rabs_triang|]. pose proof (Rabs_triang (real F y - r) (r - s)). lra.
Qed.
Lemma cexp_near S u e d Q phase t : roomy S -> e <= / 2 -> (forall v, Rabs v <= 1 + e -> Rabs (rn S v - v) <= u) ->
  maths_within F e Q -> near phase t d -> d <= 1 -> Rabs t <= 7 -> pair_within S (u + e + d) (cexp_to S F Q phase) (cis t).
Proof.
  intros RS E2 HU OK (A & B) D1 T. assert (P : Rabs (real F phase) <= 8).
  { replace (real F phase) with (real F phase - t + t) by ring. eapply Rle_trans; [apply Rabs_triang|]. lra. }
  split; cbn [cexp_to cis fst snd].
  - apply (entry_near S u e d _ _ _ RS E2 HU (mw_cos F e Q OK phase A P)); [apply Rabs_le; pose proof (COS_bound (real F phase)); lra|].
    eapply Rle_trans; [apply cos_close|exact B].
  - apply (entry_near S u e d _ _ _ RS E2 HU (mw_sin F e Q OK phase A P)); [apply Rabs_le; pose proof (SIN_bound (real F phase)); lra|].
    eapply Rle_trans; [apply sin_close|exact B].
Qed.

(** ** Phases of the shifts *)
Lemma shift_near Q e n i : rr <= / 16 -> 0 <= e <= / 16 -> (1 <= n <= 2^40)%Z -> (2 * n <= 2 ^ f_prec F)%Z -> (0 <= i < n)%Z ->
  maths_within F e Q -> near (shifting_phase F Q n i) (- (PI * IZR i / (2 * IZR n))) (2 * e + 6 * rr).
Proof.
  intros R16 E16 Hn Hp Hi OK. pose proof pi_range as PR. pose proof huge_big as HB. pose proof (N_range n Hn) as NR. pose proof (I_range n i Hi) as IR.
  assert (R0 : 0 <= rr) by (pose proof (bpow_ge_0 radix2 (- f_prec F)); lra).
  assert (P4 : (4 <= 2 ^ f_prec F)%Z). { destruct RM. apply (Z.pow_le_mono_r 2 2); lia. }
  destruct (of_integer 4 ltac:(lia)) as (F4 & V4). unfold shifting_phase. rewrite wrap_small by (unfold SIZE_MAX; lia). destruct (of_integer (2 * n) ltac:(lia)) as (Fn & Vn).
  destruct (of_integer i ltac:(lia)) as (Fi & Vi).
  rewrite mult_IZR in Vn.
  assert (W : near (nmul F (f_atan Q (num_of_Z F 1)) (num_of_Z F 4)) (PI / 4 * 4) (e * Rabs 4 + rr * 4)).
  { apply near_mul; [|exact F4|exact V4| |lra].
    - pose proof (mw_atan F e Q OK) as A. rewrite atan_1 in A. exact A.
    - rewrite Rabs_pos_eq, (Rabs_pos_eq 4) by lra. lra. }
  rewrite (Rabs_pos_eq 4) in W by lra. replace (PI / 4 * 4) with PI in W by field. apply near_opp in W.
  set (N := IZR n) in *. set (I := IZR i) in *. set (e1 := e * 4 + rr * 4) in *.
  assert (AI : Rabs I = I) by (apply Rabs_pos_eq; lra). assert (E1 : 0 <= e1 <= 1/2) by (unfold e1; lra).
  assert (W1 : near (nmul F (nopp F (nmul F (f_atan Q (num_of_Z F 1)) (num_of_Z F 4))) (num_of_Z F i)) (- PI * I) (e1 * Rabs I + rr * (4 * N))).
  { apply near_mul; try assumption; [|lra]. rewrite Rabs_mult, Rabs_Ropp, AI, (Rabs_pos_eq PI) by lra.
    assert (PI * I <= 13/4 * N) by (apply Rmult_le_compat; lra). assert (e1 * I <= 1/2 * N) by (apply Rmult_le_compat; lra). lra. }
  rewrite AI in W1. set (e2 := e1 * I + rr * (4 * N)) in *.
  assert (P : 0 <= I / N <= 1).
  { assert (0 < / N) by (apply Rinv_0_lt_compat; lra). split; [apply Rmult_le_pos; lra|]. apply (Rmult_le_reg_r N); [lra|]. replace (I / N * N) with I by (field; lra). lra. }
  assert (EM : e2 / (2 * N) = e1 * (I / N) / 2 + 2 * rr) by (unfold e2; field; lra).
  assert (EE : 0 <= e1 * (I / N) <= e1 * 1) by (split; [apply Rmult_le_pos|apply Rmult_le_compat]; lra).
  assert (PB : 0 <= PI * (I / N) <= 13/4 * 1) by (split; [apply Rmult_le_pos|apply Rmult_le_compat]; lra).
  replace (- (PI * I / (2 * N))) with (- PI * I / (2 * N)) by (unfold Rdiv; ring).
  eapply near_more; [eapply (near_div _ _ _ (2 * N) _ 2 W1 Vn); [lra| |lra]|].
  - replace (- PI * I / (2 * N)) with (- (PI * (I / N) / 2)) by (field; lra). rewrite Rabs_Ropp, Rabs_pos_eq by lra. rewrite EM. lra.
  - rewrite EM. unfold e1 in *. lra.
Qed.
End Unit.
(** ** Phases in double *)
Section Double.
Notation F := binary64_format.
Notation near x r e := (within_unit F e x r).
Lemma e52_low : bpow radix2 (- f_prec F) <= e52. Proof. rewrite e52_bpow. apply bpow_le. cbn. lia. Qed.
Lemma integer64 z : (Z.abs z <= 2^53)%Z -> finite F (num_of_Z F z) = true /\ real F (num_of_Z F z) = IZR z.
Proof. exact (of_integer F roomy64 z). Qed.
Local Notation near_mul := (near_mul F roomy64 e52 e52_low).
Local Notation near_lmul := (near_lmul F roomy64 e52 e52_low).
Local Notation near_div := (near_div F roomy64 e52 e52_low).
Local Notation near_round := (near_round F roomy64 e52 e52_low).
Local Notation rn_small := (rn_small F roomy64 e52 e52_low).
Local Notation div_rnd := (div_rnd F roomy64).
Local Notation near_more := (near_more F).
Local Notation near_opp := (near_opp F).
Section SIZE.
Variables n i : Z.
Hypothesis Hn : (1 <= n <= 2^40)%Z.
Hypothesis Hi : (0 <= i < n)%Z.
Local Notation N := (IZR n).
Local Notation I := (IZR i).
Definition e47 : R := / 140737488355328.
Definition e48 : R := / 281474976710656.

(** (c * i) / m where c is about r, of magnitude at most 7, for a divisor of at least n *)
Lemma ratio_near c r e b m : near c r e -> Rabs r <= 7 -> 0 <= e <= e48 -> real F b = m -> N <= m ->
  near (ndiv F (nmul F c (num_of_Z F i)) b) (r * I / m) e47.
Proof.
  intros W R7 E Vb Hm. pose proof (N_range n Hn) as NR. pose proof (I_range n i Hi) as IR. pose proof huge_big as HB. unfold e48 in E.
  destruct (integer64 i ltac:(lia)) as (Fi & Vi).
  assert (AI : Rabs I = I) by (apply Rabs_pos_eq; lra).
  assert (W1 : near (nmul F c (num_of_Z F i)) (r * I) (e * Rabs I + e52 * (8 * m))).
  { assert (W2 : near (nmul F c (num_of_Z F i)) (r * I) (e * Rabs I + e52 * (8 * N))).
    { apply near_mul; try assumption; [|lra]. rewrite Rabs_mult, AI.
      assert (Rabs r * I <= 7 * N) by (apply Rmult_le_compat; try lra; apply Rabs_pos). assert (e * I <= 1 * N) by (apply Rmult_le_compat; lra). lra. }
    eapply near_more; [exact W2|]. unfold e52. lra. }
  rewrite AI in W1.
  assert (M0 : 0 < / m) by (apply Rinv_0_lt_compat; lra).
  assert (P : 0 <= I / m <= 1).
  { split; [apply Rmult_le_pos; lra|]. apply (Rmult_le_reg_r m); [lra|]. replace (I / m * m) with I by (field; lra). lra. }
  assert (EM : (e * I + e52 * (8 * m)) / m = e * (I / m) + 8 * e52) by (field; lra).
  assert (EE : e * (I / m) <= e48 * 1) by (unfold e48; apply Rmult_le_compat; lra).
  assert (RB : Rabs (r * I / m) <= 7 * 1).
  { replace (r * I / m) with (r * (I / m)) by (field; lra). rewrite Rabs_mult, (Rabs_pos_eq (I / m)) by lra. apply Rmult_le_compat; try lra. apply Rabs_pos. }
  eapply near_more; [eapply (near_div _ b _ m _ 8 W1 Vb); [lra| |]|]; rewrite ?EM; unfold e47, e48, e52 in *; lra.
Qed.

Lemma twiddle_near pi : near pi PI e51 ->
  near (ndiv F (nmul F (nmul F (num_of_Z F (-2)) pi) (num_of_Z F i)) (num_of_Z F n)) (- (2 * PI * I / N)) e47.
Proof.
  intros HP. pose proof pi_range as PR. pose proof huge_big as HB. destruct (integer64 (-2) ltac:(lia)) as (F2 & V2). destruct (integer64 n ltac:(lia)) as (Fn & Vn).
  assert (A2 : Rabs (-2) = 2) by (rewrite Rabs_left by lra; lra).
  assert (W : near (nmul F (num_of_Z F (-2)) pi) (PI * -2) (e51 * Rabs (-2) + e52 * 8)).
  { apply near_lmul; [exact HP|exact F2|exact V2| |lra]. rewrite Rabs_mult, A2, Rabs_pos_eq by lra. unfold e51. lra. }
  rewrite A2 in W. replace (- (2 * PI * I / N)) with (PI * -2 * I / N) by (unfold Rdiv; ring).
  eapply (ratio_near _ _ _ _ N W); [ | |exact Vn|lra].
  - rewrite Rabs_mult, A2, Rabs_pos_eq by lra. lra.
  - unfold e48, e51, e52. lra.
Qed.

Lemma super_near pi : near pi PI e51 ->
  near (nmul F (nopp F pi) (nadd F (ndiv F (num_of_Z F (i + 1)) (num_of_Z F n)) (ndiv F (num_of_Z F 1) (num_of_Z F 2))))
    (- (PI * (IZR (i + 1) / N + 1/2))) e47.
Proof.
  intros HP. pose proof pi_range as PR. pose proof huge_big as HB. pose proof (N_range n Hn) as NR. pose proof (I_range n i Hi) as IR.
  destruct (integer64 (i + 1) ltac:(lia)) as (F1 & V1). destruct (integer64 n ltac:(lia)) as (Fn & Vn).
  destruct (integer64 1 ltac:(lia)) as (Fa & Va). destruct (integer64 2 ltac:(lia)) as (Fb & Vb).
  set (q := IZR (i + 1) / N).
  assert (Q : 0 <= q <= 1).
  { unfold q. assert (0 < / N) by (apply Rinv_0_lt_compat; lra). assert (0 <= IZR (i + 1)) by (apply (IZR_le 0); lia).
    split; [apply Rmult_le_pos; lra|]. apply (Rmult_le_reg_r N); [lra|]. replace (IZR (i + 1) / N * N) with (IZR (i + 1)) by (field; lra).
    rewrite Rmult_1_l. apply IZR_le. lia. }
  assert (W1 : near (ndiv F (num_of_Z F (i + 1)) (num_of_Z F n)) q (e52 * 1)).
  { destruct (div_rnd (num_of_Z F (i + 1)) (num_of_Z F n) F1) as (A & V); [rewrite Vn; lra| |].
    - rewrite V1, Vn. fold q. rewrite Rabs_pos_eq by lra. lra.
    - rewrite V1, Vn in V. fold q in V. split; [exact A|]. rewrite V. apply rn_small; [rewrite Rabs_pos_eq by lra; lra|lra]. }
  assert (W2 : near (ndiv F (num_of_Z F 1) (num_of_Z F 2)) (1/2) (e52 * 1)).
  { destruct (div_rnd (num_of_Z F 1) (num_of_Z F 2) Fa) as (A & V); [rewrite Vb; lra| |]; rewrite Va, Vb in *; [rewrite Rabs_pos_eq by lra; lra|].
    split; [exact A|]. rewrite V. apply rn_small; [rewrite Rabs_pos_eq by lra; lra|lra]. }
  assert (W3 : near (nadd F (ndiv F (num_of_Z F (i + 1)) (num_of_Z F n)) (ndiv F (num_of_Z F 1) (num_of_Z F 2))) (q + 1/2) (e52 * 4)).
  { destruct W1 as (G1 & B1). destruct W2 as (G2 & B2). apply Rabs_le_inv in B1. apply Rabs_le_inv in B2.
    match goal with |- within_unit _ _ (nadd F ?a ?b) _ => set (x := a) in *; set (y := b) in * end.
    assert (S : Rabs (real F x + real F y - (q + 1/2)) <= e52 * 2) by (apply Rabs_le; lra).
    destruct (fadd_rnd F roomy64 x y G1 G2) as (A & V); [apply huge_limit, Rabs_le; unfold e52 in *; lra|].
    eapply near_more; [eapply (near_round _ _ (q + 1/2) _ 2 A V S)|]; unfold e52; try lra. rewrite Rabs_pos_eq by lra. lra. }
  pose proof (near_opp _ _ _ HP) as (FP & BP). destruct W3 as (F3 & B3).
  match goal with |- within_unit _ _ (nmul F ?a ?b) _ => set (x := a) in *; set (y := b) in * end.
  assert (S : Rabs (real F x * real F y - - (PI * (q + 1/2))) <= e51 * 2 + e52 * 14).
  { replace (real F x * real F y - - (PI * (q + 1/2))) with ((real F x - - PI) * real F y + (- PI) * (real F y - (q + 1/2))) by ring.
    eapply Rle_trans; [apply Rabs_triang|]. rewrite !Rabs_mult, Rabs_Ropp, (Rabs_pos_eq PI) by lra.
    assert (Rabs (real F y) <= 2). { apply Rabs_le_inv in B3. apply Rabs_le. unfold e52 in *. lra. }
    assert (Rabs (real F x - - PI) * Rabs (real F y) <= e51 * 2) by (apply Rmult_le_compat; try apply Rabs_pos; assumption).
    assert (PI * Rabs (real F y - (q + 1 / 2)) <= 7/2 * (e52 * 4)) by (apply Rmult_le_compat; try apply Rabs_pos; try lra). lra. }
  assert (PQ : 0 <= PI * (q + 1/2) <= 4 * (3/2)) by (split; [apply Rmult_le_pos|apply Rmult_le_compat]; lra).
  destruct (fmul_rnd F roomy64 x y FP F3) as (A & V).
  { apply huge_limit. apply Rabs_le_inv in S. apply Rabs_le. unfold e51, e52 in *. lra. }
  eapply near_more; [eapply (near_round _ _ _ _ 8 A V S)|]; unfold e51, e52, e47; try lra. rewrite Rabs_Ropp, Rabs_pos_eq by lra. lra.
Qed.
End SIZE.
End Double.

Lemma pair_more F e e' v z : pair_within F e v z -> e <= e' -> pair_within F e' v z.
Proof. intros ((A & B) & (C & D)) H. split; (split; [assumption|lra]). Qed.

(** ** Tables *)
(** rounding of the entries to the scalars, for results of the given precision *)
Definition entry_unit (coeff from : precision) : R :=
  match coeff, from with PF, PF => / 8388608 | PF, _ => / 33554432 | _, _ => / 2251799813685248 end.
Lemma entry_rounding coeff from v : Rabs v <= 1 + maths_unit from -> Rabs (rn (kiss_scalar coeff) v - v) <= entry_unit coeff from.
Proof.
  change (maths_unit from) with (match from with PF => / 8388608 | PD | PL => / 2251799813685248 end).
  intros H. assert (H2 : Rabs v <= 2) by (destruct from; lra). destruct coeff; cbn [kiss_scalar entry_unit].
  - destruct from.
    + pose proof (rn_small binary32_format AccuracyProofs.roomy32 ulp1 AccuracyProofs.unit32 v 2 H2 ltac:(lra)) as X. unfold ulp1 in X. lra.
    + apply rnd32_unit. lra.
    + apply rnd32_unit. lra.
  - pose proof (rn_small binary64_format roomy64 e52 e52_low v 2 H2 ltac:(lra)) as X. unfold e52 in X. lra.
  - pose proof (rn_small binary64_format roomy64 e52 e52_low v 2 H2 ltac:(lra)) as X. unfold e52 in X. lra.
Qed.
Lemma numerals : IZR (2 ^ 20) = 1048576 /\ IZR (2 ^ 23) = 8388608 /\ IZR (2 ^ 24) = 16777216 /\ IZR (2 ^ 46) = 70368744177664 /\ IZR (2 ^ 51) = 2251799813685248.
Proof. repeat split; reflexivity. Qed.

Lemma tables_of_maths L coeff inter (QD : maths binary64_format) (QI : maths (format_of L inter)) n : long_double L ->
  (coeff <> PF -> inter <> PF) ->
  maths_within binary64_format (maths_unit PD) QD -> maths_within (format_of L inter) (maths_unit inter) QI -> (1 <= n <= 2^20)%Z ->
  tables_within (kiss_scalar coeff) (table_unit coeff inter) (twiddles (kiss_scalar coeff) QD) (supers (kiss_scalar coeff) QD) (shifts (kiss_scalar coeff) (format_of L inter) QI) n.
Proof.
  intros HL RULE OD OI Hn i Hi. pose proof (part n i ltac:(lia) Hi) as P. pose proof pi_range as PR. pose proof (N_range n ltac:(lia)) as NR. pose proof (I_range n i Hi) as IR.
  assert (D : 0 < / IZR n <= 1) by (split; [apply Rinv_0_lt_compat; lra|rewrite <- Rinv_1; apply Rinv_le; lra]).
  destruct numerals as (N20 & N23 & N24 & N46 & N51).
  assert (ED : maths_unit PD <= / 8388608) by (cbn [maths_unit]; rewrite N51; lra).
  assert (EI : 0 < maths_unit inter <= / 8388608) by (destruct inter; cbn [maths_unit]; rewrite ?N23, ?N51; lra).
  assert (TD : entry_unit coeff PD + maths_unit PD + e47 <= table_unit coeff inter).
  { unfold e47. destruct coeff, inter; cbn [entry_unit maths_unit table_unit]; rewrite ?N20, ?N24, ?N46, ?N51; lra. }
  split; [|split]; cbn [exact_ops o_twiddle o_super o_shift].
  - eapply pair_more; [|exact TD].
    apply (cexp_near binary64_format _ _ (maths_unit PD) _ _ _ _ (scalar_roomy coeff) ltac:(lra) (entry_rounding coeff PD) OD).
    + exact (twiddle_near n i ltac:(lia) Hi pi_literal pi_close).
    + unfold e47. lra.
    + rewrite Rabs_Ropp. replace (2 * PI * IZR i / IZR n) with (2 * PI * (IZR i / IZR n)) by (field; lra).
      assert (0 <= PI * (IZR i / IZR n) <= 13/4 * 1) by (split; [apply Rmult_le_pos|apply Rmult_le_compat]; lra). rewrite Rabs_pos_eq; lra.
  - eapply pair_more; [|exact TD].
    apply (cexp_near binary64_format _ _ (maths_unit PD) _ _ _ _ (scalar_roomy coeff) ltac:(lra) (entry_rounding coeff PD) OD).
    + exact (super_near n i ltac:(lia) Hi pi_literal pi_close).
    + unfold e47. lra.
    + rewrite Rabs_Ropp. assert (Q : 0 <= IZR (i + 1) / IZR n <= 1).
      { split; [apply Rmult_le_pos; [apply (IZR_le 0); lia|lra]|]. apply (Rmult_le_reg_r (IZR n)); [lra|]. replace (IZR (i + 1) / IZR n * IZR n) with (IZR (i + 1)) by (field; lra).
        rewrite Rmult_1_l. apply IZR_le. lia. }
      assert (0 <= PI * (IZR (i + 1) / IZR n + 1/2) <= 13/4 * (3/2)) by (split; [apply Rmult_le_pos|apply Rmult_le_compat]; lra). rewrite Rabs_pos_eq; lra.
  - set (rr := match inter with PF => / 16777216 | PD | PL => e52 end).
    assert (RL : bpow radix2 (- f_prec (format_of L inter)) <= rr /\ (2 ^ 24 <= 2 ^ f_prec (format_of L inter))%Z).
    { unfold rr. destruct inter; cbn [format_of].
      - split; [eapply Rle_trans; [exact AccuracyProofs.unit32|unfold ulp1; lra]|cbn; lia].
      - split; [exact e52_low|cbn; lia].
      - split; [rewrite e52_bpow; apply bpow_le|apply Z.pow_le_mono_r; [lia|]]; destruct HL as [->|[->| ->]]; cbn; lia. }
    assert (R16 : 0 < rr <= / 16777216) by (unfold rr, e52; destruct inter; lra).
    assert (TI : entry_unit coeff inter + maths_unit inter + (2 * maths_unit inter + 6 * rr) <= table_unit coeff inter).
    { unfold rr, e52. destruct coeff, inter; try (elim RULE; [discriminate|reflexivity]); cbn [entry_unit maths_unit table_unit]; rewrite ?N20, ?N23, ?N24, ?N46, ?N51; lra. }
    eapply pair_more; [|exact TI].
    apply (cexp_near (format_of L inter) _ _ (maths_unit inter) _ _ _ _ (scalar_roomy coeff) ltac:(lra) (entry_rounding coeff inter) OI).
    + exact (shift_near (format_of L inter) (roomy_of L inter HL) rr (proj1 RL) QI (maths_unit inter) n i ltac:(lra) ltac:(lra) ltac:(lia) ltac:(lia) Hi OI).
    + lra.
    + rewrite Rabs_Ropp. replace (PI * IZR i / (2 * IZR n)) with (PI * (IZR i / IZR n) / 2) by (field; lra).
      assert (0 <= PI * (IZR i / IZR n) <= 13/4 * 1) by (split; [apply Rmult_le_pos|apply Rmult_le_compat]; lra). rewrite Rabs_pos_eq; lra.
Qed.
