(** How printf spells numbers. *)
From Coq Require Import Ascii String Reals Lra.
From Flocq Require Import Core IEEE754.BinarySingleNaN IEEE754.Binary.
From Verif Require Import Base BaseProofs Flt FltProofs Util Methods Analysis SpecReport Stdio Y4m SpecFormats ScanProofs Image Cli SpecCli Tools SpecTools CopyProofs Printf SpecText.
Open Scope list_scope.
Open Scope Z_scope.

(** ** Integers *)
Lemma decimal_loop_numeral : forall fuel n acc, 0 <= n < 10 ^ Z.of_nat fuel -> (fuel <> 0)%nat ->
  exists t, spells t n /\ (n <> 0 -> hd 0 t <> 48) /\ (n = 0 -> t = [48]) /\ decimal_loop fuel n acc = t ++ acc.
Proof.
  induction fuel as [|fuel IH]; intros n acc B NZ; [contradiction|]. cbn [decimal_loop].
  assert (M : 0 <= n mod 10 < 10) by (apply Z.mod_pos_bound; lia). assert (DM : n = 10 * (n / 10) + n mod 10) by (apply Z.div_mod; lia).
  assert (DG : digit (48 + n mod 10)) by (unfold digit; lia).
  destruct (Z.eqb_spec (n / 10) 0) as [Z0|N0].
  - exists [48 + n mod 10]. split; [|split; [|split]].
    + replace n with (48 + n mod 10 - 48) at 2 by lia. constructor. exact DG.
    + intros N. cbn [hd]. lia.
    + intros ->. reflexivity.
    + reflexivity.
  - assert (P : 0 <= n / 10 < 10 ^ Z.of_nat fuel).
    { rewrite Nat2Z.inj_succ, Z.pow_succ_r in B by lia. split; [apply Z.div_pos; lia|apply Z.div_lt_upper_bound; lia]. }
    assert (FN : (fuel <> 0)%nat) by (intros ->; change (10 ^ Z.of_nat 0) with 1 in P; lia).
    destruct (IH (n / 10) (48 + n mod 10 :: acc) P FN) as (t & T & HD & _ & ->). exists (t ++ [48 + n mod 10]). split; [|split; [|split]].
    + replace n with (10 * (n / 10) + (48 + n mod 10 - 48)) at 2 by lia. constructor; assumption.
    + intros _. specialize (HD N0). destruct t as [|c t]; [inversion T; destruct l; discriminate|]. exact HD.
    + intros ->. elim N0. reflexivity.
    + rewrite <- app_assoc. reflexivity.
Qed.
Lemma log2_fuel n : 0 <= n -> 0 <= n < 10 ^ Z.of_nat (S (Z.to_nat (Z.log2 n))).
Proof.
  intros N. split; [exact N|]. destruct (Z.eq_dec n 0) as [->|NZ]; [reflexivity|].
  pose proof (Z.log2_spec n ltac:(lia)) as (_ & U). pose proof (Z.log2_nonneg n) as L. rewrite Nat2Z.inj_succ, Z2Nat.id by exact L.
  eapply Z.lt_le_trans; [exact U|]. apply Z.pow_le_mono_l. lia.
Qed.
Lemma number_numeral n : 0 <= n -> numeral (number n) n.
Proof.
  intros N. destruct (decimal_loop_numeral _ n [] (log2_fuel n N) ltac:(discriminate)) as (t & T & H1 & H0 & E).
  unfold number. rewrite E, app_nil_r. split; [exact T|]. destruct (Z.eq_dec n 0) as [Z0|Z0]; [left; rewrite (H0 Z0); reflexivity|right; auto].
Qed.
Lemma number_len k n : (k <> 0)%nat -> 0 <= n < 10 ^ Z.of_nat k -> (length (number n) <= k)%nat.
Proof. intros K B. pose proof (decimal_loop_len (S (Z.to_nat (Z.log2 n))) k n [] B) as L. unfold number. cbn [length] in L. lia. Qed.
Lemma spells_length t v : spells t v -> (length t <> 0)%nat.
Proof. induction 1; [discriminate|]. rewrite app_length. cbn [length]. lia. Qed.

(** ** Rounding *)
Lemma ZnearestE_int n : ZnearestE (IZR n) = n.
Proof. apply Zrnd_IZR. apply valid_rnd_N. Qed.
Lemma ZnearestE_le x y : (x <= y)%R -> ZnearestE x <= ZnearestE y.
Proof. apply Zrnd_le. apply valid_rnd_N. Qed.
Lemma nearest_spec a b : 0 < b -> nearest a b = ZnearestE (IZR a / IZR b).
Proof.
  intros B. unfold nearest, Znearest. rewrite Zfloor_div by lia.
  assert (PB : (0 < IZR b)%R) by (apply IZR_lt; exact B).
  assert (DM : a = b * (a / b) + a mod b) by (apply Z.div_mod; lia).
  pose proof (Z.mod_pos_bound a b B) as M.
  assert (F : (IZR a / IZR b - IZR (a / b) = IZR (a mod b) / IZR b)%R).
  { replace (IZR a) with (IZR b * IZR (a / b) + IZR (a mod b))%R by (rewrite <- mult_IZR, <- plus_IZR; f_equal; lia). field. lra. }
  rewrite F. assert (C : forall P, a mod b <> 0 -> Zceil (IZR a / IZR b) = a / b + 1 \/ P).
  { intros P NZ. left. rewrite Zceil_floor_neq; [rewrite Zfloor_div by lia; reflexivity|]. rewrite Zfloor_div by lia. intros E.
    assert (IZR (a mod b) / IZR b = 0)%R as Z0 by (rewrite <- F; lra). apply (Rmult_eq_compat_r (IZR b)) in Z0. unfold Rdiv in Z0. rewrite Rmult_assoc, Rinv_l, Rmult_1_r, Rmult_0_l in Z0 by lra.
    apply eq_IZR_R0 in Z0. contradiction. }
  destruct (Z.compare_spec (2 * (a mod b)) b) as [E|L|G].
  - rewrite Rcompare_Eq.
    + destruct (C False ltac:(lia)) as [->|[]]. destruct (Z.even (a / b)); reflexivity.
    + apply (Rmult_eq_reg_r (2 * IZR b)); [|lra]. replace (IZR (a mod b) / IZR b * (2 * IZR b))%R with (IZR (2 * (a mod b))) by (rewrite mult_IZR; field; lra). rewrite E. field.
  - rewrite Rcompare_Lt; [reflexivity|]. apply IZR_lt in L. rewrite mult_IZR in L. apply (Rmult_lt_reg_r (IZR b)); [exact PB|]. unfold Rdiv. rewrite Rmult_assoc, Rinv_l, Rmult_1_r by lra. lra.
  - rewrite Rcompare_Gt.
    + destruct (C False ltac:(lia)) as [->|[]]. reflexivity.
    + apply IZR_lt in G. rewrite mult_IZR in G. apply (Rmult_lt_reg_r (IZR b)); [exact PB|]. unfold Rdiv. rewrite Rmult_assoc, Rinv_l, Rmult_1_r by lra. lra.
Qed.
Lemma scaled_spec d m e : scaled d m e = ZnearestE (IZR (Z.pos m) * bpow radix2 e * IZR (10 ^ Z.of_nat d)).
Proof.
  unfold scaled. destruct (Z.leb_spec 0 e) as [E|E].
  - rewrite (bpow_IZR e E), <- !mult_IZR. symmetry. apply Zrnd_IZR. apply valid_rnd_N.
  - rewrite nearest_spec by (apply Z.pow_pos_nonneg; lia). f_equal. replace e with (- - e) at 2 by lia. rewrite bpow_opp, (bpow_IZR (- e)) by lia. rewrite mult_IZR.
    assert (0 < IZR (2 ^ - e))%R by (apply IZR_lt, Z.pow_pos_nonneg; lia). field. lra.
Qed.
Lemma scaled_nonneg d m e : 0 <= scaled d m e.
Proof.
  rewrite scaled_spec. rewrite <- (ZnearestE_int 0). apply ZnearestE_le. change (IZR 0) with 0%R.
  apply Rmult_le_pos; [apply Rmult_le_pos; [apply IZR_le; lia|apply bpow_ge_0]|apply IZR_le, Z.pow_nonneg; lia].
Qed.

(** ** Fractions *)
Lemma spells_zero t v : spells t v -> spells (48 :: t) v.
Proof.
  induction 1 as [c D|l v c S IH D].
  - replace (c - 48) with (10 * (48 - 48) + (c - 48)) by lia. apply (spells_next [48]); [constructor; unfold digit; lia|exact D].
  - apply (spells_next (48 :: l)); assumption.
Qed.
Lemma spells_zeros k t v : spells t v -> spells (repeat 48 k ++ t) v.
Proof. intros S. induction k; [exact S|]. cbn. apply spells_zero. exact IHk. Qed.
Lemma point_fraction d v : (d <> 0)%nat -> 0 <= v -> fraction d (point d v) v.
Proof.
  intros D V. set (p := 10 ^ Z.of_nat d). assert (P : 0 < p) by (apply Z.pow_pos_nonneg; lia).
  pose proof (Z.mod_pos_bound v p P) as M. assert (I : 0 <= v / p) by (apply Z.div_pos; lia).
  pose proof (number_len d (v mod p) D M) as L. destruct (number_numeral (v mod p) ltac:(lia)) as (S & _).
  exists (number (v / p)), (repeat 48 (d - length (number (v mod p))) ++ number (v mod p)), (v / p), (v mod p).
  split; [apply number_numeral; exact I|]. split; [apply spells_zeros; exact S|]. split; [rewrite app_length, repeat_length; lia|].
  split; [|fold p; rewrite Z.mul_comm; apply Z.div_mod; lia].
  unfold point. fold p. destruct d; [contradiction|]. reflexivity.
Qed.
Definition scaled_value (d : nat) (x : f64) : Z := rounded d (B2R 53 1024 x).
Lemma fixed_spec d (x : f64) : is_finite 53 1024 x = true ->
  0 <= scaled_value d x /\ fixed d x = minus_sign (Bsign 53 1024 x) ++ point d (scaled_value d x).
Proof.
  unfold scaled_value, rounded. destruct x as [s|s|s pl H|s m e H]; try discriminate; intros _; cbn [Bsign B2R fixed].
  - rewrite Rabs_R0, Rmult_0_l. change 0%R with (IZR 0). rewrite ZnearestE_int. split; [lia|reflexivity].
  - rewrite <- F2R_Zabs, abs_cond_Zopp. unfold F2R. cbn [Fnum Fexp]. change (Z.abs (Z.pos m)) with (Z.pos m). rewrite <- scaled_spec. split; [apply scaled_nonneg|reflexivity].
Qed.
Lemma fixed_fraction d (x : f64) : (d <> 0)%nat -> is_finite 53 1024 x = true ->
  exists t, fixed d x = minus_sign (Bsign 53 1024 x) ++ t /\ fraction d t (rounded d (B2R 53 1024 x)).
Proof.
  intros D F. destruct (fixed_spec d x F) as (N & E). exists (point d (scaled_value d x)). split; [exact E|]. apply (point_fraction d _ D N).
Qed.
Lemma fixed_whole (x : f64) : is_finite 53 1024 x = true ->
  exists t, fixed 0 x = minus_sign (Bsign 53 1024 x) ++ t /\ numeral t (rounded 0 (B2R 53 1024 x)).
Proof.
  intros F. destruct (fixed_spec 0 x F) as (N & E). exists (point 0 (scaled_value 0 x)). split; [exact E|]. unfold point. rewrite app_nil_r.
  change (10 ^ Z.of_nat 0) with 1. rewrite Z.div_1_r. apply number_numeral. exact N.
Qed.

(** ** Fields *)
Lemma spaces_repeat k : spaces (repeat 32 k).
Proof. apply Forall_forall. intros c. apply repeat_spec. Qed.
Lemma right_justified_padded width t : padded width t (right_justified width t).
Proof. exists (repeat 32 (width - length t)). split; [apply spaces_repeat|]. split; [reflexivity|]. unfold right_justified. rewrite app_length, repeat_length. lia. Qed.
