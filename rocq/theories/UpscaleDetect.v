(** Detection of repeated samples by the sign method. *)
From Coq Require Import Reals Lra Lia Psatz.
From Flocq Require Import Core.Core IEEE754.Binary IEEE754.Bits.
From Verif Require Import Base Flt Util Methods Analysis History Spec SpecAnalysis SpecReport SpecTransform BaseProofs FltProofs MethodsProofs AnalysisProofs
  ResultsProofs ClientProofs CompareProofs UpscaleProofs.
Open Scope Z_scope.

Lemma agrees_sign a r : agrees a r -> (fsign a = false /\ 0 < r \/ fsign a = true /\ r < 0)%R.
Proof.
  intros (F & P). unfold fsign. destruct (Bsign 24 128 a) eqn:S.
  - right. split; [reflexivity|].
    assert (N : (rf a <= 0)%R).
    { destruct a as [s|s|s pl H|s m e H]; simpl in *; try discriminate; [unfold rf; simpl; lra|]. subst s.
      unfold rf. simpl. apply F2R_le_0. simpl. lia. }
    destruct (Rle_or_lt 0 r); [nra|assumption].
  - left. split; [reflexivity|]. pose proof (sign_nonneg_f a F S). destruct (Rle_or_lt r 0); [nra|assumption].
Qed.

Lemma opposite_signs a b r r' c : agrees a r -> agrees b r' -> (0 < c)%R -> (r' = - c * r)%R -> xorb (fsign a) (fsign b) = true.
Proof.
  intros A B Pc E. apply agrees_sign in A. apply agrees_sign in B.
  destruct A as [(-> & A)|(-> & A)], B as [(-> & B)|(-> & B)]; try reflexivity; exfalso; nra.
Qed.

Lemma filter_all {A} (P : A -> bool) l : (forall a, In a l -> P a = true) -> filter P l = l.
Proof. induction l as [|a l IH]; intros H; cbn; [reflexivity|]. rewrite H by (left; reflexivity). rewrite IH; [reflexivity|]. intros; apply H; right; assumption. Qed.

Lemma how_many_pairs_all P n range : 0 <= n -> 0 <= range ->
  (forall y i, 0 <= y < n -> 1 <= i <= range -> P y i = true) -> how_many_pairs P n range = n * range.
Proof.
  intros Hn Hr H. unfold how_many_pairs. rewrite filter_all.
  - rewrite prod_length. unfold zrange. rewrite !length_zseq. lia.
  - intros (y & i) I. apply in_prod_iff in I. destruct I as (I1 & I2). apply in_zrange in I1, I2. cbn. apply H; lia.
Qed.

Lemma rnd64_big n : 1 <= n -> (0 < rnd64 (IZR n))%R.
Proof. intros H. pose proof (rnd64_pos n H). lra. Qed.

Lemma ratio_one D range x : 0 < d_lines D <= 2^31 -> 0 < range <= 2^31 -> inverted_pairs D range x = d_lines D * range ->
  dval (ratio Sign D range x) 1.
Proof.
  intros HL HR HI. unfold ratio, hits. rewrite HI.
  destruct (quotient_val (d_lines D * range) (d_lines D * range)) with (y := dmul (f64_of_Z (d_lines D)) (f64_of_Z range)) as (Q & _); try nia.
  - apply denominator_val; lia.
  - pose proof (rnd64_big (d_lines D * range) ltac:(nia)) as P.
    replace (rnd64 (IZR (d_lines D * range)) / rnd64 (IZR (d_lines D * range)))%R with 1%R in Q by (field; lra).
    rewrite rnd64_1 in Q. exact Q.
Qed.

Lemma total_all range x : forall Ds, (forall D, In D Ds -> dval (ratio Sign D range x) 1) -> zlen Ds <= 2^53 ->
  dval (total Sign Ds range x) (IZR (zlen Ds)).
Proof.
  induction Ds as [|D Ds IH] using rev_ind; intros H HN.
  - apply d0_val.
  - rewrite zlen_app in *. change (zlen [D]) with 1 in *. pose proof (zlen_nonneg Ds). rewrite total_snoc.
    assert (V : dval (total Sign Ds range x) (IZR (zlen Ds))) by (apply IH; [intros; apply H, in_or_app; left; assumption|lia]).
    assert (V1 : dval (ratio Sign D range x) 1) by (apply H, in_or_app; right; left; reflexivity).
    assert (B : (IZR (zlen Ds) + 1 <= bpow radix2 1023)%R).
    { rewrite <- plus_IZR. apply Rle_trans with (IZR (2^53)); [apply IZR_le; lia|]. rewrite <- bpow_IZR by lia. apply bpow_le. lia. }
    pose proof (dadd_val _ _ _ _ V V1 B) as S. rewrite <- plus_IZR in S. rewrite rnd64_Z in S by lia. exact S.
Qed.

Lemma mean_one range x Ds : (forall D, In D Ds -> dval (ratio Sign D range x) 1) -> 1 <= zlen Ds <= 2^53 ->
  dval (mean Sign Ds range x) 1.
Proof.
  intros H HN. unfold mean. fold (zlen Ds). pose proof (total_all range x Ds H ltac:(lia)) as V.
  pose proof (f64_of_Z_exact (zlen Ds) ltac:(lia)) as VN.
  assert (P : (1 <= IZR (zlen Ds))%R) by (apply IZR_le; lia).
  assert (EQ : (IZR (zlen Ds) / IZR (zlen Ds) = 1)%R) by (field; lra).
  assert (B : (IZR (zlen Ds) / IZR (zlen Ds) <= bpow radix2 1023)%R).
  { rewrite EQ. change 1%R with (bpow radix2 0). apply bpow_le. lia. }
  pose proof (ddiv_val _ _ _ _ V VN ltac:(lra) B) as D. rewrite EQ, rnd64_1 in D. exact D.
Qed.

Lemma f32_one d : dval d 1 -> f32_of_f64 d = f32_of_Z 1.
Proof.
  intros V. assert (B : (1 <= bpow radix2 127)%R) by (change 1%R with (bpow radix2 0); apply bpow_le; lia).
  destruct (f32_of_f64_val d 1 V B) as (F & S & E). destruct (f32_of_Z_exact 1 ltac:(lia)) as (F1 & S1 & E1).
  rewrite rnd32_1 in E. apply B2R_Bsign_inj; try assumption; congruence.
Qed.

(** all pairs of all frames inverted: reported with confidence 1 *)
Lemma all_inverted_reported E m w h p images Ds len N l :
  client_ok E w h p -> zlen images <= 2^53 -> used_method m = Msign -> used_filter p = 0 ->
  used_range (e_cfg E) m p <= N < len - used_range (e_cfg E) m p ->
  (forall D, In D Ds -> forall y i, 0 <= y < d_lines D -> 1 <= i <= used_range (e_cfg E) m p ->
     xorb (fsign (d_coef D y (N - i))) (fsign (d_coef D y (N + i))) = true) ->
  reported E m w h p images Ds len l -> In (mkRes N (f32_of_Z 1)) l.
Proof.
  intros HC HZ HM HF HR HI R.
  assert (HN : countable images) by (unfold countable; unfold zlen in HZ; lia).
  destruct (seen_lines _ _ _ _ _ _ _ _ _ HC HN R) as (SL & SZ & SP & SI). unfold INT_MAX in SI.
  pose proof (used_range_pos E w h m p HC) as RP.
  assert (CR : used_criterion (e_cfg E) m = Sign) by (unfold used_criterion; rewrite HM; reflexivity).
  assert (M : dval (mean Sign Ds (used_range (e_cfg E) m p) N) 1).
  { apply mean_one; [|lia]. intros D I. destruct (SL D I) as (B & _). apply ratio_one; [lia|lia|].
    apply how_many_pairs_all; [lia|lia|]. intros y i Hy Hi. apply (HI D I); assumption. }
  apply (reported_in _ _ _ _ _ _ _ _ _ HC HN R). right. cbn [r_index r_conf]. rewrite CR.
  apply found_in. split; [exact HR|]. split; [symmetry; apply f32_one; exact M|]. split.
  - destruct (threshold_unit E w h m p HC) as (F & T).
    assert (X : dfin (f64_of_f32 (used_threshold m p)) = true /\ rd (f64_of_f32 (used_threshold m p)) = rf (used_threshold m p)).
    { destruct (f64_of_f32_finite _ F) as (A & B & C). split; assumption. }
    destruct X as (X1 & X2). destruct M as (M1 & M2 & M3). apply dge_spec; [exact M1|exact X1|]. unfold rd in *. rewrite X2, M3. apply T.
  - apply keeps_none. destruct (effective_used E w h m p HC) as (_ & _ & A). congruence.
Qed.
