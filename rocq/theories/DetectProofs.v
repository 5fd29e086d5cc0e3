(** The sign method, from the exact coefficients to the sizes reported. *)
From Coq Require Import Reals Lra Lia Psatz.
From Flocq Require Import Core.Core IEEE754.Binary.
From Verif Require Import Base Flt Util Methods Analysis History Spec SpecAnalysis SpecReport SpecTransform SpecAccuracy SpecInterpolate SpecDetect.
From Verif Require Import BaseProofs FltProofs MethodsProofs AnalysisProofs ResultsProofs ClientProofs CompareProofs ErrorProofs UpscaleProofs UpscaleDetect AccuracyProofs.
Local Notation u := (bpow radix2 (-53)).
Open Scope list_scope.
Open Scope Z_scope.

(** ** Counting *)
Lemma in_pairs_list n range y i : In (y, i) (list_prod (zrange 0 n) (zrange 1 (range + 1))) <-> 0 <= y < n /\ 1 <= i <= range.
Proof. rewrite in_prod_iff, !in_zrange. lia. Qed.
Lemma pairs_at_least P n range s : some_pairs n range s -> (forall y i, In (y, i) s -> P y i = true) -> zlen s <= how_many_pairs P n range.
Proof.
  intros (ND & B) H. unfold zlen, how_many_pairs. apply inj_le. apply NoDup_incl_length; [exact ND|].
  intros (y & i) I. apply filter_In. split; [apply in_pairs_list, B, I|apply H, I].
Qed.
Lemma filter_both {A} (P : A -> bool) l : (length (filter P l) + length (filter (fun a => negb (P a)) l) = length l)%nat.
Proof. induction l as [|a l IH]; [reflexivity|]. cbn. destruct (P a); cbn; lia. Qed.
Lemma how_many_pairs_both P n range : 0 <= n -> 0 <= range ->
  how_many_pairs P n range + how_many_pairs (fun y i => negb (P y i)) n range = n * range.
Proof.
  intros Hn Hr. unfold how_many_pairs. rewrite <- Nat2Z.inj_add, (filter_both (fun p => P (fst p) (snd p))), prod_length.
  unfold zrange. rewrite !length_zseq. lia.
Qed.
Lemma pairs_at_most P n range s : 0 <= n -> 0 <= range -> some_pairs n range s -> (forall y i, In (y, i) s -> P y i = false) ->
  how_many_pairs P n range <= n * range - zlen s.
Proof.
  intros Hn Hr S H. pose proof (how_many_pairs_both P n range Hn Hr).
  pose proof (pairs_at_least (fun y i => negb (P y i)) n range s S ltac:(intros y i I; cbn beta; rewrite (H y i I); reflexivity)). lia.
Qed.

(** ** One frame *)
Lemma alike_products a b r r' : agrees a r -> agrees b r' -> alike r r' -> xorb (fsign a) (fsign b) = false.
Proof.
  intros A B E. unfold alike in E. apply agrees_sign in A. apply agrees_sign in B.
  destruct A as [(-> & A)|(-> & A)], B as [(-> & B)|(-> & B)]; try reflexivity; exfalso; nra.
Qed.
Lemma opposed_products a b r r' : agrees a r -> agrees b r' -> opposed r r' -> xorb (fsign a) (fsign b) = true.
Proof.
  intros A B E. unfold opposed in E. apply agrees_sign in A. apply agrees_sign in B.
  destruct A as [(-> & A)|(-> & A)], B as [(-> & B)|(-> & B)]; try reflexivity; exfalso; nra.
Qed.
Lemma accurate_agrees E w h M e image g y x : accurate E w h M e -> has_samples w h image g M -> 0 <= y < h -> 0 <= x < w ->
  (e < Rabs (dct_2d w h g y x))%R -> agrees (at_ f0 (plane E w h image) (y * w + x)) (dct_2d w h g y x).
Proof. intros A H Hy Hx B. destruct (A image g H y x Hy Hx) as (F & D). eapply agrees_close; eassumption. Qed.

Section frame.
Variables (E : env) (N w h range : Z) (image : list f32) (c : Z).
Hypothesis HR : 1 <= range.
Lemma clear_x_opposed : range <= N < w - range -> clear_x opposed E N w h range image c -> c <= inverted_pairs (dim_x w h (plane E w h image)) range N.
Proof.
  intros HN (g & M & e & s & HS & A & SP & <- & HC). unfold inverted_pairs. cbn [dim_x d_lines d_coef]. apply pairs_at_least; [exact SP|].
  intros y i I. destruct (proj2 SP y i I) as (Hy & Hi). destruct (HC y i I) as (C1 & C2 & C3).
  eapply opposed_products; [| |exact C3]; eapply accurate_agrees; try eassumption; lia.
Qed.
Lemma clear_x_alike : range <= N < w - range -> 0 <= h -> clear_x alike E N w h range image c ->
  inverted_pairs (dim_x w h (plane E w h image)) range N <= h * range - c.
Proof.
  intros HN Hh (g & M & e & s & HS & A & SP & <- & HC). unfold inverted_pairs. cbn [dim_x d_lines d_coef]. apply pairs_at_most; [lia|lia|exact SP|].
  intros y i I. destruct (proj2 SP y i I) as (Hy & Hi). destruct (HC y i I) as (C1 & C2 & C3).
  eapply alike_products; [| |exact C3]; eapply accurate_agrees; try eassumption; lia.
Qed.
Lemma clear_y_opposed : range <= N < h - range -> clear_y opposed E N w h range image c -> c <= inverted_pairs (dim_y w h (plane E w h image)) range N.
Proof.
  intros HN (g & M & e & s & HS & A & SP & <- & HC). unfold inverted_pairs. cbn [dim_y d_lines d_coef]. apply pairs_at_least; [exact SP|].
  intros y i I. destruct (proj2 SP y i I) as (Hy & Hi). destruct (HC y i I) as (C1 & C2 & C3).
  eapply opposed_products; [| |exact C3]; eapply accurate_agrees; try eassumption; lia.
Qed.
Lemma clear_y_alike : range <= N < h - range -> 0 <= w -> clear_y alike E N w h range image c ->
  inverted_pairs (dim_y w h (plane E w h image)) range N <= w * range - c.
Proof.
  intros HN Hh (g & M & e & s & HS & A & SP & <- & HC). unfold inverted_pairs. cbn [dim_y d_lines d_coef]. apply pairs_at_most; [lia|lia|exact SP|].
  intros y i I. destruct (proj2 SP y i I) as (Hy & Hi). destruct (HC y i I) as (C1 & C2 & C3).
  eapply alike_products; [| |exact C3]; eapply accurate_agrees; try eassumption; lia.
Qed.
End frame.

(** ** All frames *)
Lemma Forall2_length {A B} (P : A -> B -> Prop) l l' : Forall2 P l l' -> length l = length l'.
Proof. induction 1; cbn; congruence. Qed.

Lemma sum_ratio_ge lines range N : 0 < lines -> 0 < range -> forall Ds cs, (forall D, In D Ds -> d_lines D = lines) ->
  Forall2 (fun D c => c <= inverted_pairs D range N) Ds cs ->
  (sum_R (map IZR cs) / IZR (lines * range) <= sum_R (map (exact_ratio Sign range N) Ds))%R.
Proof.
  intros HL HR Ds cs HD F. assert (P : (0 < IZR (lines * range))%R) by (apply IZR_lt; nia).
  induction F as [|D c Ds cs H F IH]; cbn [map sum_R]; [unfold Rdiv; lra|].
  assert (IH' := IH ltac:(intros; apply HD; right; assumption)).
  replace ((IZR c + sum_R (map IZR cs)) / IZR (lines * range))%R with (IZR c / IZR (lines * range) + sum_R (map IZR cs) / IZR (lines * range))%R by (field; lra).
  apply Rplus_le_compat; [|exact IH']. unfold exact_ratio, hits, tested. rewrite (HD D) by (left; reflexivity).
  apply Rmult_le_compat_r; [left; apply Rinv_0_lt_compat, P|]. apply IZR_le, H.
Qed.
Lemma sum_ratio_le lines range N : 0 < lines -> 0 < range -> forall Ds cs, (forall D, In D Ds -> d_lines D = lines) ->
  Forall2 (fun D c => inverted_pairs D range N <= lines * range - c) Ds cs ->
  (sum_R (map (exact_ratio Sign range N) Ds) <= INR (length Ds) - sum_R (map IZR cs) / IZR (lines * range))%R.
Proof.
  intros HL HR Ds cs HD F. assert (P : (0 < IZR (lines * range))%R) by (apply IZR_lt; nia).
  induction F as [|D c Ds cs H F IH]; cbn [map sum_R]; [cbn; unfold Rdiv; lra|].
  assert (IH' := IH ltac:(intros; apply HD; right; assumption)). cbn [length]. rewrite S_INR.
  replace ((IZR c + sum_R (map IZR cs)) / IZR (lines * range))%R with (IZR c / IZR (lines * range) + sum_R (map IZR cs) / IZR (lines * range))%R by (field; lra).
  assert (X : (exact_ratio Sign range N D <= 1 - IZR c / IZR (lines * range))%R); [|lra].
  unfold exact_ratio, hits, tested. rewrite (HD D) by (left; reflexivity).
  replace (1 - IZR c / IZR (lines * range))%R with (IZR (lines * range - c) / IZR (lines * range))%R by (rewrite minus_IZR; field; lra).
  apply Rmult_le_compat_r; [left; apply Rinv_0_lt_compat, P|]. apply IZR_le, H.
Qed.

Section report.
Variables (E : env) (m : option method) (w h : Z) (p : option params) (images : list (list f32)) (Ds : list dim) (len N lines : Z) (l : list rdres) (cs : list Z).
Hypothesis HC : client_ok E w h p.
Hypothesis HZ : zlen images <= 2^53.
Hypothesis HM : used_method m = Msign.
Notation range := (used_range (e_cfg E) m p).
Hypothesis HN : range <= N < len - range.
Hypothesis HR : reported E m w h p images Ds len l.
Hypothesis HL : forall D, In D Ds -> d_lines D = lines.

Lemma report_facts : (forall D, In D Ds -> 0 < d_lines D <= 2^31) /\ 1 <= zlen Ds <= 2^53 /\ length Ds = length images /\
  0 < range <= 2^31 /\ 0 < lines /\ used_criterion (e_cfg E) m = Sign.
Proof.
  assert (CN : countable images) by (unfold countable; unfold zlen in HZ; lia).
  destruct (seen_lines _ _ _ _ _ _ _ _ _ HC CN HR) as (SL & SZ & SP & SI). unfold INT_MAX in SI.
  pose proof (used_range_pos E w h m p HC).
  assert (L0 : 0 < lines).
  { destruct Ds as [|D Ds0]; [cbn in SP; lia|]. rewrite <- (HL D) by (left; reflexivity). apply SL. left; reflexivity. }
  split; [intros D I; apply SL, I|]. split; [lia|]. split; [unfold zlen in SZ; lia|]. split; [lia|]. split; [exact L0|].
  unfold used_criterion. rewrite HM. reflexivity.
Qed.
Lemma mean_rounding_u k : mean_rounding k = (bpow radix2 (-25) + (INR k + 10) * u)%R.
Proof.
  unfold mean_rounding. change (bpow radix2 (-25)) with (/ IZR (2^25))%R. change (bpow radix2 (-53)) with (/ IZR (2^53))%R.
  replace (2 ^ 25)%R with (IZR (2^25)) by (simpl; lra). replace (2 ^ 53)%R with (IZR (2^53)) by (simpl; lra). reflexivity.
Qed.

Lemma enough_pairs : used_filter p = 0 -> Forall2 (fun D c => c <= inverted_pairs D range N) Ds cs ->
  (B2R 24 128 (used_threshold m p) <= part cs lines range - mean_rounding (length images))%R ->
  exists r, In r l /\ r_index r = N /\ (part cs lines range - mean_rounding (length images) <= conf_real r)%R.
Proof.
  intros HF F T. destruct report_facts as (SL & SP & LN & RB & L0 & CR).
  assert (CN : countable images) by (unfold countable; unfold zlen in HZ; lia).
  pose proof (sum_ratio_ge lines range N L0 ltac:(lia) Ds cs HL F) as SG.
  pose proof (Forall2_length _ _ _ F) as LC.
  assert (EM : (part cs lines range <= exact_mean Sign Ds range N)%R).
  { unfold part, exact_mean. rewrite <- LC.
    assert (0 < INR (length Ds))%R by (rewrite INR_IZR_INZ; apply IZR_lt; unfold zlen in SP; lia).
    assert (0 < IZR (lines * range))%R by (apply IZR_lt; nia).
    replace (sum_R (map IZR cs) / (INR (length Ds) * IZR (lines * range)))%R with (sum_R (map IZR cs) / IZR (lines * range) / INR (length Ds))%R by (field; lra).
    apply Rmult_le_compat_r; [left; apply Rinv_0_lt_compat; assumption|exact SG]. }
  destruct (mean64_err Sign Ds range N RB SL SP) as (v & V & VB & VE).
  pose proof (mean_err Sign Ds range N RB SL SP) as ME. rewrite LN in *.
  pose proof (bpow_gt_0 radix2 (-25)) as B25.
  rewrite mean_rounding_u in *. apply Rabs_le_inv in VE. apply Rabs_le_inv in ME.
  exists (mkRes N (f32_of_f64 (mean Sign Ds range N))). split; [|split; [reflexivity|]].
  - apply (reported_in _ _ _ _ _ _ _ _ _ HC CN HR). right. cbn [r_index r_conf]. rewrite CR.
    apply found_in. split; [exact HN|]. split; [reflexivity|]. split.
    + destruct (threshold_unit E w h m p HC) as (FT & TT).
      destruct (f64_of_f32_finite _ FT) as (X1 & X2 & _).
      destruct V as (V1 & V2 & V3). apply dge_spec; [exact V1|exact X1|]. unfold rd, rf in *. rewrite X2, V3. lra.
    + apply keeps_none. destruct (effective_used E w h m p HC) as (_ & _ & A). congruence.
  - unfold conf_real. cbn [r_conf]. lra.
Qed.

Lemma few_pairs : Forall2 (fun D c => inverted_pairs D range N <= lines * range - c) Ds cs ->
  (1 - part cs lines range + mean_rounding (length images) < B2R 24 128 (used_threshold m p))%R ->
  forall r, In r l -> r_index r <> N.
Proof.
  intros F T r I EN. destruct report_facts as (SL & SP & LN & RB & L0 & CR).
  assert (CN : countable images) by (unfold countable; unfold zlen in HZ; lia).
  pose proof (sum_ratio_le lines range N L0 ltac:(lia) Ds cs HL F) as SG.
  pose proof (Forall2_length _ _ _ F) as LC.
  assert (EM : (exact_mean Sign Ds range N <= 1 - part cs lines range)%R).
  { unfold part, exact_mean. rewrite <- LC.
    assert (0 < INR (length Ds))%R by (rewrite INR_IZR_INZ; apply IZR_lt; unfold zlen in SP; lia).
    assert (0 < IZR (lines * range))%R by (apply IZR_lt; nia).
    replace (1 - sum_R (map IZR cs) / (INR (length Ds) * IZR (lines * range)))%R with ((INR (length Ds) - sum_R (map IZR cs) / IZR (lines * range)) / INR (length Ds))%R by (field; lra).
    apply Rmult_le_compat_r; [left; apply Rinv_0_lt_compat; assumption|exact SG]. }
  destruct (mean64_err Sign Ds range N RB SL SP) as (v & V & VB & VE). rewrite LN in *.
  pose proof (bpow_gt_0 radix2 (-25)) as B25. rewrite mean_rounding_u in *. apply Rabs_le_inv in VE.
  apply (reported_in _ _ _ _ _ _ _ _ _ HC CN HR) in I. destruct I as [->|I]; [cbn in EN; lia|].
  rewrite CR in I. apply found_in in I. destruct I as (_ & _ & G & _). rewrite EN in G.
  destruct (threshold_unit E w h m p HC) as (FT & TT).
  destruct (f64_of_f32_finite _ FT) as (X1 & X2 & _).
  destruct V as (V1 & V2 & V3). apply dge_spec in G; [|exact V1|exact X1]. unfold rd, rf in *. rewrite X2, V3 in G. lra.
Qed.
End report.
