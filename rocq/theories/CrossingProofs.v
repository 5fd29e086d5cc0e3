(** Zero crossings of the exact and of the computed coefficients. *)
From Coq Require Import Reals Lra Lia Psatz.
From Flocq Require Import Core IEEE754.Binary.
From Verif Require Import Base Flt Util Methods Analysis History Kiss Spec SpecAnalysis SpecUtil SpecReport SpecTransform SpecAccuracy SpecInterpolate SpecDetect SpecCrossing.
From Verif Require Import BaseProofs FltProofs RoundProofs WorldProofs AnalysisProofs ResultsProofs ClientProofs CompareProofs ErrorProofs.
From Verif Require Import KissProofs KissFactor KissTransform KissExact KissRound KissAccuracy AccuracyProofs UpscaleProofs UpscaleDetect
  InterpolateProofs InterpolateClaims DetectProofs OrderProofs.
Open Scope list_scope.
Open Scope Z_scope.

Lemma lines_at_least P n s : some_lines n s -> (forall y, In y s -> P y = true) -> zlen s <= how_many P 0 n.
Proof.
  intros (ND & B) H. unfold zlen, how_many. apply inj_le. apply NoDup_incl_length; [exact ND|].
  intros y I. apply filter_In. split; [apply in_zrange, B, I|apply H, I].
Qed.
Lemma value_sign a : ffinite a = true -> (0 < B2R 24 128 a)%R \/ (B2R 24 128 a < 0)%R -> (fsign a = false /\ 0 < B2R 24 128 a \/ fsign a = true /\ B2R 24 128 a < 0)%R.
Proof. intros F H. apply agrees_sign. split; [exact F|]. destruct H; nra. Qed.
Lemma triple_crosses a b c A B C e : ffinite a = true -> ffinite b = true -> ffinite c = true ->
  (Rabs (B2R 24 128 a - A) <= e)%R -> (Rabs (B2R 24 128 b - B) <= e)%R -> (Rabs (B2R 24 128 c - C) <= e)%R -> crosses e A B C -> crossing a b c = true.
Proof.
  intros Fa Fb Fc Ea Eb Ec (O & LA & LC).
  assert (E0 : (0 <= e)%R) by (eapply Rle_trans; [apply Rabs_pos|exact Ea]).
  assert (K : (B2R 24 128 a < B2R 24 128 b < B2R 24 128 c /\ B2R 24 128 a < 0 < B2R 24 128 c \/ B2R 24 128 c < B2R 24 128 b < B2R 24 128 a /\ B2R 24 128 c < 0 < B2R 24 128 a)%R).
  { revert Ea Eb Ec LA LC. generalize (B2R 24 128 a) (B2R 24 128 b) (B2R 24 128 c). intros u v z Ea Eb Ec LA LC.
    apply Rabs_le_inv in Ea. apply Rabs_le_inv in Eb. apply Rabs_le_inv in Ec.
    assert (BB : (- Rabs B <= B <= Rabs B)%R) by (unfold Rabs; destruct (Rcase_abs B); lra). pose proof (Rabs_pos B) as B0.
    unfold Rabs in LA, LC. destruct (Rcase_abs A), (Rcase_abs C); fold (Rabs B) in LA, LC; try (exfalso; nra); [left|right];
      change (if Rcase_abs B then (- B)%R else B) with (Rabs B) in LA, LC; lra. }
  unfold crossing. destruct K as [(K & S)|(K & S)].
  - destruct (value_sign a Fa ltac:(lra)) as [(_ & X)|(-> & _)]; [lra|]. destruct (value_sign c Fc ltac:(lra)) as [(-> & _)|(_ & X)]; [|lra].
    rewrite (proj2 (flt_spec a b Fa Fb)), (proj2 (flt_spec b c Fb Fc)) by apply K. reflexivity.
  - destruct (value_sign a Fa ltac:(lra)) as [(-> & _)|(_ & X)]; [|lra]. destruct (value_sign c Fc ltac:(lra)) as [(_ & X)|(-> & _)]; [lra|].
    rewrite (proj2 (flt_spec b a Fb Fa)), (proj2 (flt_spec c b Fc Fb)) by apply K. rewrite orb_true_r. reflexivity.
Qed.

Lemma crossed_x_lines E N w h image c : 1 <= N < w - 1 -> crossed_x E N w h image c -> c <= crossing_lines (dim_x w h (plane E w h image)) N.
Proof.
  intros HN (g & M & e & s & HS & A & SL & <- & H). apply lines_at_least; [exact SL|]. intros y I. cbn [dim_x d_coef]. pose proof (proj2 SL y I) as Hy.
  destruct (A image g HS y (N - 1) Hy ltac:(lia)) as (F1 & E1). destruct (A image g HS y N Hy ltac:(lia)) as (F2 & E2). destruct (A image g HS y (N + 1) Hy ltac:(lia)) as (F3 & E3).
  eapply triple_crosses; [exact F1|exact F2|exact F3|exact E1|exact E2|exact E3|]. apply H, I.
Qed.
Lemma crossed_y_lines E N w h image c : 1 <= N < h - 1 -> crossed_y E N w h image c -> c <= crossing_lines (dim_y w h (plane E w h image)) N.
Proof.
  intros HN (g & M & e & s & HS & A & SL & <- & H). apply lines_at_least; [exact SL|]. intros x I. cbn [dim_y d_coef]. pose proof (proj2 SL x I) as Hx.
  destruct (A image g HS (N - 1) x ltac:(lia) Hx) as (F1 & E1). destruct (A image g HS N x ltac:(lia) Hx) as (F2 & E2). destruct (A image g HS (N + 1) x ltac:(lia) Hx) as (F3 & E3).
  eapply triple_crosses; [exact F1|exact F2|exact F3|exact E1|exact E2|exact E3|]. apply (H x I).
Qed.

(** ** Coefficient N of an upscale from N samples *)
Lemma rows_null N w h a K g G leak P row : 1 <= N <= w -> 1 <= h -> kernel_ok a K ->
  (forall y x, 0 <= y < h -> 0 <= x < N -> (Rabs (g y x) <= G)%R) -> responds N w a K N P leak ->
  (Rabs (dct_2d w h (rows_resampled N w a K g) row N) <= 4 * IZR N * IZR h * G * leak)%R.
Proof.
  intros HN Hh KO HG RQ. rewrite <- dct_dct by lia.
  replace (4 * IZR N * IZR h * G * leak)%R with (2 * IZR h * (2 * IZR N * G * leak))%R by ring. apply dct_bound; [lia|].
  intros y Hy. pose proof (resampled_dct N w a K (g y) N HN KO P leak G (fun j Hj => HG y j Hy Hj) RQ) as B.
  pose proof (dct_odd N (g y) 0 ltac:(lia)) as O. rewrite Z.add_0_r, Z.sub_0_r in O.
  replace (dct N (g y) N) with 0%R in B by lra. rewrite Rmult_0_r, Rminus_0_r in B. exact B.
Qed.
Lemma near_crosses e t u u' v v' z z' L : (Rabs (u - u') <= t)%R -> (Rabs (v - v') <= t)%R -> (Rabs (z - z') <= t)%R -> (Rabs v' <= L)%R -> (0 <= e)%R ->
  (2 * e + 2 * t + L < Rabs u')%R -> (2 * e + 2 * t + L < Rabs z')%R -> (u' * z' < 0)%R -> crosses e u v z.
Proof.
  intros Hu Hv Hz Hl He A C O. assert (T0 : (0 <= t)%R) by (eapply Rle_trans; [apply Rabs_pos|exact Hu]).
  assert (V : (Rabs v <= L + t)%R). { replace v with (v' + (v - v'))%R by ring. eapply Rle_trans; [apply Rabs_triang|]. lra. }
  assert (L0 : (0 <= L)%R) by (eapply Rle_trans; [apply Rabs_pos|exact Hl]).
  assert (U : (2 * e + t + L < Rabs u /\ 0 < u * u')%R).
  { clear - Hu A He T0 L0. apply Rabs_le_inv in Hu. revert A. unfold Rabs. destruct (Rcase_abs u'), (Rcase_abs u); intros; split; nra. }
  assert (Z : (2 * e + t + L < Rabs z /\ 0 < z * z')%R).
  { clear - Hz C He T0 L0. apply Rabs_le_inv in Hz. revert C. unfold Rabs. destruct (Rcase_abs z'), (Rcase_abs z); intros; split; nra. }
  split; [|split; lra]. destruct U as (_ & U), Z as (_ & Z). destruct (Rle_or_lt 0 (u * z)); [|assumption]. exfalso. nra.
Qed.
Lemma upscale_crossed_x E N w h image c : 1 <= N < w - 1 -> 1 <= h -> crossing_upscale_x E N w h image c -> crossed_x E N w h image c.
Proof.
  intros HN Hh (g & a & K & G & M & d & leak & e & s & KO & HG & HK & A & (f & HS & Hd) & SP & CN & HC).
  exists f, M, e, s. split; [exact HS|]. split; [exact A|]. split; [exact SP|]. split; [exact CN|].
  intros y I. cbv zeta. destruct (HC y I) as (A1 & A2). pose proof (proj2 SP y I) as Hy.
  destruct (HK (N - 1) ltac:(lia)) as (P & P0 & R1). destruct (HK (N + 1) ltac:(lia)) as (P' & P0' & R2). destruct (HK N ltac:(lia)) as (P2 & _ & R3).
  assert (E0 : (0 <= e)%R). { destruct (A image f HS 0 0 ltac:(lia) ltac:(lia)) as (_ & B). eapply Rle_trans; [apply Rabs_pos|exact B]. }
  pose proof (rows_null N w h a K g G leak P2 y ltac:(lia) Hh KO HG R3) as NL.
  assert (D0 : (0 <= d)%R) by (eapply Rle_trans; [apply Rabs_pos|]; apply (Hd 0 0); lia).
  assert (T0 : (0 <= 4 * IZR w * IZR h * d)%R). { assert (0 <= IZR w)%R by (apply (IZR_le 0); lia). assert (0 <= IZR h)%R by (apply (IZR_le 0); lia). repeat apply Rmult_le_pos; lra. }
  assert (L0 : (0 <= 4 * IZR N * IZR h * G * leak)%R) by (eapply Rle_trans; [apply Rabs_pos|exact NL]).
  eapply near_crosses; [apply (dct_2d_near w h f (rows_resampled N w a K g) d y); [lia|lia|exact Hd]|apply (dct_2d_near w h f (rows_resampled N w a K g) d y); [lia|lia|exact Hd]|apply (dct_2d_near w h f (rows_resampled N w a K g) d y); [lia|lia|exact Hd]|exact NL|exact E0| | |].
  - lra.
  - lra.
  - apply (rows_opposite N w h a K g G leak P P' 1 y); try assumption; try lia; lra.
Qed.
Lemma upscale_crossed_y E N w h image c : 1 <= N < h - 1 -> 1 <= w -> crossing_upscale_y E N w h image c -> crossed_y E N w h image c.
Proof.
  intros HN Hw (g & a & K & G & M & d & leak & e & s & KO & HG & HK & A & (f & HS & Hd) & SP & CN & HC).
  exists f, M, e, s. split; [exact HS|]. split; [exact A|]. split; [exact SP|]. split; [exact CN|].
  intros x I. cbv zeta. destruct (HC x I) as (A1 & A2). pose proof (proj2 SP x I) as Hx.
  destruct (HK (N - 1) ltac:(lia)) as (P & P0 & R1). destruct (HK (N + 1) ltac:(lia)) as (P' & P0' & R2). destruct (HK N ltac:(lia)) as (P2 & _ & R3).
  assert (E0 : (0 <= e)%R). { destruct (A image f HS 0 0 ltac:(lia) ltac:(lia)) as (_ & B). eapply Rle_trans; [apply Rabs_pos|exact B]. }
  set (g' := columns_resampled N h a K g) in *. set (t := fun x y => g y x).
  assert (FL : forall k, dct_2d w h g' k x = dct_2d h w (rows_resampled N h a K t) x k) by (intros k; rewrite (dct_2d_flip w h) by lia; reflexivity).
  assert (HT : forall y x, 0 <= y < w -> 0 <= x < N -> (Rabs (t y x) <= G)%R) by (intros; apply HG; assumption).
  pose proof (rows_null N h w a K t G leak P2 x ltac:(lia) Hw KO HT R3) as NL. rewrite <- FL in NL.
  assert (D0 : (0 <= d)%R) by (eapply Rle_trans; [apply Rabs_pos|]; apply (Hd 0 0); lia).
  assert (T0 : (0 <= 4 * IZR w * IZR h * d)%R). { assert (0 <= IZR w)%R by (apply (IZR_le 0); lia). assert (0 <= IZR h)%R by (apply (IZR_le 0); lia). repeat apply Rmult_le_pos; lra. }
  assert (L0 : (0 <= 4 * IZR N * IZR w * G * leak)%R) by (eapply Rle_trans; [apply Rabs_pos|exact NL]).
  eapply near_crosses; [apply (dct_2d_near w h f g' d (N - 1) x); [lia|lia|exact Hd]|apply (dct_2d_near w h f g' d N x); [lia|lia|exact Hd]|apply (dct_2d_near w h f g' d (N + 1) x); [lia|lia|exact Hd]|exact NL|exact E0| | |].
  - lra.
  - lra.
  - rewrite (FL (N - 1)), (FL (N + 1)). rewrite FL in A1, A2. apply (rows_opposite N h w a K t G leak P P' 1 x); try assumption; try lia; lra.
Qed.

(** ** Reports *)
Lemma sum_lines_ge lines N : 0 < lines -> forall Ds cs, (forall D, In D Ds -> d_lines D = lines) ->
  Forall2 (fun D c => c <= crossing_lines D N) Ds cs ->
  (sum_R (map IZR cs) / IZR (lines * 1) <= sum_R (map (exact_ratio ZeroCrossing 1 N) Ds))%R.
Proof.
  intros HL Ds cs HD F. rewrite Z.mul_1_r. assert (P : (0 < IZR lines)%R) by (apply IZR_lt; lia).
  induction F as [|D c Ds cs H F IH]; cbn [map sum_R]; [unfold Rdiv; lra|].
  assert (IH' := IH ltac:(intros; apply HD; right; assumption)).
  replace ((IZR c + sum_R (map IZR cs)) / IZR lines)%R with (IZR c / IZR lines + sum_R (map IZR cs) / IZR lines)%R by (field; lra).
  apply Rplus_le_compat; [|exact IH']. unfold exact_ratio, hits, tested. rewrite (HD D) by (left; reflexivity).
  apply Rmult_le_compat_r; [left; apply Rinv_0_lt_compat, P|]. apply IZR_le, H.
Qed.
Lemma enough_lines E m w h p images Ds len N lines l cs : client_ok E w h p -> zlen images <= 2^53 -> used_method m = Mzerox -> 1 <= N < len - 1 ->
  reported E m w h p images Ds len l -> (forall D, In D Ds -> d_lines D = lines) -> used_filter p = 0 ->
  Forall2 (fun D c => c <= crossing_lines D N) Ds cs ->
  (B2R 24 128 (used_threshold m p) <= part cs lines 1 - mean_rounding (length images))%R ->
  exists r, In r l /\ r_index r = N /\ (part cs lines 1 - mean_rounding (length images) <= conf_real r)%R.
Proof.
  intros HC HZ HM HN HR HL HF F T.
  assert (CN : countable images) by (unfold countable; unfold zlen in HZ; lia).
  destruct (seen_lines _ _ _ _ _ _ _ _ _ HC CN HR) as (SL' & SZ & SP' & SI). unfold INT_MAX in SI.
  assert (L0 : 0 < lines).
  { destruct Ds as [|D Ds0]; [cbn in SP'; lia|]. rewrite <- (HL D) by (left; reflexivity). apply SL'. left; reflexivity. }
  assert (SL : forall D, In D Ds -> 0 < d_lines D <= 2^31) by (intros D I; apply SL', I).
  assert (SP : 1 <= zlen Ds <= 2^53) by lia. assert (LN : length Ds = length images) by (unfold zlen in SZ; lia).
  assert (CR : used_criterion (e_cfg E) m = ZeroCrossing) by (unfold used_criterion; rewrite HM; reflexivity).
  assert (RG : used_range (e_cfg E) m p = 1) by (unfold used_range; rewrite HM; reflexivity).
  pose proof (sum_lines_ge lines N L0 Ds cs HL F) as SG. pose proof (Forall2_length _ _ _ F) as LC.
  assert (EM : (part cs lines 1 <= exact_mean ZeroCrossing Ds 1 N)%R).
  { unfold part, exact_mean. rewrite <- LC.
    assert (0 < INR (length Ds))%R by (rewrite INR_IZR_INZ; apply IZR_lt; unfold zlen in SP; lia).
    assert (0 < IZR (lines * 1))%R by (apply IZR_lt; lia).
    replace (sum_R (map IZR cs) / (INR (length Ds) * IZR (lines * 1)))%R with (sum_R (map IZR cs) / IZR (lines * 1) / INR (length Ds))%R by (field; lra).
    apply Rmult_le_compat_r; [left; apply Rinv_0_lt_compat; assumption|exact SG]. }
  destruct (mean64_err ZeroCrossing Ds 1 N ltac:(lia) SL SP) as (v & V & VB & VE).
  pose proof (mean_err ZeroCrossing Ds 1 N ltac:(lia) SL SP) as ME. rewrite LN in *.
  pose proof (bpow_gt_0 radix2 (-25)) as B25.
  rewrite mean_rounding_u in *. apply Rabs_le_inv in VE. apply Rabs_le_inv in ME.
  exists (mkRes N (f32_of_f64 (mean ZeroCrossing Ds 1 N))). split; [|split; [reflexivity|]].
  - apply (reported_in _ _ _ _ _ _ _ _ _ HC CN HR). right. cbn [r_index r_conf]. rewrite CR, RG.
    apply found_in. split; [exact HN|]. split; [reflexivity|]. split.
    + destruct (threshold_unit E w h m p HC) as (FT & TT).
      destruct (f64_of_f32_finite _ FT) as (X1 & X2 & _).
      destruct V as (V1 & V2 & V3). apply dge_spec; [exact V1|exact X1|]. unfold rd, rf in *. rewrite X2, V3. lra.
    + apply keeps_none. destruct (effective_used E w h m p HC) as (_ & _ & A). congruence.
  - unfold conf_real. cbn [r_conf]. lra.
Qed.
Lemma sum_lines_le lines N : 0 < lines -> forall Ds cs, (forall D, In D Ds -> d_lines D = lines) ->
  Forall2 (fun D c => crossing_lines D N <= lines - c) Ds cs ->
  (sum_R (map (exact_ratio ZeroCrossing 1 N) Ds) <= INR (length Ds) - sum_R (map IZR cs) / IZR (lines * 1))%R.
Proof.
  intros HL Ds cs HD F. rewrite Z.mul_1_r. assert (P : (0 < IZR lines)%R) by (apply IZR_lt; lia).
  induction F as [|D c Ds cs H F IH]; cbn [map sum_R]; [cbn; unfold Rdiv; lra|].
  assert (IH' := IH ltac:(intros; apply HD; right; assumption)). cbn [length]. rewrite S_INR.
  replace (INR (length Ds) + 1 - (IZR c + sum_R (map IZR cs)) / IZR lines)%R with (IZR (lines - c) / IZR lines + (INR (length Ds) - sum_R (map IZR cs) / IZR lines))%R by (rewrite minus_IZR; field; lra).
  apply Rplus_le_compat; [|exact IH']. unfold exact_ratio, hits, tested. rewrite (HD D) by (left; reflexivity).
  apply Rmult_le_compat_r; [left; apply Rinv_0_lt_compat, P|]. apply IZR_le, H.
Qed.
Lemma few_lines E m w h p images Ds len N lines l cs : client_ok E w h p -> zlen images <= 2^53 -> used_method m = Mzerox -> 1 <= N < len - 1 ->
  reported E m w h p images Ds len l -> (forall D, In D Ds -> d_lines D = lines) ->
  Forall2 (fun D c => crossing_lines D N <= lines - c) Ds cs ->
  (1 - part cs lines 1 + mean_rounding (length images) < B2R 24 128 (used_threshold m p))%R -> forall r, In r l -> r_index r <> N.
Proof.
  intros HC HZ HM HN HR HL F T r I EN.
  assert (CN : countable images) by (unfold countable; unfold zlen in HZ; lia).
  destruct (seen_lines _ _ _ _ _ _ _ _ _ HC CN HR) as (SL' & SZ & SP' & SI). unfold INT_MAX in SI.
  assert (L0 : 0 < lines).
  { destruct Ds as [|D Ds0]; [cbn in SP'; lia|]. rewrite <- (HL D) by (left; reflexivity). apply SL'. left; reflexivity. }
  assert (SL : forall D, In D Ds -> 0 < d_lines D <= 2^31) by (intros D J; apply SL', J).
  assert (SP : 1 <= zlen Ds <= 2^53) by lia. assert (LN : length Ds = length images) by (unfold zlen in SZ; lia).
  assert (CR : used_criterion (e_cfg E) m = ZeroCrossing) by (unfold used_criterion; rewrite HM; reflexivity).
  assert (RG : used_range (e_cfg E) m p = 1) by (unfold used_range; rewrite HM; reflexivity).
  pose proof (sum_lines_le lines N L0 Ds cs HL F) as SG. pose proof (Forall2_length _ _ _ F) as LC.
  assert (EM : (exact_mean ZeroCrossing Ds 1 N <= 1 - part cs lines 1)%R).
  { unfold part, exact_mean. rewrite <- LC.
    assert (0 < INR (length Ds))%R by (rewrite INR_IZR_INZ; apply IZR_lt; unfold zlen in SP; lia).
    assert (0 < IZR (lines * 1))%R by (apply IZR_lt; lia).
    replace (1 - sum_R (map IZR cs) / (INR (length Ds) * IZR (lines * 1)))%R with ((INR (length Ds) - sum_R (map IZR cs) / IZR (lines * 1)) / INR (length Ds))%R by (field; lra).
    apply Rmult_le_compat_r; [left; apply Rinv_0_lt_compat; assumption|exact SG]. }
  destruct (mean64_err ZeroCrossing Ds 1 N ltac:(lia) SL SP) as (v & V & VB & VE). rewrite LN in *.
  pose proof (bpow_gt_0 radix2 (-25)) as B25. rewrite mean_rounding_u in *. apply Rabs_le_inv in VE.
  apply (reported_in _ _ _ _ _ _ _ _ _ HC CN HR) in I. destruct I as [->|I]; [cbn in EN; lia|].
  rewrite CR, RG in I. apply found_in in I. destruct I as (_ & _ & G & _). rewrite EN in G.
  destruct (threshold_unit E w h m p HC) as (FT & TT).
  destruct (f64_of_f32_finite _ FT) as (X1 & X2 & _).
  destruct V as (V1 & V2 & V3). apply dge_spec in G; [|exact V1|exact X1]. unfold rd, rf in *. rewrite X2, V3 in G. lra.
Qed.
Lemma crossing_le D N : 1 <= N < d_len D - 1 -> crossing_lines D N <= inverted_pairs D 1 N.
Proof. intros H. apply (hits_le ZeroCrossing D 1 N); [lia|exact H|reflexivity|discriminate]. Qed.
Lemma alike_x_lines E N w h image c : 1 <= N < w - 1 -> 0 <= h -> clear_x alike E N w h 1 image c -> crossing_lines (dim_x w h (plane E w h image)) N <= h - c.
Proof. intros HN Hh C. eapply Z.le_trans; [apply crossing_le; exact HN|]. replace (h - c) with (h * 1 - c) by lia. apply clear_x_alike; [lia|exact HN|exact Hh|exact C]. Qed.
Lemma alike_y_lines E N w h image c : 1 <= N < h - 1 -> 0 <= w -> clear_y alike E N w h 1 image c -> crossing_lines (dim_y w h (plane E w h image)) N <= w - c.
Proof. intros HN Hh C. eapply Z.le_trans; [apply crossing_le; exact HN|]. replace (w - c) with (w * 1 - c) by lia. apply clear_y_alike; [lia|exact HN|exact Hh|exact C]. Qed.
