(** @header
    Properties C85 and C86: the signs of the exact coefficients decide what is reported. *)
From Coq Require Import Reals Lra Lia Psatz.
From Flocq Require Import Core IEEE754.Binary.
From Verif Require Import Base Flt Util Methods Analysis History Kiss Spec SpecAnalysis SpecUtil SpecReport SpecTransform SpecAccuracy SpecInterpolate SpecDetect.
From Verif Require Import BaseProofs FltProofs RoundProofs WorldProofs AnalysisProofs ResultsProofs ClientProofs CompareProofs.
From Verif Require Import KissProofs KissFactor KissTransform KissExact KissAccuracy AccuracyProofs AccuracyTables UpscaleProofs UpscaleDetect
  InterpolateProofs InterpolateKernels Demo AnalysisClaims KissClaims AccuracyClaims InterpolateClaims DetectProofs.
Open Scope list_scope.
Open Scope Z_scope.

(** C85.  The KISS build is accurate in this sense, with the bound of C73. *)
Lemma kiss_accurate_claim : forall E0 twiddle super shift t0 F t w h M lw lh,
  1 <= w <= 2^20 -> 1 <= h <= 2^20 -> tables_close twiddle super shift w -> tables_close twiddle super shift h ->
  (1 <= M <= 1048576)%R -> kf_factor w = Ok lw -> kf_factor h = Ok lh ->
  accurate (kiss_env (e_cfg E0) (e_alloc E0) (float_ops twiddle super shift) (e_qsort E0) t0 F t) w h M
    (coefficient_error w h (radices_of lw) (radices_of lh) M).
Proof. intros E0 tw su sh t0 F t w h M lw lh Hw Hh Tw Th HM Ew Eh image g HS y x Hy Hx. eapply kiss_plane_close; eassumption. Qed.

(** C85.  Width N is reported by the sign method if enough pairs of exact coefficients
    around it are clear of the errors of the transform and of opposite signs.  The
    confidence is at least the part of pairs that are, in the mean over all frames, up to
    its rounding.  This holds for any images and any transform that is accurate. *)
Lemma width_reported_claim : forall E m N w h p images cs l,
  client_ok E w h p -> zlen images <= 2^53 -> used_method m = Msign -> used_filter p = 0 ->
  let range := used_range (e_cfg E) m p in let found := (part cs h range - mean_rounding (length images))%R in
  range <= N < w - range -> Forall2 (clear_x opposed E N w h range) images cs ->
  reported E m w h p images (seen_x E w h images) w l -> (B2R 24 128 (used_threshold m p) <= found)%R ->
  exists r, In r l /\ r_index r = N /\ (found <= conf_real r)%R.
Proof.
  intros E m N w h p images cs l HC HZ HM HF range found HN F R T.
  pose proof (used_range_pos E w h m p HC) as RP.
  eapply (enough_pairs E m w h p images _ w N h l cs); try eassumption.
  - intros D I. apply in_map_iff in I. destruct I as (im & <- & _). reflexivity.
  - unfold seen_x. clear -F HN RP. induction F; cbn [map]; constructor; [apply clear_x_opposed; assumption|assumption].
Qed.
(** C85.  The same of the height. *)
Lemma height_reported_claim : forall E m N w h p images cs l,
  client_ok E w h p -> zlen images <= 2^53 -> used_method m = Msign -> used_filter p = 0 ->
  let range := used_range (e_cfg E) m p in let found := (part cs w range - mean_rounding (length images))%R in
  range <= N < h - range -> Forall2 (clear_y opposed E N w h range) images cs ->
  reported E m w h p images (seen_y E w h images) h l -> (B2R 24 128 (used_threshold m p) <= found)%R ->
  exists r, In r l /\ r_index r = N /\ (found <= conf_real r)%R.
Proof.
  intros E m N w h p images cs l HC HZ HM HF range found HN F R T.
  pose proof (used_range_pos E w h m p HC) as RP.
  eapply (enough_pairs E m w h p images _ h N w l cs); try eassumption.
  - intros D I. apply in_map_iff in I. destruct I as (im & <- & _). reflexivity.
  - unfold seen_y. clear -F HN RP. induction F; cbn [map]; constructor; [apply clear_y_opposed; assumption|assumption].
Qed.
(** C85.  And it is not reported if too many pairs are clear and of the same sign. *)
Lemma width_not_reported_claim : forall E m N w h p images cs l,
  client_ok E w h p -> zlen images <= 2^53 -> used_method m = Msign ->
  let range := used_range (e_cfg E) m p in
  range <= N < w - range -> Forall2 (clear_x alike E N w h range) images cs ->
  reported E m w h p images (seen_x E w h images) w l ->
  (1 - part cs h range + mean_rounding (length images) < B2R 24 128 (used_threshold m p))%R ->
  forall r, In r l -> r_index r <> N.
Proof.
  intros E m N w h p images cs l HC HZ HM range HN F R T.
  pose proof (used_range_pos E w h m p HC) as RP.
  eapply (few_pairs E m w h p images _ w N h l cs); try eassumption.
  - intros D I. apply in_map_iff in I. destruct I as (im & <- & _). reflexivity.
  - assert (0 <= h) by apply HC. unfold seen_x. clear -F HN RP H. induction F; cbn [map]; constructor; [apply clear_x_alike; assumption|assumption].
Qed.
Lemma height_not_reported_claim : forall E m N w h p images cs l,
  client_ok E w h p -> zlen images <= 2^53 -> used_method m = Msign ->
  let range := used_range (e_cfg E) m p in
  range <= N < h - range -> Forall2 (clear_y alike E N w h range) images cs ->
  reported E m w h p images (seen_y E w h images) h l ->
  (1 - part cs w range + mean_rounding (length images) < B2R 24 128 (used_threshold m p))%R ->
  forall r, In r l -> r_index r <> N.
Proof.
  intros E m N w h p images cs l HC HZ HM range HN F R T.
  pose proof (used_range_pos E w h m p HC) as RP.
  eapply (few_pairs E m w h p images _ h N w l cs); try eassumption.
  - intros D I. apply in_map_iff in I. destruct I as (im & <- & _). reflexivity.
  - assert (0 <= w) by apply HC. unfold seen_y. clear -F HN RP H. induction F; cbn [map]; constructor; [apply clear_y_alike; assumption|assumption].
Qed.

(** ** Upscales *)
Lemma nonneg_error E w h M e image f : accurate E w h M e -> has_samples w h image f M -> 1 <= w -> 1 <= h -> (0 <= e)%R.
Proof. intros A H Hw Hh. destruct (A image f H 0 0 ltac:(lia) ltac:(lia)) as (_ & B). eapply Rle_trans; [apply Rabs_pos|exact B]. Qed.
Lemma closer a b t e : (Rabs (a - b) <= t)%R -> (e + t < Rabs b)%R -> (0 <= e)%R -> (e < Rabs a)%R /\ (0 < a * b)%R.
Proof. unfold Rabs. destruct (Rcase_abs (a - b)), (Rcase_abs b), (Rcase_abs a); intros; split; nra. Qed.
Lemma same_side a a' b b' : (0 < a * b)%R -> (0 < a' * b')%R -> (b * b' < 0)%R -> (a * a' < 0)%R.
Proof. intros H H' B. assert (0 < (a * a') * (b * b') -> False -> False)%R by tauto. destruct (Rlt_or_le (a * a') 0); [assumption|]. exfalso. nra. Qed.
Lemma partly_clear_x E N w h range image c : 1 <= N <= w -> 1 <= h -> partly_x E N w h range image c -> range <= N < w - range -> clear_x opposed E N w h range image c.
Proof.
  intros HN Hh (g & a & K & G & M & d & leak & e & s & KO & HG & HK & A & (f & HS & Hd) & SP & CN & HC) HR.
  exists f, M, e, s. split; [exact HS|]. split; [exact A|]. split; [exact SP|]. split; [exact CN|].
  intros y i I. cbn zeta. destruct (HC y i I) as (A1 & A2). destruct (proj2 SP y i I) as (Hy & Hi).
  destruct (HK (N - i)) as (P & P0 & R1); [lia|]. destruct (HK (N + i)) as (P' & P0' & R2); [lia|].
  pose proof (nonneg_error E w h M e image f A HS ltac:(lia) Hh) as E0.
  assert (G0 : (0 <= G)%R) by (eapply Rle_trans; [apply Rabs_pos|]; apply (HG 0 0); lia).
  assert (L0 : (0 <= leak)%R).
  { specialize (R1 0). pose proof (Rabs_pos (phase_cos N w a K (N - i) 0 - P)). pose proof (Rabs_pos (phase_sin N w a K (N - i) 0)). lra. }
  assert (W0 : (0 <= IZR w)%R) by (apply (IZR_le 0); lia). assert (H0 : (0 <= IZR h)%R) by (apply (IZR_le 0); lia). assert (N0 : (0 <= IZR N)%R) by (apply (IZR_le 0); lia).
  assert (X0 : (0 <= 4 * IZR N * IZR h * G * leak)%R) by (repeat apply Rmult_le_pos; lra).
  assert (DP : (0 <= d)%R) by (eapply Rle_trans; [apply Rabs_pos|]; apply (Hd 0 0); lia).
  assert (Y0 : (0 <= 4 * IZR w * IZR h * d)%R) by (repeat apply Rmult_le_pos; lra).
  set (g' := rows_resampled N w a K g) in *.
  pose proof (dct_2d_near w h f g' d y (N - i) ltac:(lia) Hh Hd) as N1.
  pose proof (dct_2d_near w h f g' d y (N + i) ltac:(lia) Hh Hd) as N2.
  destruct (closer _ _ _ e N1 ltac:(lra) E0) as (C1 & S1). destruct (closer _ _ _ e N2 ltac:(lra) E0) as (C2 & S2).
  split; [exact C1|]. split; [exact C2|]. unfold opposed. eapply same_side; [exact S1|exact S2|].
  apply (rows_opposite N w h a K g G leak P P' i y); try assumption; try lia; fold g'; lra.
Qed.
Lemma partly_clear_y E N w h range image c : 1 <= N <= h -> 1 <= w -> partly_y E N w h range image c -> range <= N < h - range -> clear_y opposed E N w h range image c.
Proof.
  intros HN Hw (g & a & K & G & M & d & leak & e & s & KO & HG & HK & A & (f & HS & Hd) & SP & CN & HC) HR.
  exists f, M, e, s. split; [exact HS|]. split; [exact A|]. split; [exact SP|]. split; [exact CN|].
  intros x i I. cbn zeta. destruct (HC x i I) as (A1 & A2). destruct (proj2 SP x i I) as (Hx & Hi).
  destruct (HK (N - i)) as (P & P0 & R1); [lia|]. destruct (HK (N + i)) as (P' & P0' & R2); [lia|].
  pose proof (nonneg_error E w h M e image f A HS Hw ltac:(lia)) as E0.
  assert (G0 : (0 <= G)%R) by (eapply Rle_trans; [apply Rabs_pos|]; apply (HG 0 0); lia).
  assert (L0 : (0 <= leak)%R).
  { specialize (R1 0). pose proof (Rabs_pos (phase_cos N h a K (N - i) 0 - P)). pose proof (Rabs_pos (phase_sin N h a K (N - i) 0)). lra. }
  assert (W0 : (0 <= IZR w)%R) by (apply (IZR_le 0); lia). assert (H0 : (0 <= IZR h)%R) by (apply (IZR_le 0); lia). assert (N0 : (0 <= IZR N)%R) by (apply (IZR_le 0); lia).
  assert (X0 : (0 <= 4 * IZR N * IZR w * G * leak)%R) by (repeat apply Rmult_le_pos; lra).
  assert (DP : (0 <= d)%R) by (eapply Rle_trans; [apply Rabs_pos|]; apply (Hd 0 0); lia).
  assert (Y0 : (0 <= 4 * IZR w * IZR h * d)%R) by (repeat apply Rmult_le_pos; lra).
  set (g' := columns_resampled N h a K g) in *.
  pose proof (dct_2d_near w h f g' d (N - i) x Hw ltac:(lia) Hd) as N1.
  pose proof (dct_2d_near w h f g' d (N + i) x Hw ltac:(lia) Hd) as N2.
  destruct (closer _ _ _ e N1 ltac:(lra) E0) as (C1 & S1). destruct (closer _ _ _ e N2 ltac:(lra) E0) as (C2 & S2).
  split; [exact C1|]. split; [exact C2|]. unfold opposed. eapply same_side; [exact S1|exact S2|]. unfold g' in *.
  rewrite (dct_2d_flip w h) in A1, A2 by lia. rewrite !(dct_2d_flip w h) by lia.
  apply (rows_opposite N h w a K (fun x y => g y x) G leak P P' i x); try assumption; try lia; try (intros; apply HG; assumption).
  + eapply Rle_lt_trans; [|exact A1]. lra.
  + eapply Rle_lt_trans; [|exact A2]. lra.
Qed.

(** C86.  Frames whose rows were scaled up from N samples by interpolation, up to an error
    d per sample: width N is reported with at least the confidence that the clear pairs
    amount to, with any accurate transform, if that reaches the threshold. *)
Lemma partly_interpolated_width_claim : forall E m N w h p images cs l,
  client_ok E w h p -> zlen images <= 2^53 -> used_method m = Msign -> used_filter p = 0 ->
  let range := used_range (e_cfg E) m p in let found := (part cs h range - mean_rounding (length images))%R in
  range <= N < w - range -> Forall2 (partly_x E N w h range) images cs ->
  reported E m w h p images (seen_x E w h images) w l -> (B2R 24 128 (used_threshold m p) <= found)%R ->
  exists r, In r l /\ r_index r = N /\ (found <= conf_real r)%R.
Proof.
  intros E m N w h p images cs l HC HZ HM HF range found HN F R T.
  pose proof (used_range_pos E w h m p HC) as RP. fold range in RP.
  assert (H1 : 1 <= h).
  { destruct (seen_lines E m w h p images _ w l HC ltac:(unfold countable, zlen in *; lia) R) as (S & SZ & SP & _).
    destruct images as [|im images]; [cbn in SP; lia|]. destruct (S _ (or_introl eq_refl)) as (B & _). cbn in B. lia. }
  apply (width_reported_claim E m N w h p images cs l); try assumption. fold range.
  clear -F HN RP H1. induction F; constructor; [|assumption]. apply partly_clear_x; try assumption; lia.
Qed.
(** C86.  The same of the height. *)
Lemma partly_interpolated_height_claim : forall E m N w h p images cs l,
  client_ok E w h p -> zlen images <= 2^53 -> used_method m = Msign -> used_filter p = 0 ->
  let range := used_range (e_cfg E) m p in let found := (part cs w range - mean_rounding (length images))%R in
  range <= N < h - range -> Forall2 (partly_y E N w h range) images cs ->
  reported E m w h p images (seen_y E w h images) h l -> (B2R 24 128 (used_threshold m p) <= found)%R ->
  exists r, In r l /\ r_index r = N /\ (found <= conf_real r)%R.
Proof.
  intros E m N w h p images cs l HC HZ HM HF range found HN F R T.
  pose proof (used_range_pos E w h m p HC) as RP. fold range in RP.
  assert (H1 : 1 <= w).
  { destruct (seen_lines E m w h p images _ h l HC ltac:(unfold countable, zlen in *; lia) R) as (S & SZ & SP & _).
    destruct images as [|im images]; [cbn in SP; lia|]. destruct (S _ (or_introl eq_refl)) as (B & _). cbn in B. lia. }
  apply (height_reported_claim E m N w h p images cs l); try assumption. fold range.
  clear -F HN RP H1. induction F; constructor; [|assumption]. apply partly_clear_y; try assumption; lia.
Qed.

(** ** Concrete cases *)
(** the 4x2 image both of whose rows are 1 1 0 0: the second row of coefficients is zero, so
    that one of two pairs is clear *)
Definition flat_image : list f32 := map f32_of_Z [1; 1; 0; 0; 1; 1; 0; 0].
(** and 1 0 0 0, whose coefficients 1 and 3 are positive *)
Definition spike_image : list f32 := map f32_of_Z [1; 0; 0; 0].
Definition spike (y x : Z) : R := if x + y =? 0 then 1%R else 0%R.
Definition quarter_params : option params :=
  snd (set_all (Some (default_params default_config)) [Range 1; Threshold (fdiv (f32_of_Z 1) (f32_of_Z 4))]).

Lemma bits : ffinite (f32_of_Z 1) = true /\ B2R 24 128 (f32_of_Z 1) = 1%R /\ ffinite (f32_of_Z 0) = true /\ B2R 24 128 (f32_of_Z 0) = 0%R.
Proof. destruct (f32_of_Z_exact 1 ltac:(lia)) as (F1 & _ & V1). destruct (f32_of_Z_exact 0 ltac:(lia)) as (F0 & _ & V0). repeat split; assumption. Qed.

Lemma flat_samples : has_samples 4 2 flat_image (widened 2 upscale_source) 1.
Proof.
  destruct bits as (F1 & V1 & F0 & V0). split; [reflexivity|]. intros y x Hy Hx.
  assert (C : y = 0 \/ y = 1) by lia. assert (C' : x = 0 \/ x = 1 \/ x = 2 \/ x = 3) by lia.
  destruct C as [->| ->], C' as [->|[->|[->| ->]]]; (split; [assumption|]); (split; [assumption|]); cbn; first [rewrite Rabs_R1|rewrite Rabs_R0]; lra.
Qed.
Lemma flat_coefficients : let D := dct_2d 4 2 (widened 2 upscale_source) 0 in (1 < D 1%Z)%R /\ (D 3%Z < - 1)%R.
Proof.
  assert (D : forall k, dct_2d 4 2 (widened 2 upscale_source) 0 k = (8 * (cos (IZR k * (PI / 8)) + cos (IZR (3 * k) * (PI / 8))))%R).
  { intros k. unfold dct_2d, rsum. change (zrange 0 2) with [0; 1]. change (zrange 0 4) with [0; 1; 2; 3]. cbn [fold_right].
    repeat match goal with |- context [widened 2 upscale_source ?y ?x] =>
      let v := eval cbn in (widened 2 upscale_source y x) in change (widened 2 upscale_source y x) with v end.
    replace (PI * 0 * (0 + 1 / 2) / 2)%R with 0%R by field. replace (PI * 0 * (1 + 1 / 2) / 2)%R with 0%R by field. rewrite cos_0, !mult_IZR.
    replace (PI * IZR k * (0 + 1 / 2) / 4)%R with (IZR k * (PI / 8))%R by field.
    replace (PI * IZR k * (1 + 1 / 2) / 4)%R with (3 * IZR k * (PI / 8))%R by field. ring. }
  destruct cosines_8 as (S3 & S5 & S7 & S9 & S15 & S21 & CB & SB). cbn zeta.
  rewrite (D 1), (D 3). cbn [Z.mul Pos.mul Pos.add Pos.succ]. rewrite S3, S9, Rmult_1_l. split; lra.
Qed.
Lemma spike_samples w h : (w = 4 /\ h = 1) \/ (w = 1 /\ h = 4) -> has_samples w h spike_image spike 1.
Proof.
  destruct bits as (F1 & V1 & F0 & V0). intros [(-> & ->)|(-> & ->)]; (split; [reflexivity|]); intros y x Hy Hx.
  - assert (y = 0) by lia. subst y. assert (C' : x = 0 \/ x = 1 \/ x = 2 \/ x = 3) by lia.
    destruct C' as [->|[->|[->| ->]]]; (split; [assumption|]); (split; [assumption|]); cbn; first [rewrite Rabs_R1|rewrite Rabs_R0]; lra.
  - assert (x = 0) by lia. subst x. assert (C' : y = 0 \/ y = 1 \/ y = 2 \/ y = 3) by lia.
    destruct C' as [->|[->|[->| ->]]]; (split; [assumption|]); (split; [assumption|]); cbn; first [rewrite Rabs_R1|rewrite Rabs_R0]; lra.
Qed.
Lemma spike_coefficients : (1 < dct_2d 4 1 spike 0 1 /\ 1 < dct_2d 4 1 spike 0 3)%R.
Proof.
  assert (D : forall k, dct_2d 4 1 spike 0 k = (4 * cos (IZR k * (PI / 8)))%R).
  { intros k. unfold dct_2d, rsum. change (zrange 0 1) with [0]. change (zrange 0 4) with [0; 1; 2; 3]. cbn [fold_right].
    repeat match goal with |- context [spike ?y ?x] => let v := eval cbn in (spike y x) in change (spike y x) with v end.
    replace (PI * 0 * (0 + 1 / 2) / 1)%R with 0%R by field. rewrite cos_0.
    replace (PI * IZR k * (0 + 1 / 2) / 4)%R with (IZR k * (PI / 8))%R by field. ring. }
  destruct cosines_8 as (S3 & S5 & S7 & S9 & S15 & S21 & CB & SB). rewrite (D 1), (D 3), S3, Rmult_1_l. split; lra.
Qed.

Lemma dct_2d_same w h f g row col : (forall y x, 0 <= y < h -> 0 <= x < w -> f y x = g y x) -> dct_2d w h f row col = dct_2d w h g row col.
Proof. intros H. unfold dct_2d. f_equal. apply rsum_ext. intros y Hy. apply rsum_ext. intros x Hx. rewrite H by lia. reflexivity. Qed.
Lemma one_pair lines : 1 <= lines -> some_pairs lines 1 [(0, 1)].
Proof. intros. split; [constructor; [intros []|constructor]|]. intros y i [[= <- <-]|[]]. lia. Qed.
Lemma past e v : (e <= 1 -> 1 < v \/ v < - 1 -> e < Rabs v)%R.
Proof. intros H [A|A]; unfold Rabs; destruct (Rcase_abs v); lra. Qed.
(** in any build that is accurate to within 1 *)
Lemma flat_partly E e : (e <= 1)%R -> accurate E 4 2 1 e -> partly_x E 2 4 2 1 flat_image 1.
Proof.
  intros He A. destruct (nearest_response_claim 2 2 ltac:(lia) ltac:(lia)) as (KO & B & _). destruct flat_coefficients as (D1 & D3).
  assert (D : forall k, dct_2d 4 2 (rows_resampled 2 4 1 box upscale_source) 0 k = dct_2d 4 2 (widened 2 upscale_source) 0 k).
  { intros k. apply dct_2d_same. intros y x _ Hx. apply (B upscale_source y x). lia. }
  exists upscale_source, 1, box, 1%R, 1%R, 0%R, 0%R, e, [(0, 1)]. split; [exact KO|]. split.
  { intros y x _ _. unfold upscale_source. destruct (x =? 0); [rewrite Rabs_R1|rewrite Rabs_R0]; lra. }
  split; [intros k Hk; apply (common_responds 2 1 box 2 1 k); [left; split; reflexivity|lia|lia|lia]|].
  split; [exact A|]. split.
  { exists (widened 2 upscale_source). split; [exact flat_samples|]. intros y x _ Hx. rewrite <- (B upscale_source y x) by lia.
    change (2 * 2) with 4. rewrite Rminus_diag_eq, Rabs_R0 by reflexivity. lra. }
  split; [apply one_pair; lia|]. split; [reflexivity|].
  intros y i [[= <- <-]|[]]. cbn beta zeta. rewrite !D. change (2 - 1) with 1. change (2 + 1) with 3.
  rewrite !Rmult_0_r, !Rplus_0_r. split; apply past; try assumption; [left|right]; assumption.
Qed.
Lemma spike_alike_x E e : (e <= 1)%R -> accurate E 4 1 1 e -> clear_x alike E 2 4 1 1 spike_image 1.
Proof.
  intros He A. destruct spike_coefficients as (D1 & D3). exists spike, 1%R, e, [(0, 1)].
  split; [apply spike_samples; left; split; reflexivity|]. split; [exact A|]. split; [apply one_pair; lia|]. split; [reflexivity|].
  intros y i [[= <- <-]|[]]. cbn zeta. change (2 - 1) with 1. change (2 + 1) with 3.
  split; [apply past; tauto|]. split; [apply past; tauto|]. unfold alike. nra.
Qed.
Lemma spike_alike_y E e : (e <= 1)%R -> accurate E 1 4 1 e -> clear_y alike E 2 1 4 1 spike_image 1.
Proof.
  intros He A. destruct spike_coefficients as (D1 & D3).
  assert (D : forall k, dct_2d 1 4 spike k 0 = dct_2d 4 1 spike 0 k).
  { intros k. rewrite (dct_2d_flip 1 4) by lia. apply dct_2d_same. intros y x _ _. unfold spike. rewrite Z.add_comm. reflexivity. }
  exists spike, 1%R, e, [(0, 1)].
  split; [apply spike_samples; right; split; reflexivity|]. split; [exact A|]. split; [apply one_pair; lia|]. split; [reflexivity|].
  intros y i [[= <- <-]|[]]. cbn beta zeta. rewrite !D. change (2 - 1) with 1. change (2 + 1) with 3.
  split; [apply past; tauto|]. split; [apply past; tauto|]. unfold alike. nra.
Qed.

Lemma params_fine : client_params (e_cfg demo_env) quarter_params /\ client_params (e_cfg demo_env) upscale_params.
Proof.
  split; right.
  - exists [Range 1; Threshold (fdiv (f32_of_Z 1) (f32_of_Z 4))], [RDEOK; RDEOK]. split; [repeat constructor; simpl; lia|]. reflexivity.
  - exists [Range 1], [RDEOK]. split; [repeat constructor; simpl; lia|reflexivity].
Qed.
Lemma thresholds : B2R 24 128 (used_threshold None quarter_params) = (1/4)%R /\ (54/100 < B2R 24 128 (used_threshold None upscale_params))%R.
Proof.
  rewrite <- !FF2R_B2FF. split.
  - replace (B2FF 24 128 (used_threshold None quarter_params)) with (F754_finite false 8388608 (-25)) by (vm_compute; reflexivity).
    cbn. unfold F2R. cbn. lra.
  - replace (B2FF 24 128 (used_threshold None upscale_params)) with (F754_finite false 9227469 (-24)) by (vm_compute; reflexivity).
    cbn. unfold F2R. cbn. lra.
Qed.

(** the same image turned *)
Definition tall_image : list f32 := map f32_of_Z [1; 1; 1; 1; 0; 0; 0; 0].
Lemma tall_samples : has_samples 2 4 tall_image (fun y x => widened 2 upscale_source x y) 1.
Proof.
  destruct bits as (F1 & V1 & F0 & V0). split; [reflexivity|]. intros y x Hy Hx.
  assert (C : x = 0 \/ x = 1) by lia. assert (C' : y = 0 \/ y = 1 \/ y = 2 \/ y = 3) by lia.
  destruct C as [->| ->], C' as [->|[->|[->| ->]]]; (split; [assumption|]); (split; [assumption|]); cbn; first [rewrite Rabs_R1|rewrite Rabs_R0]; lra.
Qed.
Lemma tall_partly E e : (e <= 1)%R -> accurate E 2 4 1 e -> partly_y E 2 2 4 1 tall_image 1.
Proof.
  intros He A. destruct (nearest_response_claim 2 2 ltac:(lia) ltac:(lia)) as (KO & B & _). destruct flat_coefficients as (D1 & D3).
  set (g := fun y x => upscale_source x y).
  assert (D : forall k, dct_2d 2 4 (columns_resampled 2 4 1 box g) k 0 = dct_2d 4 2 (widened 2 upscale_source) 0 k).
  { intros k. rewrite (dct_2d_flip 2 4) by lia. apply dct_2d_same. intros y x _ Hx. apply (B upscale_source y x). lia. }
  exists g, 1, box, 1%R, 1%R, 0%R, 0%R, e, [(0, 1)]. split; [exact KO|]. split.
  { intros y x _ _. unfold g, upscale_source. destruct (y =? 0); [rewrite Rabs_R1|rewrite Rabs_R0]; lra. }
  split; [intros k Hk; apply (common_responds 2 1 box 2 1 k); [left; split; reflexivity|lia|lia|lia]|].
  split; [exact A|]. split.
  { exists (fun y x => widened 2 upscale_source x y). split; [exact tall_samples|]. intros y x Hy _. cbn beta. rewrite <- (B upscale_source x y) by lia.
    change (2 * 2) with 4. rewrite Rminus_diag_eq, Rabs_R0 by reflexivity. lra. }
  split; [apply one_pair; lia|]. split; [reflexivity|].
  intros y i [[= <- <-]|[]]. cbn beta zeta. rewrite !D. change (2 - 1) with 1. change (2 + 1) with 3.
  rewrite !Rmult_0_r, !Rplus_0_r. split; apply past; try assumption; [left|right]; assumption.
Qed.

(** a build with KISS and what it reports of an image of at most eight samples *)
Definition small_kiss twiddle super shift : env :=
  kiss_env (e_cfg demo_env) (e_alloc demo_env) (float_ops twiddle super shift) (e_qsort demo_env) f0 (f0, f0) (f0, f0).
Definition small_case (w h : Z) (image : list f32) (p : option params) (Q : env -> Prop) : Prop :=
  exists twiddle super shift l l', tables_close twiddle super shift w /\ tables_close twiddle super shift h /\
    let E := small_kiss twiddle super shift in
    client_ok E w h p /\ used_range (e_cfg E) None p = 1 /\ used_filter p = 0 /\ Q E /\
    reported E None w h p [image] (seen_x E w h [image]) w l /\ reported E None w h p [image] (seen_y E w h [image]) h l'.
Definition small_size (w h : Z) : bool := existsb (fun s => (fst s =? w) && (snd s =? h)) [(4, 2); (2, 4); (4, 1); (1, 4)].
Lemma small_sizes w h : small_size w h = true -> (w = 4 /\ h = 2) \/ (w = 2 /\ h = 4) \/ (w = 4 /\ h = 1) \/ (w = 1 /\ h = 4).
Proof. unfold small_size. cbn [existsb fst snd]. rewrite !orb_true_iff, !andb_true_iff, !Z.eqb_eq. intuition (try discriminate; lia). Qed.
Lemma small_case_holds w h image p (Q : env -> Prop) : small_size w h = true -> client_params (e_cfg demo_env) p -> used_range (e_cfg demo_env) None p = 1 -> used_filter p = 0 ->
  valid_image w h image -> w * h <= zlen image -> (forall E e, (e <= 1)%R -> accurate E w h 1 e -> Q E) -> small_case w h image p Q.
Proof.
  intros S HP HR HF V L HQ. apply small_sizes in S.
  destruct tables_exist as (tw & su & sh & T). exists tw, su, sh. set (E := small_kiss tw su sh).
  assert (HC : client_ok E w h p).
  { split; [apply kiss_env_claim, demo_env_ok|]. split; [lia|]. split; [lia|]. exact HP. }
  destruct (reported_all E None w h p [image] HC) as (l & l' & R1 & R2).
  - reflexivity.
  - unfold plan_fits. destruct S as [(-> & ->)|[(-> & ->)|[(-> & ->)|(-> & ->)]]]; vm_compute; intuition discriminate.
  - constructor; [|constructor]. split; assumption.
  - unfold countable; simpl; lia.
  - discriminate.
  - exists l, l'. split; [apply T; lia|]. split; [apply T; lia|]. cbn zeta. fold E. split; [exact HC|]. split; [exact HR|]. split; [exact HF|].
    split; [|split; [exact R1|exact R2]].
    assert (exists lw lh, kf_factor w = Ok lw /\ kf_factor h = Ok lh /\ (coefficient_error w h (radices_of lw) (radices_of lh) 1 <= 1)%R) as (lw & lh & F1 & F2 & CE).
    { destruct S as [(-> & ->)|[(-> & ->)|[(-> & ->)|(-> & ->)]]];
      [exists [4; 1], [2; 1]|exists [2; 1], [4; 1]|exists [4; 1], [1; 1]|exists [1; 1], [4; 1]]; (split; [reflexivity|]); (split; [reflexivity|]);
      unfold coefficient_error, loss, passes, pass_error; cbn; lra. }
    apply (HQ E _ CE). apply kiss_accurate_claim; try assumption; try lia; try lra; apply T; lia.
Qed.
Lemma half_enough lines : lines = 2 -> (B2R 24 128 (used_threshold None quarter_params) <= part [1%Z] lines 1 - mean_rounding 1)%R.
Proof. intros ->. rewrite (proj1 thresholds). unfold part, mean_rounding. cbn. lra. Qed.
Lemma none_enough : (1 - part [1%Z] 1 1 + mean_rounding 1 < B2R 24 128 (used_threshold None upscale_params))%R.
Proof. eapply Rle_lt_trans; [|exact (proj2 thresholds)]. unfold part, mean_rounding. cbn. lra. Qed.

Example kiss_accurate_example : exists twiddle super shift,
  tables_close twiddle super shift 4 /\ tables_close twiddle super shift 2 /\ kf_factor 4 = Ok [4; 1] /\ kf_factor 2 = Ok [2; 1] /\
  (coefficient_error 4 2 (radices_of [4; 1]%Z) (radices_of [2; 1]%Z) 1 < 1/1000)%R.
Proof.
  destruct tables_exist as (tw & su & sh & T). exists tw, su, sh. split; [apply T; lia|]. split; [apply T; lia|]. split; [reflexivity|]. split; [reflexivity|].
  unfold coefficient_error, loss, passes, pass_error. cbn. lra.
Qed.
Example width_reported_example : small_case 4 2 flat_image quarter_params (fun E => Forall2 (clear_x opposed E 2 4 2 1) [flat_image] [1]) /\
  (B2R 24 128 (used_threshold None quarter_params) <= part [1%Z] 2 1 - mean_rounding 1)%R.
Proof.
  split; [|apply half_enough; reflexivity]. apply small_case_holds; try reflexivity.
  - apply params_fine.
  - apply valid_forallb. vm_compute. reflexivity.
  - intros E e He A. constructor; [|constructor]. apply partly_clear_x; try lia. eapply flat_partly; eassumption.
Qed.
Example height_reported_example : small_case 2 4 tall_image quarter_params (fun E => Forall2 (clear_y opposed E 2 2 4 1) [tall_image] [1]) /\
  (B2R 24 128 (used_threshold None quarter_params) <= part [1%Z] 2 1 - mean_rounding 1)%R.
Proof.
  split; [|apply half_enough; reflexivity]. apply small_case_holds; try reflexivity.
  - apply params_fine.
  - apply valid_forallb. vm_compute. reflexivity.
  - intros E e He A. constructor; [|constructor]. apply partly_clear_y; try lia. eapply tall_partly; eassumption.
Qed.
Example width_not_reported_example : small_case 4 1 spike_image upscale_params (fun E => Forall2 (clear_x alike E 2 4 1 1) [spike_image] [1]) /\
  (1 - part [1%Z] 1 1 + mean_rounding 1 < B2R 24 128 (used_threshold None upscale_params))%R.
Proof.
  split; [|exact none_enough]. apply small_case_holds; try reflexivity.
  - apply params_fine.
  - apply valid_forallb. vm_compute. reflexivity.
  - intros E e He A. constructor; [|constructor]. eapply spike_alike_x; eassumption.
Qed.
Example height_not_reported_example : small_case 1 4 spike_image upscale_params (fun E => Forall2 (clear_y alike E 2 1 4 1) [spike_image] [1]) /\
  (1 - part [1%Z] 1 1 + mean_rounding 1 < B2R 24 128 (used_threshold None upscale_params))%R.
Proof.
  split; [|exact none_enough]. apply small_case_holds; try reflexivity.
  - apply params_fine.
  - apply valid_forallb. vm_compute. reflexivity.
  - intros E e He A. constructor; [|constructor]. eapply spike_alike_y; eassumption.
Qed.
Example partly_interpolated_width_example : small_case 4 2 flat_image quarter_params (fun E => Forall2 (partly_x E 2 4 2 1) [flat_image] [1]) /\
  (B2R 24 128 (used_threshold None quarter_params) <= part [1%Z] 2 1 - mean_rounding 1)%R.
Proof.
  split; [|apply half_enough; reflexivity]. apply small_case_holds; try reflexivity.
  - apply params_fine.
  - apply valid_forallb. vm_compute. reflexivity.
  - intros E e He A. constructor; [|constructor]. eapply flat_partly; eassumption.
Qed.
Example partly_interpolated_height_example : small_case 2 4 tall_image quarter_params (fun E => Forall2 (partly_y E 2 2 4 1) [tall_image] [1]) /\
  (B2R 24 128 (used_threshold None quarter_params) <= part [1%Z] 2 1 - mean_rounding 1)%R.
Proof.
  split; [|apply half_enough; reflexivity]. apply small_case_holds; try reflexivity.
  - apply params_fine.
  - apply valid_forallb. vm_compute. reflexivity.
  - intros E e He A. constructor; [|constructor]. eapply tall_partly; eassumption.
Qed.
