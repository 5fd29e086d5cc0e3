(** @header
    Property C100: the zero crossing method detects upscales. *)
From Coq Require Import Reals Lra Lia Psatz.
From Flocq Require Import Core IEEE754.Binary.
From Verif Require Import Base Flt Util Methods Analysis History Kiss Spec SpecAnalysis SpecUtil SpecReport SpecTransform SpecAccuracy SpecInterpolate SpecCubic SpecLanczos SpecDetect SpecCrossing.
From Verif Require Import BaseProofs FltProofs RoundProofs WorldProofs AnalysisProofs ResultsProofs ClientProofs CompareProofs.
From Verif Require Import KissProofs KissFactor KissTransform KissExact KissAccuracy AccuracyProofs AccuracyTables UpscaleProofs UpscaleDetect
  InterpolateProofs InterpolateKernels Demo AnalysisClaims KissClaims AccuracyClaims InterpolateClaims CubicClaims LanczosClaims DetectProofs DetectClaims TurnedClaims CrossingProofs.
Open Scope list_scope.
Open Scope Z_scope.

(** C100.  Width N is reported by the zero crossing method if the exact coefficients at
    N - 1, N and N + 1 cross zero on enough lines, clear of the errors of the transform.  The
    confidence is at least the part of the lines on which they do, in the mean over all
    frames, up to its rounding. *)
Lemma crossed_width_claim : forall E m N w h p images cs l,
  client_ok E w h p -> zlen images <= 2^53 -> used_method m = Mzerox -> used_filter p = 0 ->
  let found := (part cs h 1 - mean_rounding (length images))%R in
  1 <= N < w - 1 -> Forall2 (crossed_x E N w h) images cs ->
  reported E m w h p images (seen_x E w h images) w l -> (B2R 24 128 (used_threshold m p) <= found)%R ->
  exists r, In r l /\ r_index r = N /\ (found <= conf_real r)%R.
Proof.
  intros E m N w h p images cs l HC HZ HM HF found HN F R T.
  eapply (enough_lines E m w h p images _ w N h l cs); try eassumption.
  - intros D I. apply in_map_iff in I. destruct I as (im & <- & _). reflexivity.
  - unfold seen_x. clear -F HN. induction F; cbn [map]; constructor; [apply crossed_x_lines; assumption|assumption].
Qed.
(** C100.  The same of the height. *)
Lemma crossed_height_claim : forall E m N w h p images cs l,
  client_ok E w h p -> zlen images <= 2^53 -> used_method m = Mzerox -> used_filter p = 0 ->
  let found := (part cs w 1 - mean_rounding (length images))%R in
  1 <= N < h - 1 -> Forall2 (crossed_y E N w h) images cs ->
  reported E m w h p images (seen_y E w h images) h l -> (B2R 24 128 (used_threshold m p) <= found)%R ->
  exists r, In r l /\ r_index r = N /\ (found <= conf_real r)%R.
Proof.
  intros E m N w h p images cs l HC HZ HM HF found HN F R T.
  eapply (enough_lines E m w h p images _ h N w l cs); try eassumption.
  - intros D I. apply in_map_iff in I. destruct I as (im & <- & _). reflexivity.
  - unfold seen_y. clear -F HN. induction F; cbn [map]; constructor; [apply crossed_y_lines; assumption|assumption].
Qed.
(** C100.  So is the width of the original of frames upscaled with any kernel that responds
    at N - 1, N and N + 1 with at most [leak] aliasing: the coefficient at N vanishes but for
    aliasing and errors, and its neighbours have opposite signs. *)
Lemma crossing_upscale_width_claim : forall E m N w h p images cs l,
  client_ok E w h p -> zlen images <= 2^53 -> used_method m = Mzerox -> used_filter p = 0 ->
  let found := (part cs h 1 - mean_rounding (length images))%R in
  1 <= N < w - 1 -> Forall2 (crossing_upscale_x E N w h) images cs ->
  reported E m w h p images (seen_x E w h images) w l -> (B2R 24 128 (used_threshold m p) <= found)%R ->
  exists r, In r l /\ r_index r = N /\ (found <= conf_real r)%R.
Proof.
  intros E m N w h p images cs l HC HZ HM HF found HN F R T.
  assert (H1 : 1 <= h).
  { destruct (seen_lines E m w h p images _ w l HC ltac:(unfold countable, zlen in *; lia) R) as (S & SZ & SP & _).
    destruct images as [|im images]; [cbn in SP; lia|]. destruct (S _ (or_introl eq_refl)) as (B & _). cbn in B. lia. }
  apply (crossed_width_claim E m N w h p images cs l); try assumption.
  clear -F HN H1. induction F; constructor; [|assumption]. apply upscale_crossed_x; assumption.
Qed.
Lemma crossing_upscale_height_claim : forall E m N w h p images cs l,
  client_ok E w h p -> zlen images <= 2^53 -> used_method m = Mzerox -> used_filter p = 0 ->
  let found := (part cs w 1 - mean_rounding (length images))%R in
  1 <= N < h - 1 -> Forall2 (crossing_upscale_y E N w h) images cs ->
  reported E m w h p images (seen_y E w h images) h l -> (B2R 24 128 (used_threshold m p) <= found)%R ->
  exists r, In r l /\ r_index r = N /\ (found <= conf_real r)%R.
Proof.
  intros E m N w h p images cs l HC HZ HM HF found HN F R T.
  assert (H1 : 1 <= w).
  { destruct (seen_lines E m w h p images _ h l HC ltac:(unfold countable, zlen in *; lia) R) as (S & SZ & SP & _).
    destruct images as [|im images]; [cbn in SP; lia|]. destruct (S _ (or_introl eq_refl)) as (B & _). cbn in B. lia. }
  apply (crossed_height_claim E m N w h p images cs l); try assumption.
  clear -F HN H1. induction F; constructor; [|assumption]. apply upscale_crossed_y; assumption.
Qed.
(** C100.  Repeated, linear, cubic and Lanczos upscales by whole factors respond like this
    without aliasing. *)
Lemma crossing_kernels_claim : forall s N a K, 2 <= s -> whole_kernel s N a K ->
  kernel_ok a K /\ forall k, N - 1 <= k <= N + 1 -> exists P, (0 < P)%R /\ responds N (s * N) a K k P 0.
Proof.
  intros s N a K Hs [(H & HN)|[(-> & HN & B & C & HB & HC & ->)|(lobe & H & HN)]].
  - split; [apply (common_responds s a K N 1 N); [exact H|lia|exact Hs|lia]|]. intros k Hk. apply (common_responds s a K N 1 k); [exact H|lia|exact Hs|lia].
  - split; [apply cubic_kernels_claim|]. intros k Hk. apply (cubics_respond_claim B C N s k 1); try assumption; lia.
  - split.
    + destruct H as (Ha & [(_ & ->)|(_ & ->)]); apply (lanczos_kernels_claim a Ha).
    + intros k Hk. assert (1 <= N) by (destruct H as (Ha & [(-> & _)|(-> & _)]); lia). apply (lanczos_respond_claim lobe a K N s k 1); try assumption; lia.
Qed.
(** C100.  A width is not reported if its neighbours clearly have the same sign on too many lines. *)
Lemma width_not_crossed_claim : forall E m N w h p images cs l,
  client_ok E w h p -> zlen images <= 2^53 -> used_method m = Mzerox ->
  1 <= N < w - 1 -> Forall2 (clear_x alike E N w h 1) images cs ->
  reported E m w h p images (seen_x E w h images) w l ->
  (1 - part cs h 1 + mean_rounding (length images) < B2R 24 128 (used_threshold m p))%R ->
  forall r, In r l -> r_index r <> N.
Proof.
  intros E m N w h p images cs l HC HZ HM HN F R T. assert (H0 : 0 <= h) by apply HC.
  eapply (few_lines E m w h p images _ w N h l cs); try eassumption.
  - intros D I. apply in_map_iff in I. destruct I as (im & <- & _). reflexivity.
  - unfold seen_x. clear -F HN H0. induction F; cbn [map]; constructor; [apply alike_x_lines; assumption|assumption].
Qed.
Lemma height_not_crossed_claim : forall E m N w h p images cs l,
  client_ok E w h p -> zlen images <= 2^53 -> used_method m = Mzerox ->
  1 <= N < h - 1 -> Forall2 (clear_y alike E N w h 1) images cs ->
  reported E m w h p images (seen_y E w h images) h l ->
  (1 - part cs w 1 + mean_rounding (length images) < B2R 24 128 (used_threshold m p))%R ->
  forall r, In r l -> r_index r <> N.
Proof.
  intros E m N w h p images cs l HC HZ HM HN F R T. assert (H0 : 0 <= w) by apply HC.
  eapply (few_lines E m w h p images _ h N w l cs); try eassumption.
  - intros D I. apply in_map_iff in I. destruct I as (im & <- & _). reflexivity.
  - unfold seen_y. clear -F HN H0. induction F; cbn [map]; constructor; [apply alike_y_lines; assumption|assumption].
Qed.

(** ** Concrete cases *)
(** the images of C86 with the zero crossing method *)
Definition zerox_case (w h : Z) (image : list f32) (Q : env -> Prop) : Prop :=
  exists twiddle super shift l l', let E := small_kiss twiddle super shift in let p := quarter_params in let m := Some Mzerox in
    client_ok E w h p /\ used_filter p = 0 /\ Q E /\
    reported E m w h p [image] (seen_x E w h [image]) w l /\ reported E m w h p [image] (seen_y E w h [image]) h l' /\
    (B2R 24 128 (used_threshold m p) <= part [1%Z] 2 1 - mean_rounding 1)%R.
Lemma zerox_case_holds w h image (Q : env -> Prop) : small_size w h = true ->
  valid_image w h image -> w * h <= zlen image -> (forall E e, (e <= 1)%R -> accurate E w h 1 e -> Q E) -> zerox_case w h image Q.
Proof.
  intros S V L HQ. pose proof (small_sizes w h S) as S'. destruct tables_exist as (tw & su & sh & T). exists tw, su, sh. set (E := small_kiss tw su sh).
  assert (HC : client_ok E w h quarter_params).
  { split; [apply kiss_env_claim, demo_env_ok|]. split; [lia|]. split; [lia|]. apply params_fine. }
  destruct (reported_all E (Some Mzerox) w h quarter_params [image] HC) as (l & l' & R1 & R2).
  - reflexivity.
  - unfold plan_fits. destruct S' as [(-> & ->)|[(-> & ->)|[(-> & ->)|(-> & ->)]]]; vm_compute; intuition discriminate.
  - constructor; [|constructor]. split; assumption.
  - unfold countable; simpl; lia.
  - discriminate.
  - exists l, l'. cbv zeta. fold E. split; [exact HC|]. split; [reflexivity|]. split.
    { destruct (small_accurate tw su sh w h S T) as (e & He & A). eapply HQ; eassumption. }
    split; [exact R1|]. split; [exact R2|].
    change (used_threshold (Some Mzerox) quarter_params) with (used_threshold None quarter_params). apply half_enough. reflexivity.
Qed.
Lemma flat_far : let D := dct_2d 4 2 (widened 2 upscale_source) 0 in (2 < D 1%Z)%R /\ (D 3%Z < - 2)%R.
Proof.
  assert (D : forall k, dct_2d 4 2 (widened 2 upscale_source) 0 k = (8 * (cos (IZR k * (PI / 8)) + cos (IZR (3 * k) * (PI / 8))))%R).
  { intros k. unfold dct_2d, rsum. change (zrange 0 2) with [0; 1]. change (zrange 0 4) with [0; 1; 2; 3]. cbn [fold_right].
    repeat match goal with |- context [widened 2 upscale_source ?y ?x] =>
      let v := eval cbn in (widened 2 upscale_source y x) in change (widened 2 upscale_source y x) with v end.
    replace (PI * 0 * (0 + 1 / 2) / 2)%R with 0%R by field. replace (PI * 0 * (1 + 1 / 2) / 2)%R with 0%R by field. rewrite cos_0, !mult_IZR.
    replace (PI * IZR k * (0 + 1 / 2) / 4)%R with (IZR k * (PI / 8))%R by field.
    replace (PI * IZR k * (1 + 1 / 2) / 4)%R with (3 * IZR k * (PI / 8))%R by field. ring. }
  destruct cosines_8 as (S3 & S5 & S7 & S9 & S15 & S21 & CB & SB). cbn zeta.
  rewrite (D 1), (D 3). cbn [Z.mul Pos.mul Pos.add Pos.succ]. rewrite S3, S9, Rmult_1_l. split; lra.
Qed.
Lemma one_line lines : 1 <= lines -> some_lines lines [0].
Proof. intros. split; [constructor; [intros []|constructor]|]. intros y [<-|[]]. lia. Qed.
Lemma past_two e v : (e <= 1 -> 2 < v \/ v < - 2 -> 2 * e < Rabs v)%R.
Proof. intros H [A|A]; unfold Rabs; destruct (Rcase_abs v); lra. Qed.
Lemma flat_crossing E e : (e <= 1)%R -> accurate E 4 2 1 e -> crossing_upscale_x E 2 4 2 flat_image 1.
Proof.
  intros He A. destruct (nearest_response_claim 2 2 ltac:(lia) ltac:(lia)) as (KO & B & _). destruct flat_far as (D1 & D3).
  assert (D : forall k, dct_2d 4 2 (rows_resampled 2 4 1 box upscale_source) 0 k = dct_2d 4 2 (widened 2 upscale_source) 0 k).
  { intros k. apply dct_2d_same. intros y x _ Hx. apply (B upscale_source y x). lia. }
  exists upscale_source, 1, box, 1%R, 1%R, 0%R, 0%R, e, [0]. split; [exact KO|]. split.
  { intros y x _ _. unfold upscale_source. destruct (x =? 0); [rewrite Rabs_R1|rewrite Rabs_R0]; lra. }
  split; [intros k Hk; apply (common_responds 2 1 box 2 1 k); [left; split; reflexivity|lia|lia|lia]|].
  split; [exact A|]. split.
  { exists (widened 2 upscale_source). split; [exact flat_samples|]. intros y x _ Hx. rewrite <- (B upscale_source y x) by lia.
    change (2 * 2) with 4. rewrite Rminus_diag_eq, Rabs_R0 by reflexivity. lra. }
  split; [apply one_line; lia|]. split; [reflexivity|].
  intros y [<-|[]]. cbn beta zeta. rewrite !D. change (2 - 1) with 1. change (2 + 1) with 3.
  rewrite !Rmult_0_r, !Rplus_0_r. split; apply past_two; try assumption; [left|right]; assumption.
Qed.
Lemma tall_crossing E e : (e <= 1)%R -> accurate E 2 4 1 e -> crossing_upscale_y E 2 2 4 tall_image 1.
Proof.
  intros He A. destruct (nearest_response_claim 2 2 ltac:(lia) ltac:(lia)) as (KO & B & _). destruct flat_far as (D1 & D3).
  set (g := fun y x => upscale_source x y).
  assert (D : forall k, dct_2d 2 4 (columns_resampled 2 4 1 box g) k 0 = dct_2d 4 2 (widened 2 upscale_source) 0 k).
  { intros k. rewrite (dct_2d_flip 2 4) by lia. apply dct_2d_same. intros y x _ Hx. apply (B upscale_source y x). lia. }
  exists g, 1, box, 1%R, 1%R, 0%R, 0%R, e, [0]. split; [exact KO|]. split.
  { intros y x _ _. unfold g, upscale_source. destruct (y =? 0); [rewrite Rabs_R1|rewrite Rabs_R0]; lra. }
  split; [intros k Hk; apply (common_responds 2 1 box 2 1 k); [left; split; reflexivity|lia|lia|lia]|].
  split; [exact A|]. split.
  { exists (fun y x => widened 2 upscale_source x y). split; [exact tall_samples|]. intros y x Hy _. cbn beta. rewrite <- (B upscale_source x y) by lia.
    change (2 * 2) with 4. rewrite Rminus_diag_eq, Rabs_R0 by reflexivity. lra. }
  split; [apply one_line; lia|]. split; [reflexivity|].
  intros y [<-|[]]. cbn beta zeta. rewrite !D. change (2 - 1) with 1. change (2 + 1) with 3.
  rewrite !Rmult_0_r, !Rplus_0_r. split; apply past_two; try assumption; [left|right]; assumption.
Qed.

Example crossed_width_example : zerox_case 4 2 flat_image (fun E => Forall2 (crossed_x E 2 4 2) [flat_image] [1]).
Proof.
  apply zerox_case_holds; try reflexivity.
  - apply valid_forallb. vm_compute. reflexivity.
  - intros E e He A. constructor; [|constructor]. apply upscale_crossed_x; [lia|lia|]. eapply flat_crossing; eassumption.
Qed.
Example crossed_height_example : zerox_case 2 4 tall_image (fun E => Forall2 (crossed_y E 2 2 4) [tall_image] [1]).
Proof.
  apply zerox_case_holds; try reflexivity.
  - apply valid_forallb. vm_compute. reflexivity.
  - intros E e He A. constructor; [|constructor]. apply upscale_crossed_y; [lia|lia|]. eapply tall_crossing; eassumption.
Qed.
Example crossing_upscale_width_example : zerox_case 4 2 flat_image (fun E => Forall2 (crossing_upscale_x E 2 4 2) [flat_image] [1]).
Proof.
  apply zerox_case_holds; try reflexivity.
  - apply valid_forallb. vm_compute. reflexivity.
  - intros E e He A. constructor; [|constructor]. eapply flat_crossing; eassumption.
Qed.
Example crossing_upscale_height_example : zerox_case 2 4 tall_image (fun E => Forall2 (crossing_upscale_y E 2 2 4) [tall_image] [1]).
Proof.
  apply zerox_case_holds; try reflexivity.
  - apply valid_forallb. vm_compute. reflexivity.
  - intros E e He A. constructor; [|constructor]. eapply tall_crossing; eassumption.
Qed.
Lemma none_crossed : (1 - part [1%Z] 1 1 + mean_rounding 1 < B2R 24 128 (used_threshold (Some Mzerox) quarter_params))%R.
Proof.
  change (used_threshold (Some Mzerox) quarter_params) with (used_threshold None quarter_params). rewrite (proj1 thresholds).
  unfold part, mean_rounding. cbn. lra.
Qed.
Example width_not_crossed_example : zerox_case 4 1 spike_image (fun E => Forall2 (clear_x alike E 2 4 1 1) [spike_image] [1]) /\
  (1 - part [1%Z] 1 1 + mean_rounding 1 < B2R 24 128 (used_threshold (Some Mzerox) quarter_params))%R.
Proof.
  split; [|exact none_crossed]. apply zerox_case_holds; try reflexivity.
  - apply valid_forallb. vm_compute. reflexivity.
  - intros E e He A. constructor; [|constructor]. eapply spike_alike_x; eassumption.
Qed.
Example height_not_crossed_example : zerox_case 1 4 spike_image (fun E => Forall2 (clear_y alike E 2 1 4 1) [spike_image] [1]) /\
  (1 - part [1%Z] 1 1 + mean_rounding 1 < B2R 24 128 (used_threshold (Some Mzerox) quarter_params))%R.
Proof.
  split; [|exact none_crossed]. apply zerox_case_holds; try reflexivity.
  - apply valid_forallb. vm_compute. reflexivity.
  - intros E e He A. constructor; [|constructor]. eapply spike_alike_y; eassumption.
Qed.
(** doubled from 30 samples with two lobes and weights that add up to one *)
Example crossing_kernels_example : whole_kernel 2 30 2 (normalised 2 (lanczos 2)) /\ whole_kernel 2 2 1 box.
Proof.
  split.
  - right. right. exists 15. split; [|lia]. split; [lia|]. right. split; reflexivity.
  - left. split; [|lia]. left. split; reflexivity.
Qed.
