(** @header
    Property C98: the sign method does not depend on how a picture is turned, nor on its
    contrast and brightness. *)
From Coq Require Import Reals Lra Lia Psatz.
From Flocq Require Import Core IEEE754.Binary.
From Verif Require Import Base Flt Util Methods Analysis History Kiss Spec SpecAnalysis SpecUtil SpecReport SpecTransform SpecAccuracy SpecInterpolate SpecDetect SpecTurned.
From Verif Require Import BaseProofs FltProofs RoundProofs WorldProofs AnalysisProofs ResultsProofs ClientProofs CompareProofs.
From Verif Require Import KissProofs KissFactor KissTransform KissExact KissAccuracy AccuracyProofs AccuracyTables UpscaleProofs UpscaleDetect
  InterpolateProofs InterpolateKernels Demo AnalysisClaims KissClaims AccuracyClaims InterpolateClaims DetectProofs DetectClaims TurnedProofs.
Open Scope list_scope.
Open Scope Z_scope.

(** C98.  Of a picture that is mirrored or upside down, and has another contrast and
    brightness, each exact coefficient but the first is the old one times the contrast, up
    to its sign; and pairs of coefficients around any column or row are of opposite signs
    exactly if they were. *)
Lemma reworked_coefficients_claim : forall fx fy w h c b g, 1 <= w -> 1 <= h ->
  let D := dct_2d w h g in let D' := dct_2d w h (reworked fx fy w h c b g) in
  (forall y x, 0 <= y < h -> 0 <= x < w -> y <> 0 \/ x <> 0 \/ b = 0%R -> Rabs (D' y x) = (Rabs c * Rabs (D y x))%R) /\
  (forall N y i, 0 <= y < h -> 1 <= i < N -> N + i < w -> (D' y (N - i)%Z * D' y (N + i)%Z = c * c * (D y (N - i)%Z * D y (N + i)%Z))%R) /\
  (forall N x i, 0 <= x < w -> 1 <= i < N -> N + i < h -> (D' (N - i)%Z x * D' (N + i)%Z x = c * c * (D (N - i)%Z x * D (N + i)%Z x))%R).
Proof.
  intros fx fy w h c b g Hw Hh. cbv zeta.
  assert (K : forall y x, 0 <= y < h -> 0 <= x < w -> y <> 0 \/ x <> 0 \/ b = 0%R ->
    dct_2d w h (reworked fx fy w h c b g) y x = (c * (parity fy y * parity fx x) * dct_2d w h g y x)%R).
  { intros. apply reworked_dct; try assumption. tauto. }
  split; [|split].
  - intros y x Hy Hx Z. rewrite K by assumption. rewrite !Rabs_mult.
    assert (P : forall f k, Rabs (parity f k) = 1%R). { intros f k. unfold parity. destruct f, (Z.odd k); unfold Rabs; destruct Rcase_abs; lra. }
    rewrite !P. ring.
  - intros N y i Hy Hi HN. rewrite !K by lia. rewrite <- (parity_pair fx N i).
    transitivity (c * c * (parity fy y * parity fy y) * (parity fx (N - i)%Z * parity fx (N - i)%Z) * (dct_2d w h g y (N - i)%Z * dct_2d w h g y (N + i)%Z))%R; [ring|].
    rewrite !parity_square. ring.
  - intros N x i Hx Hi HN. rewrite !K by lia. rewrite <- (parity_pair fy N i).
    transitivity (c * c * (parity fx x * parity fx x) * (parity fy (N - i)%Z * parity fy (N - i)%Z) * (dct_2d w h g (N - i)%Z x * dct_2d w h g (N + i)%Z x))%R; [ring|].
    rewrite !parity_square. ring.
Qed.

Lemma at_least_one E m w h p images Ds len l : client_ok E w h p -> countable images -> reported E m w h p images Ds len l ->
  Ds = seen_x E w h images /\ len = w \/ Ds = seen_y E w h images /\ len = h -> 1 <= w /\ 1 <= h.
Proof.
  intros HC HN R K. destruct (seen_lines E m w h p images Ds len l HC HN R) as (S & SZ & SP & SL).
  destruct images as [|im images]; [cbn in SZ; lia|].
  destruct K as [(-> & ->)|(-> & ->)]; destruct (S _ (or_introl eq_refl)) as (B & _); cbn in B; lia.
Qed.

(** C98.  Frames that are mirrored or upside down, with another contrast, another brightness
    and small errors: width N is reported if and only if it was, and with the same
    confidence.  The exact coefficients around N must be larger than the errors.  Frames
    may differ in what was done to them. *)
Lemma reworked_width_claim : forall E m N w h p images images' l l',
  client_ok E w h p -> countable images -> countable images' -> used_method m = Msign ->
  let range := used_range (e_cfg E) m p in range <= N < w - range ->
  Forall2 (reworked_x E N w h range) images images' ->
  reported E m w h p images (seen_x E w h images) w l -> reported E m w h p images' (seen_x E w h images') w l' ->
  forall conf, In (mkRes N conf) l <-> In (mkRes N conf) l'.
Proof.
  intros E m N w h p images images' l l' HC HN HN' HM range HB F R R'.
  destruct (at_least_one _ _ _ _ _ _ _ _ _ HC HN R ltac:(tauto)) as (Hw & Hh). pose proof (used_range_pos E w h m p HC) as RP. fold range in RP.
  apply (reports_same E m w h w h p images images' (seen_x E w h images) (seen_x E w h images') w l l' N); try assumption. fold range.
  clear -F HB Hw Hh RP. unfold seen_x. induction F; cbn [map]; constructor; [|assumption]. split; [apply reworked_x_same; assumption|reflexivity].
Qed.
Lemma reworked_height_claim : forall E m N w h p images images' l l',
  client_ok E w h p -> countable images -> countable images' -> used_method m = Msign ->
  let range := used_range (e_cfg E) m p in range <= N < h - range ->
  Forall2 (reworked_y E N w h range) images images' ->
  reported E m w h p images (seen_y E w h images) h l -> reported E m w h p images' (seen_y E w h images') h l' ->
  forall conf, In (mkRes N conf) l <-> In (mkRes N conf) l'.
Proof.
  intros E m N w h p images images' l l' HC HN HN' HM range HB F R R'.
  destruct (at_least_one _ _ _ _ _ _ _ _ _ HC HN R ltac:(tauto)) as (Hw & Hh). pose proof (used_range_pos E w h m p HC) as RP. fold range in RP.
  apply (reports_same E m w h w h p images images' (seen_y E w h images) (seen_y E w h images') h l l' N); try assumption. fold range.
  clear -F HB Hw Hh RP. unfold seen_y. induction F; cbn [map]; constructor; [|assumption]. split; [apply reworked_y_same; assumption|reflexivity].
Qed.
(** C98.  Frames turned by a quarter, or with rows and columns exchanged: what is reported as
    width becomes height, with the same confidence, and the other way round. *)
Lemma turned_width_claim : forall E m N w h p images images' l l',
  client_ok E w h p -> countable images -> countable images' -> used_method m = Msign ->
  let range := used_range (e_cfg E) m p in range <= N < w - range ->
  Forall2 (turned_x E N w h range) images images' ->
  reported E m w h p images (seen_x E w h images) w l -> reported E m h w p images' (seen_y E h w images') w l' ->
  forall conf, In (mkRes N conf) l <-> In (mkRes N conf) l'.
Proof.
  intros E m N w h p images images' l l' HC HN HN' HM range HB F R R'.
  destruct (at_least_one _ _ _ _ _ _ _ _ _ HC HN R ltac:(tauto)) as (Hw & Hh). pose proof (used_range_pos E w h m p HC) as RP. fold range in RP.
  assert (HC' : client_ok E h w p) by (unfold client_ok in *; tauto).
  apply (reports_same E m w h h w p images images' (seen_x E w h images) (seen_y E h w images') w l l' N); try assumption. fold range.
  clear -F HB Hw Hh RP. unfold seen_x, seen_y. induction F; cbn [map]; constructor; [|assumption]. split; [apply turned_x_same; assumption|reflexivity].
Qed.
Lemma turned_height_claim : forall E m N w h p images images' l l',
  client_ok E w h p -> countable images -> countable images' -> used_method m = Msign ->
  let range := used_range (e_cfg E) m p in range <= N < h - range ->
  Forall2 (turned_y E N w h range) images images' ->
  reported E m w h p images (seen_y E w h images) h l -> reported E m h w p images' (seen_x E h w images') h l' ->
  forall conf, In (mkRes N conf) l <-> In (mkRes N conf) l'.
Proof.
  intros E m N w h p images images' l l' HC HN HN' HM range HB F R R'.
  destruct (at_least_one _ _ _ _ _ _ _ _ _ HC HN R ltac:(tauto)) as (Hw & Hh). pose proof (used_range_pos E w h m p HC) as RP. fold range in RP.
  assert (HC' : client_ok E h w p) by (unfold client_ok in *; tauto).
  apply (reports_same E m w h h w p images images' (seen_y E w h images) (seen_x E h w images') h l l' N); try assumption. fold range.
  clear -F HB Hw Hh RP. unfold seen_x, seen_y. induction F; cbn [map]; constructor; [|assumption]. split; [apply turned_y_same; assumption|reflexivity].
Qed.

(** ** Concrete cases *)
(** the negative of 1 0 0 0 from the right to the left *)
Definition negative_image : list f32 := map f32_of_Z [1; 1; 1; 0].
Definition two_cases (w h w' h' : Z) (image image' : list f32) (p : option params) (Q : env -> Prop) : Prop :=
  exists twiddle super shift lx ly lx' ly', let E := small_kiss twiddle super shift in
    client_ok E w h p /\ used_range (e_cfg E) None p = 1 /\ Q E /\
    reported E None w h p [image] (seen_x E w h [image]) w lx /\ reported E None w h p [image] (seen_y E w h [image]) h ly /\
    reported E None w' h' p [image'] (seen_x E w' h' [image']) w' lx' /\ reported E None w' h' p [image'] (seen_y E w' h' [image']) h' ly'.

Lemma small_reported tw su sh w h image p : small_size w h = true -> client_ok (small_kiss tw su sh) w h p -> valid_image w h image -> w * h <= zlen image ->
  let E := small_kiss tw su sh in
  exists lx ly, reported E None w h p [image] (seen_x E w h [image]) w lx /\ reported E None w h p [image] (seen_y E w h [image]) h ly.
Proof.
  intros S HC V L E. apply small_sizes in S. apply reported_all.
  - exact HC.
  - reflexivity.
  - unfold plan_fits. destruct S as [(-> & ->)|[(-> & ->)|[(-> & ->)|(-> & ->)]]]; vm_compute; intuition discriminate.
  - constructor; [|constructor]. split; assumption.
  - unfold countable; simpl; lia.
  - discriminate.
Qed.
Lemma small_accurate tw su sh w h : small_size w h = true -> (forall n, 1 <= n -> tables_close tw su sh n) -> exists e, (e <= 1)%R /\ accurate (small_kiss tw su sh) w h 1 e.
Proof.
  intros S T. apply small_sizes in S.
  assert (exists lw lh, kf_factor w = Ok lw /\ kf_factor h = Ok lh /\ (coefficient_error w h (radices_of lw) (radices_of lh) 1 <= 1)%R) as (lw & lh & F1 & F2 & CE).
  { destruct S as [(-> & ->)|[(-> & ->)|[(-> & ->)|(-> & ->)]]];
    [exists [4; 1], [2; 1]|exists [2; 1], [4; 1]|exists [4; 1], [1; 1]|exists [1; 1], [4; 1]]; (split; [reflexivity|]); (split; [reflexivity|]);
    unfold coefficient_error, loss, passes, pass_error; cbn; lra. }
  exists (coefficient_error w h (radices_of lw) (radices_of lh) 1). split; [exact CE|].
  apply kiss_accurate_claim; try assumption; try lia; try lra; apply T; lia.
Qed.
Lemma two_cases_hold w h w' h' image image' p (Q : env -> Prop) : small_size w h = true -> small_size w' h' = true ->
  client_params (e_cfg demo_env) p -> used_range (e_cfg demo_env) None p = 1 ->
  valid_image w h image -> w * h <= zlen image -> valid_image w' h' image' -> w' * h' <= zlen image' ->
  (forall E e e', (e <= 1)%R -> (e' <= 1)%R -> accurate E w h 1 e -> accurate E w' h' 1 e' -> Q E) -> two_cases w h w' h' image image' p Q.
Proof.
  intros S S' HP HR V L V' L' HQ. destruct tables_exist as (tw & su & sh & T). exists tw, su, sh.
  assert (HC : forall a b, small_size a b = true -> client_ok (small_kiss tw su sh) a b p).
  { intros a b SS. apply small_sizes in SS. split; [apply kiss_env_claim, demo_env_ok|]. split; [lia|]. split; [lia|]. exact HP. }
  destruct (small_reported tw su sh w h image p S (HC _ _ S) V L) as (lx & ly & R1 & R2).
  destruct (small_reported tw su sh w' h' image' p S' (HC _ _ S') V' L') as (lx' & ly' & R3 & R4).
  exists lx, ly, lx', ly'. cbv zeta. split; [apply HC, S|]. split; [exact HR|]. split; [|tauto].
  destruct (small_accurate tw su sh w h S T) as (e & He & A). destruct (small_accurate tw su sh w' h' S' T) as (e' & He' & A'). eapply HQ; [exact He|exact He'|exact A|exact A'].
Qed.

Definition negative (y x : Z) : R := reworked true false 4 1 (-1) 1 spike y x.
Lemma negative_samples : has_samples 4 1 negative_image negative 1 /\ has_samples 1 4 negative_image (fun y x => negative x y) 1.
Proof.
  destruct bits as (F1 & V1 & F0 & V0). split; (split; [reflexivity|]); intros y x Hy Hx.
  - assert (y = 0) by lia. subst y. assert (C' : x = 0 \/ x = 1 \/ x = 2 \/ x = 3) by lia. unfold negative, reworked, spike.
    destruct C' as [->|[->|[->| ->]]]; (split; [assumption|]); cbn - [Rmult Rplus]; (split; [etransitivity; [eassumption|lra]|]); unfold Rabs; destruct Rcase_abs; lra.
  - assert (x = 0) by lia. subst x. assert (C' : y = 0 \/ y = 1 \/ y = 2 \/ y = 3) by lia. unfold negative, reworked, spike.
    destruct C' as [->|[->|[->| ->]]]; (split; [assumption|]); cbn - [Rmult Rplus]; (split; [etransitivity; [eassumption|lra]|]); unfold Rabs; destruct Rcase_abs; lra.
Qed.
Lemma negative_coefficients : (1 < Rabs (dct_2d 4 1 negative 0 1) /\ 1 < Rabs (dct_2d 4 1 negative 0 3))%R.
Proof.
  destruct (reworked_coefficients_claim true false 4 1 (-1) 1 spike ltac:(lia) ltac:(lia)) as (K & _). destruct spike_coefficients as (D1 & D3).
  change (dct_2d 4 1 negative) with (dct_2d 4 1 (reworked true false 4 1 (-1) 1 spike)). rewrite !K by lia.
  rewrite (Rabs_left (-1)) by lra. rewrite !(Rabs_right (dct_2d 4 1 spike 0 _)) by lra. lra.
Qed.
Lemma spike_turned k : dct_2d 1 4 spike k 0 = dct_2d 4 1 spike 0 k.
Proof. rewrite (dct_2d_flip 1 4) by lia. apply dct_2d_same. intros y x _ _. unfold spike. rewrite Z.add_comm. reflexivity. Qed.
Lemma negative_turned k : dct_2d 1 4 (fun y x => negative x y) k 0 = dct_2d 4 1 negative 0 k.
Proof. rewrite (dct_2d_flip 1 4) by lia. reflexivity. Qed.
Lemma exactly_samples w h image g M : has_samples w h image g M -> nearly_samples w h image g M 0.
Proof. intros H. exists g. split; [exact H|]. intros. rewrite Rminus_diag_eq, Rabs_R0 by reflexivity. lra. Qed.
Lemma only_one y i : 0 <= y < 1 -> 1 <= i <= 1 -> y = 0 /\ i = 1.
Proof. lia. Qed.
Lemma spike_past e : (e <= 1)%R -> (e < Rabs (dct_2d 4 1 spike 0 1) /\ e < Rabs (dct_2d 4 1 spike 0 3))%R.
Proof. intros. destruct spike_coefficients. split; apply past; tauto. Qed.
Lemma negative_past e v : (e <= 1)%R -> (e + 4 * v * 0 < Rabs (dct_2d 4 1 negative 0 1) /\ e + 4 * v * 0 < Rabs (dct_2d 4 1 negative 0 3))%R.
Proof. intros. destruct negative_coefficients. lra. Qed.

Example reworked_coefficients_example : exists c b g, (c = -1 /\ b = 1 /\ 1 < Rabs (dct_2d 4 1 g 0 1) /\ 1 < Rabs (dct_2d 4 1 (reworked true false 4 1 c b g) 0 1))%R.
Proof.
  exists (-1)%R, 1%R, spike. split; [reflexivity|]. split; [reflexivity|]. split; [|apply negative_coefficients].
  destruct spike_coefficients. apply past; [lra|tauto].
Qed.
Example reworked_width_example : two_cases 4 1 4 1 spike_image negative_image upscale_params (fun E => Forall2 (reworked_x E 2 4 1 1) [spike_image] [negative_image]).
Proof.
  apply two_cases_hold; try reflexivity; try (apply valid_forallb; vm_compute; reflexivity); [apply params_fine|].
  intros E e e' He He' A A'. constructor; [|constructor]. exists spike, 1%R, e, true, false, (-1)%R, 1%R, 1%R, e', 0%R.
  split; [apply spike_samples; lia|]. split; [exact A|]. split.
  { intros y i Hy Hi. destruct (only_one y i Hy Hi) as (-> & ->). apply spike_past, He. }
  split; [left; lia|]. split; [apply exactly_samples, negative_samples|]. split; [exact A'|].
  intros y i Hy Hi. destruct (only_one y i Hy Hi) as (-> & ->). rewrite (Rmult_assoc 4). apply negative_past, He'.
Qed.
Example turned_width_example : two_cases 4 1 1 4 spike_image negative_image upscale_params (fun E => Forall2 (turned_x E 2 4 1 1) [spike_image] [negative_image]).
Proof.
  apply two_cases_hold; try reflexivity; try (apply valid_forallb; vm_compute; reflexivity); [apply params_fine|].
  intros E e e' He He' A A'. constructor; [|constructor]. exists spike, 1%R, e, true, false, (-1)%R, 1%R, 1%R, e', 0%R. cbv zeta.
  split; [apply spike_samples; lia|]. split; [exact A|]. split.
  { intros y i Hy Hi. destruct (only_one y i Hy Hi) as (-> & ->). apply spike_past, He. }
  split; [left; lia|]. split; [apply exactly_samples, negative_samples|]. split; [exact A'|].
  intros y i Hy Hi. destruct (only_one y i Hy Hi) as (-> & ->). change (fun y x => reworked true false 4 1 (-1) 1 spike x y) with (fun y x => negative x y).
  rewrite !negative_turned, (Rmult_assoc 4). apply negative_past, He'.
Qed.
Lemma upside_down y x : 0 <= x < 1 -> reworked false true 1 4 (-1) 1 spike y x = negative x y.
Proof. intros. assert (x = 0) by lia. subst x. unfold negative, reworked, spike. rewrite Z.add_0_l, Z.add_0_r. reflexivity. Qed.
Lemma samples_same w h image g g' M : (forall y x, 0 <= y < h -> 0 <= x < w -> g y x = g' y x) -> has_samples w h image g M -> has_samples w h image g' M.
Proof. intros K (L & H). split; [exact L|]. intros y x Hy Hx. rewrite <- K by assumption. apply H; assumption. Qed.
Example reworked_height_example : two_cases 1 4 1 4 spike_image negative_image upscale_params (fun E => Forall2 (reworked_y E 2 1 4 1) [spike_image] [negative_image]).
Proof.
  apply two_cases_hold; try reflexivity; try (apply valid_forallb; vm_compute; reflexivity); [apply params_fine|].
  intros E e e' He He' A A'. constructor; [|constructor]. exists spike, 1%R, e, false, true, (-1)%R, 1%R, 1%R, e', 0%R.
  split; [apply spike_samples; lia|]. split; [exact A|]. split.
  { intros y i Hy Hi. destruct (only_one y i Hy Hi) as (-> & ->). rewrite !spike_turned. apply spike_past, He. }
  split; [left; lia|]. split.
  { apply exactly_samples. eapply samples_same; [|apply negative_samples]. intros y x _ Hx. symmetry. apply (upside_down y x Hx). }
  split; [exact A'|].
  intros y i Hy Hi. destruct (only_one y i Hy Hi) as (-> & ->).
  rewrite !(dct_2d_same 1 4 (reworked false true 1 4 (-1) 1 spike) (fun y x => negative x y)) by (intros; apply upside_down; assumption).
  rewrite !negative_turned, (Rmult_assoc 4). apply negative_past, He'.
Qed.
Example turned_height_example : two_cases 1 4 4 1 spike_image negative_image upscale_params (fun E => Forall2 (turned_y E 2 1 4 1) [spike_image] [negative_image]).
Proof.
  apply two_cases_hold; try reflexivity; try (apply valid_forallb; vm_compute; reflexivity); [apply params_fine|].
  intros E e e' He He' A A'. constructor; [|constructor]. exists spike, 1%R, e, false, true, (-1)%R, 1%R, 1%R, e', 0%R. cbv zeta.
  split; [apply spike_samples; lia|]. split; [exact A|]. split.
  { intros y i Hy Hi. destruct (only_one y i Hy Hi) as (-> & ->). rewrite !spike_turned. apply spike_past, He. }
  split; [left; lia|]. split.
  { apply exactly_samples. eapply samples_same; [|apply negative_samples]. intros y x Hy _. symmetry. apply (upside_down x y Hy). }
  split; [exact A'|].
  intros y i Hy Hi. destruct (only_one y i Hy Hi) as (-> & ->).
  rewrite !(dct_2d_same 4 1 (fun y x => reworked false true 1 4 (-1) 1 spike x y) negative) by (intros; apply upside_down; assumption).
  rewrite (Rmult_assoc 4). apply negative_past, He'.
Qed.
