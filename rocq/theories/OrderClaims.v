(** @header
    Property C99: the sign method reports what the other methods report. *)
From Coq Require Import Reals Lra Lia Psatz Permutation.
From Flocq Require Import Core IEEE754.Binary.
From Verif Require Import Base Flt Util Methods Analysis History Spec SpecAnalysis SpecUtil SpecReport SpecOrder.
From Verif Require Import BaseProofs FltProofs RoundProofs WorldProofs MethodsProofs AnalysisProofs ResultsProofs ClientProofs CompareProofs Demo AnalysisClaims OrderProofs.
Open Scope list_scope.
Open Scope Z_scope.

(** C99.  What a pair or line must satisfy for another method to count it implies that its
    signs differ: a magnitude quotient only brings its sum with one below one if it is
    negative, also after rounding, for all floats but quotients that are not finite. *)
Lemma criteria_imply_signs_claim :
  (forall a b, opposite_magnitude false a b = true -> fsign a <> fsign b) /\
  (forall special a b, ffinite a = true -> ffinite b = true -> (Rabs (B2R 24 128 a) <= IZR (2^48))%R -> opposite_magnitude special a b = true -> fsign a <> fsign b) /\
  (forall l c r, crossing l c r = true -> fsign l <> fsign r).
Proof.
  assert (X : forall u v, xorb u v = true -> u <> v) by (intros [] [] H; try discriminate H; discriminate).
  split; [|split].
  - intros a b H. apply X, opposite_inverted, H.
  - intros sp a b Fa Fb A H. rewrite moderate_special in H by assumption. apply X, opposite_inverted, H.
  - intros l c r H. apply andb_true_iff in H. apply X, H.
Qed.

(** C99.  For the same frames and the same range and filter, and with a threshold no
    higher, the sign method reports every size that any method reports, with a confidence
    no smaller.  For the magnitude method quotients must be finite, or else the C library's
    frexp must set a positive exponent for others. *)
Lemma sign_reports_all_claim : forall E m w h p p' images Ds len l l',
  client_ok E w h p -> client_ok E w h p' -> countable images -> no_stricter (e_cfg E) m (Some Msign) p p' ->
  (used_method m = Mmag -> 0 < c_frexp_special (e_cfg E) \/ Forall moderate Ds) ->
  reported E m w h p images Ds len l -> reported E (Some Msign) w h p' images Ds len l' ->
  forall r, In r l -> exists r', In r' l' /\ r_index r' = r_index r /\ (conf_real r <= conf_real r')%R.
Proof.
  intros E m w h p p' images Ds len l l' HC HC' HN (ER & EF & ET) HM R R' r I.
  apply (reported_in _ _ _ _ _ _ _ _ _ HC HN R) in I. pose proof (reported_in _ _ _ _ _ _ _ _ _ HC' HN R') as RI.
  destruct I as [->|I]. { exists (own_size len). split; [apply RI; left; reflexivity|]. split; [reflexivity|lra]. }
  apply found_in in I. destruct I as (B & V & G & K).
  destruct (effective_used E w h m p HC) as (A1 & A2 & A3). destruct (effective_used E w h (Some Msign) p' HC') as (B1 & B2 & B3).
  destruct (seen_lines _ _ _ _ _ _ _ _ _ HC HN R) as (HL & _ & HD & HLen). pose proof (used_range_pos E w h m p HC) as RP.
  set (range := used_range (e_cfg E) m p) in *. set (x := r_index r) in *. set (c := used_criterion (e_cfg E) m) in *.
  destruct (mean_le c Ds range x) as (a & b & MA & MB & L).
  - unfold INT_MAX in *. lia.
  - intros EZ. unfold range, used_range. unfold c, used_criterion in EZ. destruct (used_method m); try discriminate EZ. reflexivity.
  - exact HD.
  - intros D ID. destruct (HL D ID) as (HL1 & HL2). split; [exact HL1|]. apply hits_le.
    + exact RP.
    + rewrite HL2. exact B.
    + intros EZ. unfold range, used_range. unfold c, used_criterion in EZ. destruct (used_method m); try discriminate EZ. reflexivity.
    + intros EM. unfold c, used_criterion in EM. destruct (used_method m) eqn:UM; try discriminate EM.
      destruct (HM eq_refl) as [S|S]; [|rewrite Forall_forall in S; apply S, ID].
      replace (c_frexp_special (e_cfg E) <=? 0) with false in EM by lia. discriminate EM.
  - assert (B127 : forall z, (z <= 1)%R -> (z <= bpow radix2 127)%R). { intros z Hz. eapply Rle_trans; [exact Hz|]. apply (bpow_le radix2 0 127). lia. }
    exists (mkRes x (f32_of_f64 (mean Sign Ds range x))). split; [|split; [reflexivity|]].
    + apply RI. right. cbn [r_index r_conf]. change (used_criterion (e_cfg E) (Some Msign)) with Sign. apply found_in. rewrite ER. fold range. split; [exact B|]. split; [reflexivity|]. split.
      * destruct (threshold_unit E w h m p HC) as (F1 & _). destruct (threshold_unit E w h (Some Msign) p' HC') as (F2 & _).
        destruct (f64_of_f32_finite _ F1) as (G1 & G1' & _). destruct (f64_of_f32_finite _ F2) as (G2 & G2' & _).
        destruct MA as (MA1 & MA2 & MA3), MB as (MB1 & MB2 & MB3).
        apply dge_spec in G; [|exact MA1|exact G1]. apply dge_spec; [exact MB1|exact G2|]. rewrite MA3, G1' in G. rewrite MB3, G2'. lra.
      * unfold keeps in *. rewrite B1, B3, EF, ER. fold range. rewrite A1, A3 in K. exact K.
    + unfold conf_real. cbn [r_conf]. rewrite V. destruct (f32_of_f64_val _ _ MA (B127 a ltac:(lra))) as (_ & _ & ->). destruct (f32_of_f64_val _ _ MB (B127 b ltac:(lra))) as (_ & _ & ->).
      apply rnd32_le. lra.
Qed.

(** C99.  With the same parameters for both, set or not, nothing is asked for of the
    original method: its own threshold is above that of the sign method. *)
Lemma sign_reports_original_claim : forall E w h p images Ds len l l',
  client_ok E w h p -> countable images ->
  reported E (Some Morig) w h p images Ds len l -> reported E (Some Msign) w h p images Ds len l' ->
  forall r, In r l -> exists r', In r' l' /\ r_index r' = r_index r /\ (conf_real r <= conf_real r')%R.
Proof.
  intros E w h p images Ds len l l' HC HN R R'.
  apply (sign_reports_all_claim E (Some Morig) w h p p images Ds len l l'); try assumption.
  - split; [reflexivity|]. split; [reflexivity|].
    assert (T : (B2R 24 128 (method_threshold Msign) <= B2R 24 128 (method_threshold Morig))%R).
    { rewrite <- !FF2R_B2FF.
      replace (B2FF 24 128 (method_threshold Msign)) with (F754_finite false 9227469 (-24)) by (vm_compute; reflexivity).
      replace (B2FF 24 128 (method_threshold Morig)) with (F754_finite false 10737418 (-24)) by (vm_compute; reflexivity).
      cbn. unfold F2R. cbn. lra. }
    unfold used_threshold. destruct p as [p|]; [|exact T]. destruct (_ && _); [exact T|apply Rle_refl].
  - discriminate.
Qed.

(** C99.  For a single frame the original method reports what the sign method does with the
    very same confidence, or 0, as its comment says; with several frames it may be less,
    since the frames it suppresses count as 0. *)
Lemma original_confidence_claim : forall E w h p image D len l l',
  client_ok E w h p -> w * h <= 2^53 ->
  reported E (Some Morig) w h p [image] [D] len l -> reported E (Some Msign) w h p [image] [D] len l' ->
  forall r, In r l -> r = own_size len \/ (exists r', In r' l' /\ r_index r' = r_index r /\ conf_real r' = conf_real r) \/ conf_real r = 0%R.
Proof.
  intros E w h p image D len l l' HC HS R R' r I.
  assert (HN : countable [image]) by (unfold countable; cbn; lia). pose proof (used_range_pos E w h (Some Morig) p HC) as RP.
  destruct (single_frame_claim E (Some Morig) w h p image D len l HC HS R r I) as [O|C]; [left; exact O|].
  destruct (sign_reports_original_claim E w h p [image] [D] len l l' HC HN R R' r I) as (r' & I' & X & L).
  apply (reported_in _ _ _ _ _ _ _ _ _ HC HN R) in I. destruct I as [I|I]; [left; exact I|right]. apply found_in in I.
  change (used_criterion (e_cfg E) (Some Morig)) with Original in C. unfold exact_ratio in C. cbn [hits tested] in C.
  destruct (dip D (used_range (e_cfg E) (Some Morig) p) (r_index r)).
  - left. exists r'. split; [exact I'|]. split; [exact X|].
    destruct (single_frame_claim E (Some Msign) w h p image D len l' HC HS R' r' I') as [->|C']; [cbn in X; lia|]. rewrite C', C, X. reflexivity.
  - right. rewrite C. unfold Rdiv. rewrite Rmult_0_l, !round_0 by apply valid_rnd_N. reflexivity.
Qed.

(** ** Concrete cases *)
(** coefficients 5 3 0 -3 1: all methods find size 2 *)
Definition order_image : list f32 := map f32_of_Z [5; 3; 0; -3; 1].
Definition order_params : option params := snd (set_all (Some (default_params default_config)) [Range 1; Threshold (f32_of_Z 0)]).
Lemma order_client : client_ok demo_env 5 1 order_params.
Proof.
  split; [apply demo_env_ok|]. split; [lia|]. split; [lia|]. right. exists [Range 1; Threshold (f32_of_Z 0)], [RDEOK; RDEOK].
  split; [repeat constructor; simpl; lia|reflexivity].
Qed.
Lemma order_reported m : exists l, reported demo_env m 5 1 order_params [order_image] (seen_x demo_env 5 1 [order_image]) 5 l.
Proof.
  destruct (reported_all demo_env m 5 1 order_params [order_image] order_client) as (l & l' & R & _).
  - reflexivity.
  - unfold plan_fits. vm_compute. intuition discriminate.
  - constructor; [|constructor]. split; [apply valid_forallb; vm_compute; reflexivity|unfold zlen; cbn; lia].
  - unfold countable; simpl; lia.
  - discriminate.
  - exists l. exact R.
Qed.
Lemma order_moderate : Forall moderate (seen_x demo_env 5 1 [order_image]).
Proof.
  constructor; [|constructor]. intros y x Hy Hx. cbn [dim_x d_lines d_len d_coef] in *. assert (y = 0) by lia. subst y.
  assert (Q : Forall (fun v => ffinite v = true /\ (Rabs (B2R 24 128 v) <= IZR (2^48))%R) order_image).
  { unfold order_image. cbn [map]. repeat constructor; try (vm_compute; reflexivity); rewrite <- FF2R_B2FF;
    match goal with |- context [B2FF 24 128 ?v] => let r := eval vm_compute in (B2FF 24 128 v) in replace (B2FF 24 128 v) with r by (vm_compute; reflexivity) end;
    change (2^48) with 281474976710656; cbn; unfold F2R; cbn; unfold Rabs; destruct Rcase_abs; lra. }
  rewrite Forall_forall in Q. apply Q. unfold plane. cbn [e_transform demo_env]. apply nth_In. cbn. lia.
Qed.

Example criteria_imply_signs_example : opposite_magnitude false (f32_of_Z 3) (f32_of_Z (-3)) = true /\ crossing (f32_of_Z 3) (f32_of_Z 0) (f32_of_Z (-3)) = true /\
  opposite_magnitude false (f32_of_Z 3) (f32_of_Z 3) = false.
Proof. vm_compute. auto. Qed.
Example sign_reports_all_example : forall m, In m [Msign; Mmag; Morig; Mzerox] -> exists l l',
  client_ok demo_env 5 1 order_params /\ no_stricter (e_cfg demo_env) (Some m) (Some Msign) order_params order_params /\
  Forall moderate (seen_x demo_env 5 1 [order_image]) /\
  reported demo_env (Some m) 5 1 order_params [order_image] (seen_x demo_env 5 1 [order_image]) 5 l /\
  reported demo_env (Some Msign) 5 1 order_params [order_image] (seen_x demo_env 5 1 [order_image]) 5 l' /\
  In 2 (map r_index l).
Proof.
  intros m _. destruct (order_reported (Some m)) as (l & R). destruct (order_reported (Some Msign)) as (l' & R'). exists l, l'.
  split; [exact order_client|]. split; [split; [destruct m; reflexivity|split; [reflexivity|apply Rle_refl]]|]. split; [exact order_moderate|]. split; [exact R|]. split; [exact R'|].
  assert (HN : countable [order_image]) by (unfold countable; simpl; lia).
  pose proof (threshold_zero_claim demo_env (Some m) 5 1 order_params [order_image] (seen_x demo_env 5 1 [order_image]) 5 l order_client HN) as P.
  assert (T : B2R 24 128 (used_threshold (Some m) order_params) = 0%R).
  { rewrite <- FF2R_B2FF. replace (B2FF 24 128 (used_threshold (Some m) order_params)) with (F754_zero false) by (destruct m; vm_compute; reflexivity). reflexivity. }
  specialize (P T eq_refl R). eapply Permutation_in; [apply Permutation_sym, P|].
  replace (used_range (e_cfg demo_env) (Some m) order_params) with 1 by (destruct m; reflexivity). right. apply in_zrange. lia.
Qed.
Example sign_reports_original_example : exists l l', client_ok demo_env 5 1 order_params /\
  reported demo_env (Some Morig) 5 1 order_params [order_image] (seen_x demo_env 5 1 [order_image]) 5 l /\
  reported demo_env (Some Msign) 5 1 order_params [order_image] (seen_x demo_env 5 1 [order_image]) 5 l'.
Proof. destruct (order_reported (Some Morig)) as (l & R). destruct (order_reported (Some Msign)) as (l' & R'). exists l, l'. split; [exact order_client|]. split; assumption. Qed.
Example original_confidence_example : hits Original (dim_x 5 1 (plane demo_env 5 1 order_image)) 1 2 = 1 /\ hits Sign (dim_x 5 1 (plane demo_env 5 1 order_image)) 1 2 = 1 /\
  hits ZeroCrossing (dim_x 5 1 (plane demo_env 5 1 order_image)) 1 2 = 1 /\ hits (Magnitude false) (dim_x 5 1 (plane demo_env 5 1 order_image)) 1 2 = 1.
Proof. vm_compute. auto. Qed.
