(** @header
    Property C90: every choice of COEFF_PRECISION and INTER_PRECISION. *)
From Coq Require Import ZArith Reals Lia Lra Bool List.
From Flocq Require Import Core IEEE754.BinarySingleNaN IEEE754.Binary IEEE754.Bits.
From Verif Require Import Base Flt Util Methods Analysis Precision Spec SpecAnalysis SpecReport SpecPrecision.
From Verif Require Import BaseProofs FltProofs MethodsProofs ErrorProofs PrecisionProofs PrecisionErrorProofs.
Import ListNotations.
Open Scope list_scope.
Open Scope Z_scope.

(** ** Examples *)
(** two lines of five coefficients; at position 2 both pairs at distance 1 are inverted *)
Definition demo_plane (C : format) : list (num C) := map (num_of_Z C) [4; 3; 1; -2; 5; -2; -1; 0; 1; 3].
Definition demo_span (C : format) : span C := mkSpan C 5 2 (fun y x => at_ (n0 C) (demo_plane C) (y * 5 + x)).
Lemma demo_layout C : layout C (demo_plane C) 2 5 1 (demo_span C).
Proof.
  constructor; cbn [demo_span s_len s_lines s_coef]; try lia.
  - change (10 < 2^64). lia.
  - intros y x Hy Hx. change (0 <= y * 5 + x * 1 < 10). lia.
  - intros y x _ _. rewrite Z.mul_1_r. reflexivity.
Qed.
Lemma demo_series C I m (k : nat) : roomy I -> (0 < k)%nat -> Z.of_nat k < 2^64 ->
  series C I default_config m (repeat (demo_plane C) k) (repeat (demo_span C) k) 5 2 5 1 1.
Proof.
  intros RI K1 K2. pose proof (p_big I RI). constructor; try lia.
  - clear. induction k as [|k IH]; [constructor|]. cbn [repeat]. constructor; [|exact IH]. split; [apply demo_layout|reflexivity].
  - destruct k; [lia|discriminate].
  - rewrite repeat_length. exact K2.
  - vm_compute. reflexivity.
Qed.
(** the confidences of all three positions after [k] copies of the plane *)
Definition demo_confidences (C I : format) (m : method) (k : nat) : res (list Z) :=
  r <- prun_all C I default_config m (repeat (demo_plane C) k) 5 2 5 1 1 (repeat (n0 I) 3) ;;
  Ok (map (fun v => bits_of_b32 (pconfidence I v (Z.of_nat k))) r).

(** C90.  With COEFF_PRECISION F and INTER_PRECISION D these are the functions of Methods.v
    and the arithmetic of Analysis.v. *)
Lemma precision_default_claim : forall L c al w m f len n stride dist range result start end_ r b w',
  run_method c al w m f len n stride dist range result (start, end_) = Ok (RDEOK, r, b, w') ->
  prun_method (format_of L PF) (format_of L (inter_precision PF PD)) c m f len n stride dist range result start end_ = Ok r /\
  forall a fi i v, get r i = Ok v ->
    result_passes a fi len r i = Ok (preaches (format_of L PD) v (an_nimages a) (p_threshold (an_params a)) && filter_keeps fi len i) /\
    f32_of_f64 (ddiv v (f64_of_Z (an_nimages a))) = pconfidence (format_of L PD) v (an_nimages a).
Proof.
  intros L c al w m f len n stride dist range result start end_ r b w' H. split.
  - unfold run_method in H. cbv zeta in H. destruct m.
    + change (detect_method_sign (storage_mod c) f len n stride dist range result start end_ = Ok r).
      destruct (detect_method_sign _ _ _ _ _ _ _ _ _ _); cbn [bind] in H; [injection H as -> _ _; reflexivity|discriminate H].
    + change (detect_method_magnitude (c_frexp_special c) (storage_mod c) f len n stride dist range result start end_ = Ok r).
      destruct (detect_method_magnitude _ _ _ _ _ _ _ _ _ _ _); cbn [bind] in H; [injection H as -> _ _; reflexivity|discriminate H].
    + unfold detect_method_original in H. cbv zeta in H. unfold prun_method, pdetect_original.
      destruct (wrap (range * 2) >=? len); [injection H as <- _ _; reflexivity|].
      destruct (alloc al w) as [[blk|] w1]; [|discriminate H].
      change (porig_sums (format_of L PF) (format_of L (inter_precision PF PD)) f len n stride dist) with (orig_sums f len n stride dist).
      destruct (orig_sums f len n stride dist) as [sum|]; [|discriminate H]. cbn [bind] in H |- *.
      match type of H with (bind ?t _) = _ => change (t = Ok r); destruct t as [r'|]; [|discriminate H] end.
      cbn [bind] in H. destruct (free_block blk w1); cbn [bind] in H; [injection H as -> _ _; reflexivity|discriminate H].
    + change (detect_method_zerocrossing (storage_mod c) f len n stride dist range result start end_ = Ok r).
      destruct (detect_method_zerocrossing _ _ _ _ _ _ _ _ _ _); cbn [bind] in H; [injection H as -> _ _; reflexivity|discriminate H].
  - intros a fi i v G. split; [|reflexivity]. unfold result_passes. rewrite G. reflexivity.
Qed.

(** Intermediates are never less precise than coefficients: whatever the two settings, every
    finite coefficient and every sample keeps its value and its sign when converted. *)
Lemma precision_rule_claim : forall L coeff inter, long_double L ->
  let C := format_of L coeff in let I := format_of L (inter_precision coeff inter) in
  (forall x, finite C x = true ->
    finite I (convert C I x) = true /\ real I (convert C I x) = real C x /\ nsign I (convert C I x) = nsign C x) /\
  (forall s, ffinite s = true ->
    finite C (psample C s) = true /\ real C (psample C s) = B2R 24 128 s /\ nsign C (psample C s) = fsign s).
Proof.
  intros L coeff inter HL C I. split.
  - intros x. apply convert_up. apply wider_rule. exact HL.
  - intros s. apply (convert_up binary32_format C s). apply wider32. exact HL.
Qed.

(** Whatever the precisions, every method stays in bounds on every series of planes.  The
    confidence of a position is a number from 0 to 1 after any number of frames; up to
    2^p frames (p bits of precision) it is the exact mean up to 2^-25 + (k+10)/2^p; and the
    test against the threshold compares the computed mean itself. *)
Lemma precision_confidence_claim : forall L coeff inter c m fs Ds len n stride dist range,
  long_double L ->
  let C := format_of L coeff in let I := format_of L (inter_precision coeff inter) in
  series C I c m fs Ds len n stride dist range ->
  exists result, prun_all C I c m fs len n stride dist range (repeat (n0 I) (Z.to_nat (len - 2 * range))) = Ok result /\
    zlen result = len - 2 * range /\
    forall i, 0 <= i < len - 2 * range ->
      let v := at_ (n0 I) result i in let k := zlen fs in let q := pconfidence I v k in
      ffinite q = true /\ (0 <= B2R 24 128 q <= 1)%R /\
      (k <= 2 ^ f_prec I -> (Rabs (B2R 24 128 q - true_mean C I (counted c m) Ds range (range + i))
          <= / IZR (2 ^ 25) + (IZR k + 10) / IZR (2 ^ f_prec I))%R) /\
      forall threshold, ffinite threshold = true ->
        (preaches I v k threshold = true <-> (B2R 24 128 threshold <= real I (pmean I v k))%R).
Proof.
  intros L coeff inter c m fs Ds len n stride dist range HL C I. unfold C, I.
  apply series_confidence; [apply roomy_of|apply roomy_of|apply wider_rule|apply wider32]; exact HL.
Qed.

(** the same plane in four configurations: 1/2, 1 and 0 *)
Example precision_demo_example :
  long_double x87_format /\ series x87_format x87_format default_config Msign (repeat (demo_plane x87_format) 3) (repeat (demo_span x87_format) 3) 5 2 5 1 1 /\
  demo_confidences binary32_format binary32_format Msign 3 = Ok [bits_of_b32 (fdiv (f32_of_Z 1) (f32_of_Z 2)); bits_of_b32 (f32_of_Z 1); bits_of_b32 (f32_of_Z 0)] /\
  forall p, In p [(binary32_format, binary64_format); (binary64_format, x87_format); (quad_format, quad_format)] ->
    demo_confidences (fst p) (snd p) Msign 3 = demo_confidences binary32_format binary32_format Msign 3.
Proof.
  split; [right; left; reflexivity|]. split; [apply demo_series; [exact roomy87|lia|lia]|]. split; [vm_compute; reflexivity|].
  intros p [<-|[<-|[<-|[]]]]; vm_compute; reflexivity.
Qed.

(** When at some position every pair meets the criterion in every one of at most 2^p frames,
    the confidence is exactly 1; when none does in any number of frames, it is exactly 0. *)
Lemma precision_unanimous_claim : forall L coeff inter c m fs Ds len n stride dist range result i,
  long_double L ->
  let C := format_of L coeff in let I := format_of L (inter_precision coeff inter) in
  series C I c m fs Ds len n stride dist range ->
  prun_all C I c m fs len n stride dist range (repeat (n0 I) (Z.to_nat (len - 2 * range))) = Ok result ->
  0 <= i < len - 2 * range ->
  let q := pconfidence I (at_ (n0 I) result i) (zlen fs) in
  ((forall D, In D Ds -> met C I (counted c m) D range (range + i) = tried C (counted c m) D range) ->
     zlen fs <= 2 ^ f_prec I -> B2R 24 128 q = 1%R) /\
  ((forall D, In D Ds -> met C I (counted c m) D range (range + i) = 0) -> B2R 24 128 q = 0%R).
Proof.
  intros L coeff inter c m fs Ds len n stride dist range result i HL C I. unfold C, I.
  apply series_unanimous; [apply roomy_of|apply roomy_of|apply wider_rule|apply wider32]; exact HL.
Qed.

(** Not so for longer series: the sum no longer grows at 2^p, so after 2^(p+1) frames a
    position where every pair is inverted in every frame has a confidence of at most 1/2, less
    than the default threshold of 0.55, although the exact mean is 1. *)
Lemma precision_stuck_claim : forall L coeff inter c m fs Ds len n stride dist range result i,
  long_double L ->
  let C := format_of L coeff in let I := format_of L (inter_precision coeff inter) in
  series C I c m fs Ds len n stride dist range ->
  prun_all C I c m fs len n stride dist range (repeat (n0 I) (Z.to_nat (len - 2 * range))) = Ok result ->
  0 <= i < len - 2 * range ->
  (forall D, In D Ds -> met C I (counted c m) D range (range + i) = tried C (counted c m) D range) ->
  2 ^ (f_prec I + 1) <= zlen fs ->
  true_mean C I (counted c m) Ds range (range + i) = 1%R /\
  (B2R 24 128 (pconfidence I (at_ (n0 I) result i) (zlen fs)) <= / 2)%R.
Proof.
  intros L coeff inter c m fs Ds len n stride dist range result i HL C I. unfold C, I.
  apply series_stuck; [apply roomy_of|apply roomy_of|apply wider_rule|apply wider32]; exact HL.
Qed.

(** C90, finding: the exact 1 does not hold for series of any length: with both precisions set
    to F, 2^25 frames in which both pairs around a position are inverted are an example. *)
Lemma precision_long_refuted_claim : exists coeff inter c m fs Ds len n stride dist range result i,
  let C := format_of binary64_format coeff in let I := format_of binary64_format (inter_precision coeff inter) in
  series C I c m fs Ds len n stride dist range /\
  prun_all C I c m fs len n stride dist range (repeat (n0 I) (Z.to_nat (len - 2 * range))) = Ok result /\
  0 <= i < len - 2 * range /\
  (forall D, In D Ds -> met C I (counted c m) D range (range + i) = tried C (counted c m) D range) /\
  B2R 24 128 (pconfidence I (at_ (n0 I) result i) (zlen fs)) <> 1%R.
Proof.
  assert (N : exists N : nat, Z.of_nat N = 2^25) by (exists (Z.to_nat (2^25)); apply Z2Nat.id; lia).
  destruct N as (N & EN).
  assert (S := demo_series binary32_format binary32_format Msign N roomy32 ltac:(lia) ltac:(lia)).
  destruct (series_confidence binary32_format binary32_format _ _ _ _ _ _ _ _ _ roomy32 roomy32 ltac:(split; cbn; lia) ltac:(split; cbn; lia) S)
    as (result & E & _).
  exists PF, PF, default_config, Msign, (repeat (demo_plane binary32_format) N), (repeat (demo_span binary32_format) N), 5, 2, 5, 1, 1, result, 1.
  cbv zeta. change (inter_precision PF PF) with PF. cbn [format_of].
  split; [exact S|]. split; [exact E|]. split; [lia|].
  assert (HM : forall D, In D (repeat (demo_span binary32_format) N) ->
    met binary32_format binary32_format (counted default_config Msign) D 1 (1 + 1) = tried binary32_format (counted default_config Msign) D 1).
  { intros D ID. apply repeat_spec in ID. subst D. vm_compute. reflexivity. }
  split; [exact HM|].
  destruct (series_stuck binary32_format binary32_format _ _ _ _ _ _ _ _ _ result 1 roomy32 roomy32 ltac:(split; cbn; lia) ltac:(split; cbn; lia) S E ltac:(lia) HM) as (_ & B).
  { unfold zlen. rewrite repeat_length, EN. cbn. lia. }
  intros X. rewrite X in B. lra.
Qed.
