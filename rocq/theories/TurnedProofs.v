(** Cosine coefficients of reworked pictures. *)
From Coq Require Import Reals Lra Lia Psatz.
From Flocq Require Import Core IEEE754.Binary.
From Verif Require Import Base Flt Util Methods Analysis History Kiss Spec SpecAnalysis SpecUtil SpecReport SpecTransform SpecAccuracy SpecInterpolate SpecDetect SpecTurned.
From Verif Require Import BaseProofs FltProofs RoundProofs WorldProofs AnalysisProofs ResultsProofs ClientProofs CompareProofs.
From Verif Require Import KissProofs KissFactor KissTransform KissExact KissRound KissAccuracy AccuracyProofs UpscaleProofs UpscaleDetect
  InterpolateProofs InterpolateClaims DetectProofs DetectClaims.
Open Scope list_scope.
Open Scope R_scope.

(** ** One dimension *)
Definition parity (f : bool) (k : Z) : R := if f then (if Z.odd k then -1 else 1) else 1.
Lemma parity_square f k : parity f k * parity f k = 1.
Proof. unfold parity. destruct f, (Z.odd k); ring. Qed.
Lemma parity_pair f N i : parity f (N - i) = parity f (N + i).
Proof. unfold parity. replace (N + i)%Z with (N - i + 2 * i)%Z by ring. rewrite Z.odd_add_mul_2. reflexivity. Qed.

Lemma cos_reverse k t : cos (PI * IZR k - t) = parity true k * cos t.
Proof.
  rewrite cos_minus. assert (S : sin (PI * IZR k) = 0) by (apply sin_eq_0_1; exists k; ring). rewrite S.
  replace (cos (PI * IZR k)) with (parity true k); [ring|]. unfold parity.
  destruct (Z.odd k) eqn:O.
  - apply Z.odd_spec in O. destruct O as (q & ->). rewrite plus_IZR, mult_IZR.
    replace (PI * (2 * IZR q + 1)) with (2 * IZR q * PI + PI) by ring. rewrite neg_cos.
    replace (2 * IZR q * PI) with (2 * (IZR q * PI)) by ring. rewrite cos_2a_sin. rewrite (sin_eq_0_1 (IZR q * PI)) by (exists q; reflexivity). ring.
  - assert (EV : Z.Even k) by (apply Z.even_spec; rewrite <- Z.negb_odd, O; reflexivity). destruct EV as (q & ->). rewrite mult_IZR.
    replace (PI * (2 * IZR q)) with (2 * (IZR q * PI)) by ring. rewrite cos_2a_sin. rewrite (sin_eq_0_1 (IZR q * PI)) by (exists q; reflexivity). ring.
Qed.

Lemma dct_reverse n f x k : (1 <= n)%Z -> dct n (fun j => x (if f : bool then n - 1 - j else j)%Z) k = parity f k * dct n x k.
Proof.
  intros Hn. destruct f; [|unfold parity; rewrite Rmult_1_l; reflexivity]. unfold dct.
  pose proof (rsum_reverse (fun j => x j * (parity true k * cos (PI * IZR k * (IZR j + 1/2) / IZR n))) n ltac:(lia) (n - 1)%Z) as R.
  replace (n - 1 + 1 - n)%Z with 0%Z in R by lia. replace (n - 1 + 1)%Z with n in R by lia.
  transitivity (2 * rsum (fun j => x j * (parity true k * cos (PI * IZR k * (IZR j + 1/2) / IZR n))) 0 n).
  - f_equal. rewrite <- R. apply rsum_ext. intros j Hj. f_equal. rewrite <- cos_reverse. f_equal. rewrite !minus_IZR. field. apply IZR_nz. lia.
  - rewrite (rsum_ext _ (fun j => x j * cos (PI * IZR k * (IZR j + 1/2) / IZR n) * parity true k)) by (intros; ring).
    rewrite rsum_mul by lia. ring.
Qed.

Lemma dct_flat n b k : (1 <= k < n)%Z -> dct n (fun _ => b) k = 0.
Proof.
  intros Hk. pose proof (dct_repeat n 1 (fun _ => b) k ltac:(lia) ltac:(lia)) as R. rewrite Z.mul_1_r in R.
  pose proof (sin_pos_part k n ltac:(lia)) as P.
  assert (Z0 : dct 1 (fun _ => b) k * sin (PI * IZR k / 1 / 2) = 0).
  { unfold dct, rsum. change (zrange 0 1) with [0%Z]. cbn [fold_right].
    replace (PI * IZR k * (0 + 1 / 2) / 1) with (PI * IZR k / 1 / 2) by field.
    set (t := PI * IZR k / 1 / 2). transitivity (b * (2 * sin t * cos t)); [ring|]. rewrite <- sin_2a.
    replace (2 * t) with (IZR k * PI) by (unfold t; field). rewrite sin_eq_0_1 by (exists k; reflexivity). ring. }
  rewrite Z0 in R. nra.
Qed.
Lemma dct_zero n k : (1 <= n)%Z -> dct n (fun _ => 0) k = 0.
Proof. intros Hn. pose proof (dct_scale n (fun _ => 0) 0 k Hn) as Z0. rewrite Rmult_0_l in Z0. eapply eq_trans; [|exact Z0]. apply dct_ext. intros. symmetry. apply Rmult_0_l. Qed.
Lemma dct_affine n x c b k : (1 <= n)%Z -> dct n (fun j => c * x j + b) k = c * dct n x k + dct n (fun _ => b) k.
Proof.
  intros Hn. rewrite <- dct_scale by exact Hn. unfold dct. rewrite <- Rmult_plus_distr_l, <- rsum_add by lia. f_equal. apply rsum_ext. intros. ring.
Qed.

(** ** Two dimensions *)
Lemma reworked_dct fx fy w h c b g y k : (1 <= w)%Z -> (1 <= h)%Z -> (0 <= y < h)%Z -> (0 <= k < w)%Z -> (y <> 0 \/ k <> 0)%Z \/ b = 0 ->
  dct_2d w h (reworked fx fy w h c b g) y k = c * (parity fy y * parity fx k) * dct_2d w h g y k.
Proof.
  intros Hw Hh Hy Hk HB. rewrite <- !dct_dct by assumption. unfold reworked.
  rewrite (dct_ext h _ (fun r => c * (parity fx k * dct w (g (if fy then h - 1 - r else r)%Z) k) + dct w (fun _ => b) k)).
  2:{ intros r Hr. rewrite dct_affine by exact Hw. f_equal. f_equal. apply (dct_reverse w fx (g (if fy then h - 1 - r else r)%Z) k Hw). }
  rewrite dct_affine, dct_scale by exact Hh.
  assert (Z0 : dct h (fun _ => dct w (fun _ => b) k) y = 0).
  { destruct HB as [[NY|NK]| ->].
    - apply dct_flat. lia.
    - rewrite (dct_flat w b k) by lia. apply dct_zero, Hh.
    - rewrite (dct_zero w k Hw). apply dct_zero, Hh. }
  rewrite Z0. rewrite (dct_reverse h fy (fun r => dct w (g r) k) y Hh).
  change (fun r : Z => dct w (fun x : Z => g r x) k) with (fun r : Z => dct w (g r) k). ring.
Qed.

(** ** Signs *)
Lemma accurate_near E w h M e image g d y x : (1 <= w)%Z -> (1 <= h)%Z -> accurate E w h M e -> nearly_samples w h image g M d -> (0 <= y < h)%Z -> (0 <= x < w)%Z ->
  e + 4 * IZR w * IZR h * d < Rabs (dct_2d w h g y x) -> agrees (at_ f0 (plane E w h image) (y * w + x)) (dct_2d w h g y x).
Proof.
  intros Hw Hh A (f & HS & HD) Hy Hx B. destruct (A image f HS y x Hy Hx) as (F & D).
  pose proof (dct_2d_near w h f g d y x Hw Hh HD) as NR.
  apply (agrees_close _ _ (e + 4 * IZR w * IZR h * d)); [exact F| |exact B].
  replace (B2R 24 128 (at_ f0 (plane E w h image) (y * w + x)) - dct_2d w h g y x)
    with ((B2R 24 128 (at_ f0 (plane E w h image) (y * w + x)) - dct_2d w h f y x) + (dct_2d w h f y x - dct_2d w h g y x)) by ring.
  eapply Rle_trans; [apply Rabs_triang|]. lra.
Qed.
Lemma same_inversion a b a' b' r s q t : agrees a r -> agrees b s -> agrees a' (q * t * r) -> agrees b' (q * t * s) ->
  xorb (fsign a) (fsign b) = xorb (fsign a') (fsign b').
Proof.
  intros A B A' B'. apply agrees_sign in A. apply agrees_sign in B. apply agrees_sign in A'. apply agrees_sign in B'.
  set (v := q * t) in *. clearbody v.
  destruct A as [(-> & A)|(-> & A)], B as [(-> & B)|(-> & B)], A' as [(-> & A')|(-> & A')], B' as [(-> & B')|(-> & B')]; try reflexivity; exfalso;
    destruct (Rle_or_lt v 0); nra.
Qed.

Open Scope Z_scope.
Lemma how_many_pairs_same P Q n range : (forall y i, 0 <= y < n -> 1 <= i <= range -> P y i = Q y i) -> how_many_pairs P n range = how_many_pairs Q n range.
Proof.
  intros H. unfold how_many_pairs, how_many. f_equal. f_equal. apply filter_ext_in. intros (y & i) I. apply in_pairs_list in I. apply H; tauto.
Qed.

Section frame.
Variables (E : env) (N w h range : Z) (image image' : list f32).
Hypotheses (Hw : 1 <= w) (Hh : 1 <= h) (HR : 1 <= range).
Lemma reworked_x_same : range <= N < w - range -> reworked_x E N w h range image image' ->
  inverted_pairs (dim_x w h (plane E w h image)) range N = inverted_pairs (dim_x w h (plane E w h image')) range N.
Proof.
  intros HN (g & M & e & fx & fy & c & b & M' & e' & d & HS & A & B & BR & NS & A' & B'). unfold inverted_pairs. cbn [dim_x d_lines d_coef].
  apply how_many_pairs_same. intros y i Hy Hi. destruct (B y i Hy Hi) as (B1 & B2). destruct (B' y i Hy Hi) as (B1' & B2').
  assert (CD : forall k, 0 <= k < w -> k <> 0 \/ b = 0%R -> dct_2d w h (reworked fx fy w h c b g) y k = (c * (parity fy y * parity fx k) * dct_2d w h g y k)%R).
  { intros k Hk [K|K]; apply reworked_dct; try assumption; tauto. }
  assert (Z1 : N - i <> 0 \/ b = 0%R) by (destruct BR as [BR|BR]; [left; lia|right; exact BR]).
  assert (Z2 : N + i <> 0 \/ b = 0%R) by (left; lia).
  pose proof (accurate_agrees _ _ _ _ _ _ _ y (N - i) A HS Hy ltac:(lia) B1) as G1. pose proof (accurate_agrees _ _ _ _ _ _ _ y (N + i) A HS Hy ltac:(lia) B2) as G2.
  pose proof (accurate_near _ _ _ _ _ _ _ _ y (N - i) Hw Hh A' NS Hy ltac:(lia) B1') as G1'. pose proof (accurate_near _ _ _ _ _ _ _ _ y (N + i) Hw Hh A' NS Hy ltac:(lia) B2') as G2'.
  rewrite CD in G1' by (try lia; assumption). rewrite CD, <- parity_pair in G2' by (try lia; assumption). eapply same_inversion; eassumption.
Qed.
Lemma reworked_y_same : range <= N < h - range -> reworked_y E N w h range image image' ->
  inverted_pairs (dim_y w h (plane E w h image)) range N = inverted_pairs (dim_y w h (plane E w h image')) range N.
Proof.
  intros HN (g & M & e & fx & fy & c & b & M' & e' & d & HS & A & B & BR & NS & A' & B'). unfold inverted_pairs. cbn [dim_y d_lines d_coef].
  apply how_many_pairs_same. intros x i Hx Hi. destruct (B x i Hx Hi) as (B1 & B2). destruct (B' x i Hx Hi) as (B1' & B2').
  assert (CD : forall k, 0 <= k < h -> k <> 0 \/ b = 0%R -> dct_2d w h (reworked fx fy w h c b g) k x = (c * (parity fx x * parity fy k) * dct_2d w h g k x)%R).
  { intros k Hk HB. rewrite (Rmult_comm (parity fx x)). destruct HB as [K|K]; apply reworked_dct; try assumption; tauto. }
  assert (Z1 : N - i <> 0 \/ b = 0%R) by (destruct BR as [BR|BR]; [left; lia|right; exact BR]).
  assert (Z2 : N + i <> 0 \/ b = 0%R) by (left; lia).
  pose proof (accurate_agrees _ _ _ _ _ _ _ (N - i) x A HS ltac:(lia) Hx B1) as G1. pose proof (accurate_agrees _ _ _ _ _ _ _ (N + i) x A HS ltac:(lia) Hx B2) as G2.
  pose proof (accurate_near _ _ _ _ _ _ _ _ (N - i) x Hw Hh A' NS ltac:(lia) Hx B1') as G1'. pose proof (accurate_near _ _ _ _ _ _ _ _ (N + i) x Hw Hh A' NS ltac:(lia) Hx B2') as G2'.
  rewrite CD in G1' by (try lia; assumption). rewrite CD, <- parity_pair in G2' by (try lia; assumption). eapply same_inversion; eassumption.
Qed.
Lemma turned_x_same : range <= N < w - range -> turned_x E N w h range image image' ->
  inverted_pairs (dim_x w h (plane E w h image)) range N = inverted_pairs (dim_y h w (plane E h w image')) range N.
Proof.
  intros HN (g & M & e & fx & fy & c & b & M' & e' & d & T). cbv zeta in T. destruct T as (HS & A & B & BR & NS & A' & B').
  unfold inverted_pairs. cbn [dim_x dim_y d_lines d_coef].
  apply how_many_pairs_same. intros y i Hy Hi. destruct (B y i Hy Hi) as (B1 & B2). destruct (B' y i Hy Hi) as (B1' & B2').
  assert (CD : forall k, 0 <= k < w -> k <> 0 \/ b = 0%R -> dct_2d h w (fun y x => reworked fx fy w h c b g x y) k y = (c * (parity fy y * parity fx k) * dct_2d w h g y k)%R).
  { intros k Hk HB. rewrite <- (reworked_dct fx fy w h c b g y k) by (try assumption; tauto). symmetry. apply dct_2d_flip; assumption. }
  assert (Z1 : N - i <> 0 \/ b = 0%R) by (destruct BR as [BR|BR]; [left; lia|right; exact BR]).
  assert (Z2 : N + i <> 0 \/ b = 0%R) by (left; lia).
  pose proof (accurate_agrees _ _ _ _ _ _ _ y (N - i) A HS Hy ltac:(lia) B1) as G1. pose proof (accurate_agrees _ _ _ _ _ _ _ y (N + i) A HS Hy ltac:(lia) B2) as G2.
  replace (4 * IZR w * IZR h * d)%R with (4 * IZR h * IZR w * d)%R in * by ring.
  pose proof (accurate_near _ _ _ _ _ _ _ _ (N - i) y Hh Hw A' NS ltac:(lia) Hy B1') as G1'. pose proof (accurate_near _ _ _ _ _ _ _ _ (N + i) y Hh Hw A' NS ltac:(lia) Hy B2') as G2'.
  rewrite CD in G1' by (try lia; assumption). rewrite CD, <- parity_pair in G2' by (try lia; assumption). eapply same_inversion; eassumption.
Qed.
Lemma turned_y_same : range <= N < h - range -> turned_y E N w h range image image' ->
  inverted_pairs (dim_y w h (plane E w h image)) range N = inverted_pairs (dim_x h w (plane E h w image')) range N.
Proof.
  intros HN (g & M & e & fx & fy & c & b & M' & e' & d & T). cbv zeta in T. destruct T as (HS & A & B & BR & NS & A' & B').
  unfold inverted_pairs. cbn [dim_x dim_y d_lines d_coef].
  apply how_many_pairs_same. intros x i Hx Hi. destruct (B x i Hx Hi) as (B1 & B2). destruct (B' x i Hx Hi) as (B1' & B2').
  assert (CD : forall k, 0 <= k < h -> k <> 0 \/ b = 0%R -> dct_2d h w (fun y x => reworked fx fy w h c b g x y) x k = (c * (parity fx x * parity fy k) * dct_2d w h g k x)%R).
  { intros k Hk HB. rewrite (Rmult_comm (parity fx x)), <- (reworked_dct fx fy w h c b g k x) by (try assumption; tauto). symmetry. apply dct_2d_flip; assumption. }
  assert (Z1 : N - i <> 0 \/ b = 0%R) by (destruct BR as [BR|BR]; [left; lia|right; exact BR]).
  assert (Z2 : N + i <> 0 \/ b = 0%R) by (left; lia).
  pose proof (accurate_agrees _ _ _ _ _ _ _ (N - i) x A HS ltac:(lia) Hx B1) as G1. pose proof (accurate_agrees _ _ _ _ _ _ _ (N + i) x A HS ltac:(lia) Hx B2) as G2.
  replace (4 * IZR w * IZR h * d)%R with (4 * IZR h * IZR w * d)%R in * by ring.
  pose proof (accurate_near _ _ _ _ _ _ _ _ x (N - i) Hh Hw A' NS Hx ltac:(lia) B1') as G1'. pose proof (accurate_near _ _ _ _ _ _ _ _ x (N + i) Hh Hw A' NS Hx ltac:(lia) B2') as G2'.
  rewrite CD in G1' by (try lia; assumption). rewrite CD, <- parity_pair in G2' by (try lia; assumption). eapply same_inversion; eassumption.
Qed.
End frame.

(** ** Reports *)
Lemma mean_same range N Ds Ds' : Forall2 (fun D D' => inverted_pairs D range N = inverted_pairs D' range N /\ d_lines D = d_lines D') Ds Ds' ->
  mean Sign Ds range N = mean Sign Ds' range N.
Proof.
  intros F. unfold mean. f_equal.
  - unfold total. generalize d0. induction F as [|D D' Ds Ds' (H & L) F IH]; intros a; cbn [fold_left]; [reflexivity|].
    rewrite IH. f_equal. f_equal. unfold ratio, hits. rewrite H, L. reflexivity.
  - rewrite (Forall2_length _ _ _ F). reflexivity.
Qed.
Lemma reports_same E m w h w' h' p images images' Ds Ds' len l l' N :
  client_ok E w h p -> client_ok E w' h' p -> countable images -> countable images' -> used_method m = Msign ->
  let range := used_range (e_cfg E) m p in range <= N < len - range ->
  reported E m w h p images Ds len l -> reported E m w' h' p images' Ds' len l' ->
  Forall2 (fun D D' => inverted_pairs D range N = inverted_pairs D' range N /\ d_lines D = d_lines D') Ds Ds' ->
  forall v, In (mkRes N v) l <-> In (mkRes N v) l'.
Proof.
  intros HC HC' HN HN' HM range HB R R' F v. pose proof (used_range_pos E w h m p HC) as RP.
  rewrite (reported_in _ _ _ _ _ _ _ _ _ HC HN R), (reported_in _ _ _ _ _ _ _ _ _ HC' HN' R').
  assert (CR : used_criterion (e_cfg E) m = Sign) by (unfold used_criterion; rewrite HM; reflexivity). rewrite CR. cbn [r_index r_conf].
  rewrite !found_in. fold range in RP |- *. rewrite (mean_same range N Ds Ds' F). reflexivity.
Qed.
