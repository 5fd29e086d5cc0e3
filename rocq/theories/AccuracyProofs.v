(** The error of the two-dimensional KISS transform in C floats. *)
From Coq Require Import Reals Lra Lia Psatz.
From Flocq Require Import Core IEEE754.BinarySingleNaN IEEE754.Binary.
From Verif Require Import Base Spec SpecTransform SpecAccuracy BaseProofs Flt FltProofs RoundProofs Util Methods Analysis WorldProofs Kiss KissProofs KissFactor KissTransform KissExact KissRound.
From Verif Require Import Precision SpecPrecision PrecisionProofs KissPrecision SpecKissPrecision KissAccuracy.
Open Scope R_scope.

(** ** Floats *)
Lemma roomy32 : roomy binary32_format.
Proof. split; cbn; lia. Qed.
Lemma unit32 : bpow radix2 (- f_prec binary32_format) <= ulp1.
Proof. rewrite ulp1_bpow. right. reflexivity. Qed.
Lemma unit32' : ulp1 <= / 1048576. Proof. unfold ulp1. lra. Qed.
Lemma cap32 : IZR 1048576 * ulp1 <= / 16. Proof. unfold ulp1. lra. Qed.
Lemma ops32 twiddle super shift : float_ops twiddle super shift = number_ops binary32_format twiddle super shift.
Proof. reflexivity. Qed.
Lemma tables32 twiddle super shift n : tables_close twiddle super shift n -> tables_within binary32_format ulp1 twiddle super shift n.
Proof. intros H. exact H. Qed.
Lemma passes32 l : fold_right (fun p g => (1 + IZR (2 * p + 50) * ulp1) * g) (1 + 32 * ulp1) l = passes l.
Proof.
  induction l as [|p l IH]; cbn [fold_right]; [unfold passes, ulp1; cbn [fold_right]; field|].
  rewrite IH. unfold passes at 2. cbn [fold_right]. fold (passes l). unfold pass_error, ulp1. field.
Qed.
Lemma error32 w h rw rh M : error_of ulp1 w h rw rh M = coefficient_error w h rw rh M.
Proof.
  assert (P : forall l, loss_of ulp1 l = loss l).
  { intros l. unfold loss_of, loss. rewrite passes32. reflexivity. }
  unfold error_of, coefficient_error. rewrite !P. reflexivity.
Qed.
Lemma growth_small n l : (1 <= n <= 1048576)%Z -> kf_factor n = Ok l -> 1 <= growth ulp1 l <= 81 /\ factors_ok l n /\ factor_table n l.
Proof. apply (KissAccuracy.growth_small binary32_format ulp1 1048576 unit32 unit32' (Z.le_refl _) cap32). Qed.
Lemma passes_growth l n : factor_table n l -> passes (radices_of l) = growth ulp1 l * (1 + 32 * ulp1).
Proof.
  intros H. rewrite <- (KissAccuracy.passes_growth ulp1 l n H). symmetry. apply passes32.
Qed.

Lemma transform_near twiddle super shift al w h f mirror FF tmp0 tmp1 wd M lw lh : (forall k, al k = true) ->
  (1 <= w <= 1048576)%Z -> (1 <= h <= 1048576)%Z -> tables_close twiddle super shift w -> tables_close twiddle super shift h ->
  zlen f = (w * h)%Z -> zlen mirror = (2 * Z.max w h)%Z -> zlen FF = (Z.max w h + 1)%Z -> zlen tmp0 = w -> zlen tmp1 = h ->
  1 <= M <= 1048576 -> (forall i, (0 <= i < w * h)%Z -> ffinite (at_ f0 f i) = true /\ Rabs (B2R 24 128 (at_ f0 f i)) <= M) ->
  kf_factor w = Ok lw -> kf_factor h = Ok lh ->
  exists f' wd', kiss_transform (float_ops twiddle super shift) al w h f mirror FF tmp0 tmp1 wd = Ok (f', wd') /\ zlen f' = (w * h)%Z /\
    forall y x, (0 <= y < h)%Z -> (0 <= x < w)%Z ->
      ffinite (at_ f0 f' (y * w + x)%Z) = true /\
      Rabs (B2R 24 128 (at_ f0 f' (y * w + x)%Z) - dct_2d w h (fun y x => B2R 24 128 (at_ f0 f (y * w + x)%Z)) y x)
        <= coefficient_error w h (radices_of lw) (radices_of lh) M.
Proof.
  rewrite ops32, <- error32. exact (KissAccuracy.transform_near binary32_format roomy32 ulp1 1048576 unit32 unit32' (Z.le_refl _) cap32 twiddle super shift al w h f mirror FF tmp0 tmp1 wd M lw lh).
Qed.

(** ** Signs *)
Lemma agrees_close a r e : ffinite a = true -> Rabs (B2R 24 128 a - r) <= e -> e < Rabs r -> agrees a r.
Proof.
  intros Fa E H. split; [exact Fa|]. revert E H. generalize (B2R 24 128 a). intros v E H.
  unfold Rabs in *. destruct (Rcase_abs r), (Rcase_abs (v - r)); nra.
Qed.
