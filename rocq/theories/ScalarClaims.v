(** @header
    Property C94: the KISS transform with the scalars of every COEFF_PRECISION. *)
From Coq Require Import ZArith Reals Lia Lra Bool List.
From Flocq Require Import Core IEEE754.BinarySingleNaN IEEE754.Binary IEEE754.Bits.
From Verif Require Import Base Flt Util Methods Analysis Precision Kiss KissPrecision Spec SpecAnalysis SpecReport SpecTransform SpecAccuracy SpecPrecision SpecKissPrecision.
From Verif Require Import BaseProofs FltProofs PrecisionProofs PrecisionErrorProofs KissProofs KissFactor KissTransform KissExact RoundProofs AccuracyProofs KissClaims AccuracyClaims KissPrecisionProofs.
Import ListNotations.
Open Scope list_scope.
Open Scope Z_scope.

(** ** Units *)
Lemma unit_bpow F u : roomy F -> (/ IZR (2 ^ f_prec F) <= u)%R -> (bpow radix2 (- f_prec F) <= u)%R.
Proof. intros (R1 & _) H. rewrite bpow_opp, bpow_IZR by lia. exact H. Qed.

Lemma length_small u n : (u <= / IZR (2 ^ 24))%R -> 1 <= n <= 2^20 -> length_ok u n.
Proof.
  intros U Hn. split; [exact Hn|]. assert (0 <= IZR n <= 1048576)%R by (split; apply IZR_le; lia).
  apply Rle_trans with (IZR n * / 16777216)%R; [apply Rmult_le_compat_l; [lra|exact U]|lra].
Qed.

(** C94.  The coefficients of every image of at most 2^20 x 2^20 samples (fewer if u is above
    2^-24) of magnitude at most M are computed, finite, and off by at most [error_of u], where u
    bounds the errors of the tables and of one operation.  Float coefficients are computed in
    float, double and long double ones in double. *)
Lemma scalar_accuracy_claim : forall L coeff load store u twiddle super shift al w h image g M lw lh m W t wd,
  long_double L ->
  let S := kiss_scalar coeff in let C := format_of L coeff in
  conversions S C load store -> (/ IZR (2 ^ f_prec S) <= u <= / IZR (2 ^ 20))%R -> (forall k, al k = true) ->
  length_ok u w -> length_ok u h ->
  tables_within S u twiddle super shift w -> tables_within S u twiddle super shift h ->
  (1 <= M <= 1048576)%R -> kf_factor w = Ok lw -> kf_factor h = Ok lh -> has_samples w h image g M ->
  exists f wd', coefficients load store (number_ops S twiddle super shift) al w h image m W t wd = Ok (f, wd') /\ zlen f = w * h /\
    forall y x, 0 <= y < h -> 0 <= x < w ->
      within_unit C (error_of u w h (radices_of lw) (radices_of lh) M) (at_ (n0 C) f (y * w + x)) (dct_2d w h g y x).
Proof.
  intros L coeff load store u twiddle super shift al w h image g M lw lh m W t wd HL S C CV (U1 & U2) Hal.
  apply (coefficients_near S C (scalar_roomy coeff) (scalar_wider coeff) load store CV u); [apply unit_bpow; [apply scalar_roomy|exact U1]|exact U2|exact Hal].
Qed.

(** the conversions exist for every long double, tables with the nearest numbers are good to
    2^-p; with errors of 2^-48, and double scalars, a 1920x1080 image of samples of magnitude at
    most 1 has coefficients to 1/20000, where float scalars can only promise 600 *)
Example scalar_accuracy_example :
  (forall L coeff, long_double L -> exists load store, conversions (kiss_scalar coeff) (format_of L coeff) load store) /\
  (forall coeff u, (/ IZR (2 ^ f_prec (kiss_scalar coeff)) <= u)%R ->
     exists twiddle super shift, forall n, tables_within (kiss_scalar coeff) u twiddle super shift n) /\
  has_samples 4 1 accuracy_image (widened 2 upscale_source) 1 /\
  kf_factor 1920 = Ok [4; 480; 4; 120; 4; 30; 2; 15; 3; 5; 5; 1] /\ kf_factor 1080 = Ok [4; 270; 2; 135; 3; 45; 3; 15; 3; 5; 5; 1] /\
  (error_of (/ IZR (2 ^ 48)) 1920 1080 [4; 4; 4; 2; 3; 5]%Z [4; 2; 3; 3; 3; 5]%Z 1 <= 1 / 20000)%R /\
  (500 <= error_of (/ IZR (2 ^ 24)) 1920 1080 [4; 4; 4; 2; 3; 5]%Z [4; 2; 3; 3; 3; 5]%Z 1 <= 600)%R.
Proof.
  split.
  { intros L coeff HL. exists (keeping (format_of L coeff) (kiss_scalar coeff)), (keeping (kiss_scalar coeff) (format_of L coeff)).
    apply keeping_conversions. destruct HL as [->|[->| ->]]; destruct coeff; split; cbn; lia. }
  split.
  { intros coeff u Hu. do 3 eexists. intros n. apply (nearest_within (kiss_scalar coeff) (scalar_roomy coeff)).
    apply unit_bpow; [apply scalar_roomy|exact Hu]. }
  split; [exact accuracy_holds|]. split; [vm_compute; reflexivity|]. split; [vm_compute; reflexivity|].
  change (IZR (2 ^ 48)) with 281474976710656%R. change (IZR (2 ^ 24)) with 16777216%R.
  unfold error_of, loss_of. cbn. split; [|split]; lra.
Qed.

(** C94.  So a coefficient that is larger than the bound has the right sign. *)
Lemma scalar_signs_claim : forall L coeff load store u twiddle super shift al w h image g M lw lh m W t wd f wd',
  long_double L ->
  let S := kiss_scalar coeff in let C := format_of L coeff in
  conversions S C load store -> (/ IZR (2 ^ f_prec S) <= u <= / IZR (2 ^ 20))%R -> (forall k, al k = true) ->
  length_ok u w -> length_ok u h ->
  tables_within S u twiddle super shift w -> tables_within S u twiddle super shift h ->
  (1 <= M <= 1048576)%R -> kf_factor w = Ok lw -> kf_factor h = Ok lh -> has_samples w h image g M ->
  coefficients load store (number_ops S twiddle super shift) al w h image m W t wd = Ok (f, wd') ->
  forall y x, 0 <= y < h -> 0 <= x < w ->
    (error_of u w h (radices_of lw) (radices_of lh) M < Rabs (dct_2d w h g y x))%R ->
    same_sign C (at_ (n0 C) f (y * w + x)) (dct_2d w h g y x).
Proof.
  intros L coeff load store u twiddle super shift al w h image g M lw lh m W t wd f wd' HL S C CV HU Hal Hw Hh Tw Th HM Ew Eh HS E y x Hy Hx HB.
  destruct (scalar_accuracy_claim L coeff load store u twiddle super shift al w h image g M lw lh m W t wd HL CV HU Hal Hw Hh Tw Th HM Ew Eh HS)
    as (f' & wd1 & E' & _ & V).
  pose proof (eq_trans (eq_sym E) E') as X. injection X as <- _. eapply within_sign; [apply V; assumption|exact HB].
Qed.
(** a coefficient of the 2x1 image 1 0 widened to 4x1 *)
Example scalar_signs_example : has_samples 4 1 accuracy_image (widened 2 upscale_source) 1 /\
  (error_of (/ IZR (2 ^ 24)) 4 1 [4]%Z [1]%Z 1 < Rabs (dct_2d 4 1 (widened 2 upscale_source) 0 3))%R.
Proof.
  split; [exact accuracy_holds|]. change (/ IZR (2 ^ 24))%R with ulp1. rewrite error32. exact (proj2 accuracy_above).
Qed.

(** C94.  With long double coefficients the transform is the one with doubles, converted at
    the end: for all scalars and coefficients of which a stored scalar loads again, the
    conversions between the passes make no difference. *)
Lemma scalar_long_claim : forall (T C : Type) (K : ops T) (load : C -> T) (store : T -> C) al w h f mirror F tmp0 tmp1 wd,
  (forall x, load (store x) = x) ->
  (forall f' wd', mixed_transform K load store al w h (map store f) mirror F tmp0 tmp1 wd = Ok (f', wd') <->
     exists d, kiss_transform K al w h f mirror F tmp0 tmp1 wd = Ok (d, wd') /\ f' = map store d) /\
  (forall e, mixed_transform K load store al w h (map store f) mirror F tmp0 tmp1 wd = Undef e <->
     kiss_transform K al w h f mirror F tmp0 tmp1 wd = Undef e).
Proof.
  intros T C K load store al w h f mirror F tmp0 tmp1 wd HB. rewrite (mixed_transform_stored K load store HB).
  destruct (kiss_transform K al w h f mirror F tmp0 tmp1 wd) as [(d & wd1)|e]; cbn [map_res fst snd]; (split; [intros f' wd'|intros e']); split.
  - intros E. injection E as <- <-. exists d. split; reflexivity.
  - intros (d' & E & ->). injection E as <- <-. reflexivity.
  - discriminate.
  - discriminate.
  - discriminate.
  - intros (d' & E & _). discriminate E.
  - intros E. injection E as <-. reflexivity.
  - intros E. injection E as <-. reflexivity.
Qed.
(** the scalars of a build with long double coefficients are doubles, which are not those *)
Example scalar_long_example : kiss_scalar PL = binary64_format /\ format_of x87_format PL = x87_format /\
  f_prec (kiss_scalar PL) = 53 /\ f_prec (format_of x87_format PL) = 64 /\
  (forall x, keeping x87_format binary64_format (keeping binary64_format x87_format x) = x) /\
  exists x : num x87_format, keeping binary64_format x87_format (keeping x87_format binary64_format x) <> x.
Proof.
  split; [reflexivity|]. split; [reflexivity|]. split; [reflexivity|]. split; [reflexivity|].
  split; [apply (cv_back _ _ _ _ (keeping_conversions binary64_format x87_format ltac:(split; cbn; lia)))|].
  exists (num_of_Z x87_format (2 ^ 53 + 1)).
  assert (D : forall x y : num x87_format, ngt x87_format x y = true -> ngt x87_format x x = false -> x <> y).
  { intros x y A B E. subst y. rewrite A in B. discriminate B. }
  intros E. symmetry in E. revert E. apply D; vm_compute; reflexivity.
Qed.

(** C94.  With COEFF_PRECISION F this is the transform of C72 to C74, with their bound. *)
Lemma scalar_float_claim : forall twiddle super shift c al qs m F t w h image,
  1 <= w <= INT_MAX / 3 -> 1 <= h <= INT_MAX / 3 -> w * h <= zlen image -> valid_image w h image ->
  (forall L, kiss_scalar PF = format_of L PF) /\
  (exists wd, coefficients (S := kiss_scalar PF) (C := num (kiss_scalar PF)) (fun x => x) (fun x => x) (number_ops (kiss_scalar PF) twiddle super shift) (fun _ => true)
     w h image m F t world0 = Ok (plane (kiss_env c al (float_ops twiddle super shift) qs m F t) w h image, wd)) /\
  (forall n, tables_within (kiss_scalar PF) (/ IZR (2 ^ 24)) twiddle super shift n <-> tables_close twiddle super shift n) /\
  (forall lw lh M, error_of (/ IZR (2 ^ 24)) w h lw lh M = coefficient_error w h lw lh M).
Proof.
  intros twiddle super shift c al qs m F t w h image Hw Hh HL HV. split; [reflexivity|]. split; [|split].
  - set (fi := firstn (Z.to_nat (w * h)) image).
    assert (LI : zlen fi = w * h) by (unfold fi, zlen in *; rewrite firstn_length; nia).
    assert (ID : map (convert binary32_format binary32_format) fi = fi).
    { unfold valid_image in HV. fold fi in HV. clear - HV. rewrite <- (map_id fi) at 2. apply map_ext_in. intros v Iv.
      rewrite Forall_forall in HV. specialize (HV v Iv). destruct (convert_up binary32_format binary32_format v ltac:(split; lia) HV) as (A & B & D).
      apply B2R_Bsign_inj; assumption. }
    destruct (kiss_transform_ok (float_ops twiddle super shift) (fun _ => true) w h fi (repeat m (Z.to_nat (2 * Z.max w h)))
      (repeat F (Z.to_nat (Z.max w h + 1))) (repeat t (Z.to_nat w)) (repeat t (Z.to_nat h)) world0 Hw Hh LI) as (f' & wd' & E & _).
    1-4: unfold zlen; rewrite repeat_length; lia.
    exists wd'. unfold coefficients, plane, kiss_env. cbn [e_transform].
    replace ((1 <=? w) && (w <=? INT_MAX / 3) && (1 <=? h) && (h <=? INT_MAX / 3)) with true by (symmetry; rewrite !andb_true_iff; lia).
    fold fi.
    transitivity (map_res (fun r => (map (fun x : f32 => x) (fst r), snd r)) (kiss_transform (float_ops twiddle super shift) (fun _ => true) w h fi (repeat m (Z.to_nat (2 * Z.max w h)))
      (repeat F (Z.to_nat (Z.max w h + 1))) (repeat t (Z.to_nat w)) (repeat t (Z.to_nat h)) world0)).
    + rewrite <- (mixed_transform_stored (float_ops twiddle super shift) (fun x => x) (fun x => x) (fun _ => eq_refl)).
      change (kiss_scalar PF) with binary32_format. rewrite <- ID at 2. rewrite map_map. reflexivity.
    + assert (E2 : match kiss_transform (float_ops twiddle super shift) (fun _ => true) w h fi (repeat m (Z.to_nat (2 * Z.max w h)))
        (repeat F (Z.to_nat (Z.max w h + 1))) (repeat t (Z.to_nat w)) (repeat t (Z.to_nat h)) world0 with Ok (v', _) => v' | Undef _ => [] end = f')
        by (rewrite E; reflexivity).
      rewrite E. cbn [map_res fst snd]. rewrite map_id. exact (f_equal (fun z => Ok (z, wd')) (eq_sym E2)).
  - intros n. split; intros H; exact H.
  - intros lw lh M. exact (error32 w h lw lh M).
Qed.
Example scalar_float_example : 4 * 1 <= zlen accuracy_image /\ valid_image 4 1 accuracy_image.
Proof. split; [vm_compute; discriminate|]. repeat constructor. Qed.

(** C94.  Smaller units give smaller bounds, and up to 2^-24 no smaller lengths: an upscale clear of the rounding errors of C74
    is clear of those of double and long double coefficients. *)
Lemma scalar_no_worse_claim : forall u s N k range image, (0 <= u <= / IZR (2 ^ 24))%R -> 1 <= s * N <= 2^20 -> 1 <= k <= 2^20 ->
  length_ok u (s * N) /\ length_ok u k /\
  (upscale_x s N k range image -> clear_x u s N k range image) /\
  (upscale_y s N k range image -> clear_y u s N k range image).
Proof.
  intros u s N k range image Hu HN Hk.
  split; [apply length_small; [apply Hu|exact HN]|]. split; [apply length_small; [apply Hu|exact Hk]|].
  assert (FR : forall n l, 1 <= n <= 2^20 -> kf_factor n = Ok l -> Forall (fun p => 1 <= p) (radices_of l)).
  { intros n l Hn E. destruct (kf_factor_ok n) as (l' & E' & _ & _ & _ & _ & FT); [unfold INT_MAX; lia|].
    rewrite E in E'. injection E' as <-. exact (factor_radices l n FT). }
  split; intros (g & M & lw & lh & HM & Ew & Eh & HS & HA); exists g, M, lw, lh; (split; [exact HM|]); (split; [exact Ew|]); (split; [exact Eh|]); (split; [exact HS|]);
    intros y i Hy Hi; destruct (HA y i Hy Hi) as (A1 & A2); rewrite <- error32 in A1, A2;
    (split; (eapply Rle_lt_trans; [apply (error_mono u ulp1)|eassumption])); try lia; try lra; try exact Hu; eauto.
Qed.
Lemma demo_upscale : upscale_x 2 2 1 1 accuracy_image.
Proof.
  exists upscale_source, 1%R, [4; 1], [1; 1]. split; [lra|]. split; [reflexivity|]. split; [reflexivity|]. split; [exact accuracy_holds|].
  intros y i Hy Hi. assert (y = 0) by lia. assert (i = 1) by lia. subst y i. exact accuracy_above.
Qed.
Example scalar_no_worse_example : upscale_x 2 2 1 1 accuracy_image.
Proof. exact demo_upscale. Qed.

(** C94.  Nearest-neighbour upscales get the confidence 1 in every precision: the images'
    coefficients computed by the KISS backend, given to the sign method, which is run in the
    precision of the intermediates. *)
Lemma scalar_upscale_width_claim : forall L coeff inter c load store u twiddle super shift al m W t s N h range images fs,
  long_double L ->
  let S := kiss_scalar coeff in let C := format_of L coeff in let I := format_of L (inter_precision coeff inter) in
  conversions S C load store -> (/ IZR (2 ^ f_prec S) <= u <= / IZR (2 ^ 20))%R -> (forall k, al k = true) ->
  1 <= s -> length_ok u (s * N) -> length_ok u h -> 1 <= range -> range < N < s * N - range -> h * range < storage_mod c ->
  tables_within S u twiddle super shift (s * N) -> tables_within S u twiddle super shift h ->
  images <> [] -> zlen images <= 2 ^ f_prec I -> zlen images < 2^64 ->
  (forall image, In image images -> clear_x u s N h range image) ->
  Forall2 (fun image f => exists wd wd', coefficients load store (number_ops S twiddle super shift) al (s * N) h image m W t wd = Ok (f, wd')) images fs ->
  exists result, prun_all C I c Msign fs (s * N) h (s * N) 1 range (repeat (n0 I) (Z.to_nat (s * N - 2 * range))) = Ok result /\
    B2R 24 128 (pconfidence I (at_ (n0 I) result (N - range)) (zlen images)) = 1%R.
Proof.
  intros L coeff inter c load store u twiddle super shift al m W t s N h range images fs HL S C I CV (U1 & U2) Hal.
  apply (clear_width S C I (scalar_roomy coeff) (roomy_of L coeff HL) (roomy_of L _ HL) (scalar_wider coeff) (wider_rule L coeff inter HL) (wider32 L _ HL)
    load store CV u (unit_bpow S u (scalar_roomy coeff) U1) U2 twiddle super shift al Hal m W t).
Qed.

Lemma scalar_upscale_height_claim : forall L coeff inter c load store u twiddle super shift al m W t s N w range images fs,
  long_double L ->
  let S := kiss_scalar coeff in let C := format_of L coeff in let I := format_of L (inter_precision coeff inter) in
  conversions S C load store -> (/ IZR (2 ^ f_prec S) <= u <= / IZR (2 ^ 20))%R -> (forall k, al k = true) ->
  1 <= s -> length_ok u (s * N) -> length_ok u w -> 1 <= range -> range < N < s * N - range -> w * range < storage_mod c ->
  tables_within S u twiddle super shift w -> tables_within S u twiddle super shift (s * N) ->
  images <> [] -> zlen images <= 2 ^ f_prec I -> zlen images < 2^64 ->
  (forall image, In image images -> clear_y u s N w range image) ->
  Forall2 (fun image f => exists wd wd', coefficients load store (number_ops S twiddle super shift) al w (s * N) image m W t wd = Ok (f, wd')) images fs ->
  exists result, prun_all C I c Msign fs (s * N) w 1 w range (repeat (n0 I) (Z.to_nat (s * N - 2 * range))) = Ok result /\
    B2R 24 128 (pconfidence I (at_ (n0 I) result (N - range)) (zlen images)) = 1%R.
Proof.
  intros L coeff inter c load store u twiddle super shift al m W t s N w range images fs HL S C I CV (U1 & U2) Hal.
  apply (clear_height S C I (scalar_roomy coeff) (roomy_of L coeff HL) (roomy_of L _ HL) (scalar_wider coeff) (wider_rule L coeff inter HL) (wider32 L _ HL)
    load store CV u (unit_bpow S u (scalar_roomy coeff) U1) U2 twiddle super shift al Hal m W t).
Qed.

(** two copies of the 2x1 image 1 0 widened to 4x1, with long double coefficients of the x87
    and any tables good to 2^-48 *)
Example scalar_upscale_width_example :
  (forall image, In image [accuracy_image; accuracy_image] -> clear_x (/ IZR (2 ^ 48)) 2 2 1 1 image) /\ 1 * 1 < storage_mod default_config /\
  exists load store twiddle super shift fs, conversions (kiss_scalar PL) (format_of x87_format PL) load store /\
    (forall n, tables_within (kiss_scalar PL) (/ IZR (2 ^ 48)) twiddle super shift n) /\
    Forall2 (fun image f => exists wd wd', coefficients load store (number_ops (kiss_scalar PL) twiddle super shift) (fun _ => true) (2 * 2) 1 image
      (n0 (kiss_scalar PL)) (n0 (kiss_scalar PL), n0 (kiss_scalar PL)) (n0 (kiss_scalar PL), n0 (kiss_scalar PL)) wd = Ok (f, wd')) [accuracy_image; accuracy_image] fs.
Proof.
  split.
  { intros image I. assert (image = accuracy_image) as -> by (destruct I as [<-|[<-|[]]]; reflexivity).
    apply (scalar_no_worse_claim (/ IZR (2 ^ 48)) 2 2 1 1 accuracy_image); [|lia|lia|exact demo_upscale].
    cbn [Z.pow Z.pow_pos Pos.iter Z.mul Pos.mul]. lra. }
  split; [vm_compute; reflexivity|].
  destruct scalar_accuracy_example as (HC & HT & _).
  destruct (HC x87_format PL) as (load & store & CV); [right; left; reflexivity|].
  destruct (HT PL (/ IZR (2 ^ 48))%R) as (tw & su & sh & T).
  { cbn [kiss_scalar f_prec binary64_format Z.pow Z.pow_pos Pos.iter Z.mul Pos.mul]. lra. }
  destruct (scalar_accuracy_claim x87_format PL load store (/ IZR (2 ^ 48))%R tw su sh (fun _ => true) 4 1 accuracy_image (widened 2 upscale_source) 1 [4; 1] [1; 1]
    (n0 (kiss_scalar PL)) (n0 (kiss_scalar PL), n0 (kiss_scalar PL)) (n0 (kiss_scalar PL), n0 (kiss_scalar PL)) world0) as (f & wd' & E & _).
  { right; left; reflexivity. } { exact CV. }
  { cbn [kiss_scalar f_prec binary64_format Z.pow Z.pow_pos Pos.iter Z.mul Pos.mul]. lra. }
  { reflexivity. } { apply length_small; [lra|lia]. } { apply length_small; [lra|lia]. } { apply T. } { apply T. } { lra. } { reflexivity. } { reflexivity. } { exact accuracy_holds. }
  exists load, store, tw, su, sh, [f; f]. split; [exact CV|]. split; [exact T|].
  repeat constructor; exists world0, wd'; exact E.
Qed.

Lemma demo_column : has_samples 1 (2 * 2) accuracy_image (heightened 2 (fun y x => upscale_source x y)) 1.
Proof.
  destruct accuracy_holds as (A & B). split; [exact A|]. intros y x Hy Hx. assert (x = 0) by lia. subst x.
  destruct (B 0 y ltac:(lia) ltac:(lia)) as (B1 & B2 & B3). replace (y * 1 + 0) with (0 * 4 + y) by lia. split; [exact B1|]. split; [exact B2|exact B3].
Qed.
Lemma demo_upscale_y : upscale_y 2 2 1 1 accuracy_image.
Proof.
  exists (fun y x => upscale_source x y), 1%R, [1; 1], [4; 1]. split; [lra|]. split; [reflexivity|]. split; [reflexivity|]. split.
  - exact demo_column.
  - intros y i Hy Hi. assert (y = 0) by lia. assert (i = 1) by lia. subst y i. rewrite (UpscaleProofs.dct_2d_flip 1 (2 * 2) _ (2 - 1) 0), (UpscaleProofs.dct_2d_flip 1 (2 * 2) _ (2 + 1) 0) by lia.
    assert (E : coefficient_error 1 (2 * 2) (radices_of [1; 1]) (radices_of [4; 1]) 1 = coefficient_error 4 1 [4]%Z [1]%Z 1).
    { unfold coefficient_error. cbn [radices_of Z.mul Pos.mul]. ring. }
    rewrite E. exact accuracy_above.
Qed.
(** the 1x2 image heightened to 1x4 *)
Example scalar_upscale_height_example : clear_y (/ IZR (2 ^ 48)) 2 2 1 1 accuracy_image.
Proof.
  apply (scalar_no_worse_claim (/ IZR (2 ^ 48)) 2 2 1 1 accuracy_image); [cbn [Z.pow Z.pow_pos Pos.iter Z.mul Pos.mul]; lra|lia|lia|exact demo_upscale_y].
Qed.
