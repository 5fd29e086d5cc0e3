(** src/stat.c: what statres lists. *)
From Coq Require Import Reals Lra Sorted.
From Flocq Require Import Core IEEE754.BinarySingleNaN IEEE754.Binary IEEE754.Bits.
From Verif Require Import Base BaseProofs Flt FltProofs Util Methods Analysis Spec SpecReport Stdio Image Cli Tools.
Open Scope list_scope.
Open Scope R_scope.

(** finite values, with their sign *)
Definition dv (x : f64) (r : R) : Prop := dfin x = true /\ rd x = r.
Definition fv (x : f32) (r : R) : Prop := ffinite x = true /\ rf x = r.

Lemma dadd_v x y a b : dv x a -> dv y b -> Rabs (a + b) <= bpow radix2 1023 -> dv (dadd x y) (rnd64 (a + b)).
Proof.
  intros (FX & EX) (FY & EY) B. unfold dadd, b64_plus.
  match goal with |- dv (Bplus _ _ ?p1 ?p2 ?n _ _ _) _ => pose proof (Bplus_correct 53 1024 p1 p2 n mode_NE x y FX FY) as C end.
  change (round_mode mode_NE) with ZnearestE in C. rewrite EX, EY in C. fold (rnd64 (a + b)) in C. rewrite (small_lt_emax64 _ B) in C.
  destruct C as (C1 & C2 & _). split; assumption.
Qed.
Lemma dsub_v x y a b : dv x a -> dv y b -> Rabs (a - b) <= bpow radix2 1023 -> dv (dsub x y) (rnd64 (a - b)).
Proof.
  intros (FX & EX) (FY & EY) B. unfold dsub, b64_minus.
  match goal with |- dv (Bminus _ _ ?p1 ?p2 ?n _ _ _) _ => pose proof (Bminus_correct 53 1024 p1 p2 n mode_NE x y FX FY) as C end.
  change (round_mode mode_NE) with ZnearestE in C. rewrite EX, EY in C. fold (rnd64 (a - b)) in C. rewrite (small_lt_emax64 _ B) in C.
  destruct C as (C1 & C2 & _). split; assumption.
Qed.
Lemma dmul_v x y a b : dv x a -> dv y b -> Rabs (a * b) <= bpow radix2 1023 -> dv (dmul x y) (rnd64 (a * b)).
Proof.
  intros (FX & EX) (FY & EY) B. unfold dmul, b64_mult.
  match goal with |- dv (Bmult _ _ ?p1 ?p2 ?n _ _ _) _ => pose proof (Bmult_correct 53 1024 p1 p2 n mode_NE x y ) as C end.
  change (round_mode mode_NE) with ZnearestE in C. rewrite EX, EY in C. fold (rnd64 (a * b)) in C. rewrite (small_lt_emax64 _ B) in C.
  destruct C as (C1 & C2 & _). split; [|exact C1]. unfold dfin in *. etransitivity; [exact C2|]. rewrite FX, FY. reflexivity.
Qed.
Lemma fadd_v x y a b : fv x a -> fv y b -> Rabs (a + b) <= bpow radix2 127 -> fv (fadd x y) (rnd32 (a + b)).
Proof.
  intros (FX & EX) (FY & EY) B. unfold fadd, b32_plus.
  match goal with |- fv (Bplus _ _ ?p1 ?p2 ?n _ _ _) _ => pose proof (Bplus_correct 24 128 p1 p2 n mode_NE x y FX FY) as C end.
  change (round_mode mode_NE) with ZnearestE in C. rewrite EX, EY in C. fold (rnd32 (a + b)) in C. rewrite (small_lt_emax32 _ B) in C.
  destruct C as (C1 & C2 & _). split; assumption.
Qed.
Lemma fsub_v x y a b : fv x a -> fv y b -> Rabs (a - b) <= bpow radix2 127 -> fv (fsub x y) (rnd32 (a - b)).
Proof.
  intros (FX & EX) (FY & EY) B. unfold fsub, b32_minus.
  match goal with |- fv (Bminus _ _ ?p1 ?p2 ?n _ _ _) _ => pose proof (Bminus_correct 24 128 p1 p2 n mode_NE x y FX FY) as C end.
  change (round_mode mode_NE) with ZnearestE in C. rewrite EX, EY in C. fold (rnd32 (a - b)) in C. rewrite (small_lt_emax32 _ B) in C.
  destruct C as (C1 & C2 & _). split; assumption.
Qed.
Lemma fmul_v x y a b : fv x a -> fv y b -> Rabs (a * b) <= bpow radix2 127 -> fv (fmul x y) (rnd32 (a * b)).
Proof.
  intros (FX & EX) (FY & EY) B. unfold fmul, b32_mult.
  match goal with |- fv (Bmult _ _ ?p1 ?p2 ?n _ _ _) _ => pose proof (Bmult_correct 24 128 p1 p2 n mode_NE x y ) as C end.
  change (round_mode mode_NE) with ZnearestE in C. rewrite EX, EY in C. fold (rnd32 (a * b)) in C. rewrite (small_lt_emax32 _ B) in C.
  destruct C as (C1 & C2 & _). split; [|exact C1]. unfold ffinite in *. etransitivity; [exact C2|]. rewrite FX, FY. reflexivity.
Qed.
Lemma big1023 : 100 <= bpow radix2 1023.
Proof. apply Rle_trans with (bpow radix2 7); [cbn; lra|apply bpow_le; lia]. Qed.
Lemma big127 : 100 <= bpow radix2 127.
Proof. apply Rle_trans with (bpow radix2 7); [cbn; lra|apply bpow_le; lia]. Qed.

Lemma f32_of_f64_v x r : dv x r -> Rabs r <= bpow radix2 127 -> fv (f32_of_f64 x) (rnd32 r).
Proof.
  intros (F & <-) B. destruct x as [s|s|s pl e|s m e H]; try discriminate F.
  - cbn. split; [reflexivity|]. cbn. symmetry. apply rnd32_0.
  - cbn [f32_of_f64].
    pose proof (binary_normalize_correct 24 128 eq_refl eq_refl mode_NE (cond_Zopp s (Zpos m)) e s) as C.
    change (round_mode mode_NE) with ZnearestE in C.
    change (F2R {| Fnum := cond_Zopp s (Zpos m); Fexp := e |}) with (rd (B754_finite 53 1024 s m e H)) in C.
    fold (rnd32 (rd (B754_finite 53 1024 s m e H))) in C. rewrite (small_lt_emax32 _ B) in C. destruct C as (C1 & C2 & _). split; [exact C2|exact C1].
Qed.
Lemma f64_of_f32_v x r : fv x r -> dv (f64_of_f32 x) r.
Proof. intros (F & <-). destruct (f64_of_f32_finite x F) as (A & B & _). split; assumption. Qed.
Lemma fv_fmt x r : fv x r -> generic_format radix2 fexp32 r.
Proof. intros (_ & <-). apply generic_format_B2R. Qed.
Lemma fmt32_64 r : generic_format radix2 fexp32 r -> generic_format radix2 fexp64 r.
Proof.
  apply generic_inclusion_mag. intros _. change fexp64 with (FLT_exp (-1074) 53). change fexp32 with (FLT_exp (-149) 24). unfold FLT_exp. lia.
Qed.
(** quarters of a float are doubles *)
Lemma fmt_quarter r k : generic_format radix2 fexp32 r -> (0 <= k <= 4)%Z -> generic_format radix2 fexp64 (r * (IZR k / 4)).
Proof.
  intros G K. change fexp32 with (FLT_exp (-149) 24) in G. apply FLT_format_generic in G; [|reflexivity]. destruct G as [[m e] -> G1 G2]. cbn in G1, G2.
  change fexp64 with (FLT_exp (-1074) 53). apply generic_format_FLT. exists (Float radix2 (m * k) (e - 2)); cbn [Fnum Fexp].
  - unfold F2R. cbn [Fnum Fexp]. rewrite mult_IZR. replace (bpow radix2 e) with (bpow radix2 (e - 2) * 4).
    + field.
    + replace e with ((e - 2) + 2)%Z at 2 by ring. rewrite bpow_plus. reflexivity.
  - change (Zpower radix2 53) with (2^53)%Z. change (Z.pow_pos 2 24) with (2^24)%Z in G1. rewrite Z.abs_mul. nia.
  - lia.
Qed.
Lemma fmt_quarter1 k : (0 <= k <= 4)%Z -> generic_format radix2 fexp64 (IZR k / 4).
Proof.
  intros K. replace (IZR k / 4) with (1 * (IZR k / 4)) by ring. apply fmt_quarter; [|exact K]. apply (fmt32_Z 1). lia.
Qed.
Lemma fmt_quarters n : (0 <= n < 2^53)%Z -> generic_format radix2 fexp64 (IZR n / 4).
Proof.
  intros N. change fexp64 with (FLT_exp (-1074) 53). apply generic_format_FLT. exists (Float radix2 n (-2)); cbn [Fnum Fexp].
  - unfold F2R. cbn. field.
  - change (Zpower radix2 53) with (2^53)%Z. lia.
  - lia.
Qed.
Lemma dval_v x r : dval x r -> dv x r.
Proof. intros (A & _ & B). split; assumption. Qed.

Lemma fraction_v n : (0 <= n < 2^53)%Z ->
  dv (dsub (ddiv (f64_of_Z n) (f64_of_Z 4)) (f64_of_Z (n / 4))) (IZR (n mod 4) / 4).
Proof.
  intros N. assert (N0 : 0 <= IZR n) by (apply IZR_le; lia). assert (NB : IZR n <= IZR (2^53)) by (apply IZR_le; lia).
  assert (BB : IZR (2^53) <= bpow radix2 1023). { rewrite <- (bpow_IZR 53) by lia. apply bpow_le. lia. }
  pose proof (ddiv_val _ _ _ _ (f64_of_Z_exact n ltac:(lia)) (f64_of_Z_exact 4 ltac:(lia)) ltac:(lra) ltac:(lra)) as D.
  rewrite (rnd64_id _ (fmt_quarters n N)) in D.
  assert (Q : (0 <= n / 4 <= n)%Z). { split; [apply Z.div_pos; lia|]. apply Z.div_le_upper_bound; lia. }
  assert (EQ : IZR n / 4 - IZR (n / 4) = IZR (n mod 4) / 4).
  { rewrite (Z.div_mod n 4) at 1 by lia. rewrite plus_IZR, mult_IZR. field. }
  assert (M : 0 <= IZR (n mod 4) / 4 <= 1). { pose proof (Z.mod_pos_bound n 4 ltac:(lia)). assert (0 <= IZR (n mod 4) <= 4) by (split; apply IZR_le; lia). lra. }
  pose proof (dsub_v _ _ _ _ (dval_v _ _ D) (dval_v _ _ (f64_of_Z_exact (n / 4) ltac:(lia)))) as S. rewrite EQ in S.
  rewrite <- (rnd64_id (IZR (n mod 4) / 4)). { apply S. rewrite Rabs_pos_eq by lra. pose proof big1023. lra. }
  apply fmt_quarter1. pose proof (Z.mod_pos_bound n 4 ltac:(lia)). lia.
Qed.

(** a quartile lies between the two entries it is interpolated from *)
Lemma quartile_v c c1 a b n : (0 <= n < 2^53)%Z -> fv c a -> fv c1 b -> b <= a -> -1 <= b -> a <= 1 ->
  exists q, fv (quartile c c1 n) q /\ b <= q <= a.
Proof.
  intros N C C1 LE LB UB. set (k := (n mod 4)%Z). assert (K : (0 <= k < 4)%Z) by (unfold k; apply Z.mod_pos_bound; lia).
  pose proof (fraction_v n N) as F. fold k in F. unfold quartile. set (frac := dsub _ _) in *.
  assert (KR : 0 <= IZR k <= 3) by (split; apply IZR_le; lia). pose proof big1023 as BG. pose proof big127 as BG2.
  assert (FA := fv_fmt _ _ C). assert (FB := fv_fmt _ _ C1).
  assert (PA : Rabs (a * (IZR k / 4)) <= 1). { rewrite Rabs_mult, (Rabs_pos_eq (IZR k / 4)) by lra. assert (Rabs a <= 1) by (apply Rabs_le; lra). pose proof (Rabs_pos a). nra. }
  pose proof (dmul_v _ _ _ _ (f64_of_f32_v _ _ C) F ltac:(lra)) as M1. rewrite (rnd64_id _ (fmt_quarter a k FA ltac:(lia))) in M1.
  pose proof (dsub_v _ _ _ _ (dval_v _ _ (f64_of_Z_exact 1 ltac:(lia))) F ltac:(rewrite Rabs_pos_eq; lra)) as S.
  replace (1 - IZR k / 4) with (IZR (4 - k) / 4) in S by (rewrite minus_IZR; field).
  rewrite (rnd64_id _ (fmt_quarter1 (4 - k) ltac:(lia))) in S.
  assert (K4 : IZR (4 - k) = 4 - IZR k) by (rewrite minus_IZR; reflexivity).
  assert (PB : Rabs (b * (IZR (4 - k) / 4)) <= 1). { rewrite Rabs_mult, (Rabs_pos_eq (IZR (4 - k) / 4)) by lra. assert (Rabs b <= 1) by (apply Rabs_le; lra). pose proof (Rabs_pos b). nra. }
  pose proof (dmul_v _ _ _ _ (f64_of_f32_v _ _ C1) S ltac:(lra)) as M2. rewrite (rnd64_id _ (fmt_quarter b (4 - k) FB ltac:(lia))) in M2.
  set (x := a * (IZR k / 4) + b * (IZR (4 - k) / 4)). assert (X : b <= x <= a) by (unfold x; rewrite K4; nra).
  assert (XA : Rabs x <= 1) by (apply Rabs_le; lra).
  pose proof (dadd_v _ _ _ _ M1 M2 ltac:(fold x; lra)) as A. fold x in A.
  assert (XR : b <= rnd64 x <= a). { rewrite <- (rnd64_id b (fmt32_64 b FB)), <- (rnd64_id a (fmt32_64 a FA)). split; apply rnd64_le; apply X. }
  assert (XRA : Rabs (rnd64 x) <= 1) by (apply Rabs_le; lra).
  exists (rnd32 (rnd64 x)). split; [apply f32_of_f64_v; [exact A|lra]|].
  rewrite <- (rnd32_id b FB) at 1. rewrite <- (rnd32_id a FA) at 1. split; apply rnd32_le; apply XR.
Qed.

(** ** Fences *)
Lemma fence_v k hq lq h l : (0 <= k <= 6)%Z -> fv hq h -> fv lq l -> h <= l -> -1 <= h -> l <= 1 ->
  exists i, fv (fadd (fmul (f32_of_Z k) (fsub hq lq)) hq) i /\ i <= h.
Proof.
  intros K H L LE B1 B2. pose proof big127 as BG. pose proof (fsub_v _ _ _ _ H L ltac:(apply Rabs_le; lra)) as S.
  assert (R2 : -2 <= rnd32 (h - l) <= 0).
  { split; [rewrite <- (rnd32_Z (-2)) by lia|rewrite <- rnd32_0]; apply rnd32_le; lra. }
  assert (KF : fv (f32_of_Z k) (IZR k)). { destruct (f32_of_Z_exact k ltac:(lia)) as (A & _ & B). split; assumption. }
  assert (KR : 0 <= IZR k <= 6) by (split; apply IZR_le; lia).
  pose proof (fmul_v _ _ _ _ KF S ltac:(apply Rabs_le; nra)) as M.
  assert (R3 : -12 <= rnd32 (IZR k * rnd32 (h - l)) <= 0).
  { split; [rewrite <- (rnd32_Z (-12)) by lia|rewrite <- rnd32_0]; apply rnd32_le; nra. }
  pose proof (fadd_v _ _ _ _ M H ltac:(apply Rabs_le; lra)) as A. eexists. split; [exact A|].
  apply Rle_trans with (rnd32 h); [apply rnd32_le; lra|]. rewrite (rnd32_id h (fv_fmt _ _ H)). apply Rle_refl.
Qed.

Lemma below_stop bound r l : flt (r_conf r) bound = false -> below bound (r :: l) = ([], r :: l).
Proof. intros F. cbn. rewrite F. reflexivity. Qed.
Lemma sorted_at (l : list rdres) : StronglySorted (fun a b => conf_real b <= conf_real a) l ->
  forall i j d, (0 <= i <= j)%Z -> (j < zlen l)%Z -> conf_real (at_ d l j) <= conf_real (at_ d l i).
Proof.
  induction 1 as [|a l S IH F]; intros i j d I J; [change (zlen []) with 0%Z in J; lia|].
  unfold at_ in *. destruct (Z.eq_dec j i) as [->|N]; [apply Rle_refl|].
  rewrite zlen_cons in J.
  replace (Z.to_nat j) with (Datatypes.S (Z.to_nat (j - 1))) by lia.
  destruct (Z.eq_dec i 0) as [->|NI].
  - cbn [Z.to_nat nth]. rewrite Forall_forall in F. apply F. apply nth_In. unfold zlen in J. lia.
  - replace (Z.to_nat i) with (Datatypes.S (Z.to_nat (i - 1))) by lia. cbn [nth]. apply IH; lia.
Qed.

Definition confident (r : rdres) : Prop := ffinite (r_conf r) = true /\ -1 <= conf_real r <= 1.

Lemma conf_at_ok rw i d : (0 <= i < zlen rw)%Z -> conf_at rw i = Ok (r_conf (at_ d rw i)).
Proof. intros I. unfold conf_at. rewrite (get_at d) by exact I. reflexivity. Qed.

Lemma statres_safe rw : rw <> [] -> (zlen rw <= SIZE_MAX)%Z -> exists st, statres rw (zlen rw - 1) = Ok st.
Proof.
  intros NE B. unfold SIZE_MAX in B. assert (L : (1 <= zlen rw)%Z) by (destruct rw; [elim NE; reflexivity|rewrite zlen_cons; pose proof (zlen_nonneg rw); lia]).
  set (n := (zlen rw - 1)%Z). assert (N : (0 <= n)%Z) by (unfold n; lia). destruct rw as [|d rw']; [elim NE; reflexivity|]. set (rw := d :: rw') in *.
  assert (W1 : wrap (n + 1) = (n + 1)%Z) by (apply wrap_small; unfold n; lia).
  assert (W3 : (0 <= wrap (n * 3) <= n * 3)%Z). { unfold wrap. split; [apply Z.mod_pos_bound; lia|apply Z.mod_le; lia]. }
  assert (W4 : (0 <= wrap ((n + 1) * 3) <= (n + 1) * 3)%Z). { unfold wrap. split; [apply Z.mod_pos_bound; lia|apply Z.mod_le; lia]. }
  unfold statres. rewrite W1.
  assert (I : forall a, (0 <= a)%Z -> (a <= n)%Z -> conf_at rw a = Ok (r_conf (at_ d rw a))) by (intros a A1 A2; apply conf_at_ok; unfold n in A2; lia).
  rewrite (I (n / 2)%Z) by (try (apply Z.div_pos; lia); apply Z.div_le_upper_bound; lia). cbn [bind].
  rewrite (I ((n + 1) / 2)%Z) by (try (apply Z.div_pos; lia); apply Z.lt_succ_r, Z.div_lt_upper_bound; lia). cbn [bind].
  rewrite (I (n / 4)%Z) by (try (apply Z.div_pos; lia); apply Z.div_le_upper_bound; lia). cbn [bind].
  rewrite (I ((n + 1) / 4)%Z) by (try (apply Z.div_pos; lia); apply Z.lt_succ_r, Z.div_lt_upper_bound; lia). cbn [bind].
  rewrite (I (wrap (n * 3) / 4)%Z) by (try (apply Z.div_pos; lia); apply Z.div_le_upper_bound; lia). cbn [bind].
  rewrite (I (wrap ((n + 1) * 3) / 4)%Z) by (try (apply Z.div_pos; lia); apply Z.lt_succ_r, Z.div_lt_upper_bound; lia). cbn [bind].
  replace ((0 <=? n)%Z && (n <=? zlen rw)%Z)%bool with true by (unfold n in *; lia).
  destruct (below _ (firstn _ _)) as [x l]. destruct (below _ l) as [y l2]. eexists. reflexivity.
Qed.

(** In non-increasing order of confidence all entries but the last are called extreme. *)
Lemma statres_sorted rw : rw <> [] -> (zlen rw < 2^50)%Z -> StronglySorted (fun a b => conf_real b <= conf_real a) rw -> Forall confident rw ->
  exists st, statres rw (zlen rw - 1) = Ok st /\ st_mild st = [] /\ st_extreme st = removelast rw.
Proof.
  intros NE B S C. assert (L : (1 <= zlen rw)%Z) by (destruct rw; [elim NE; reflexivity|rewrite zlen_cons; pose proof (zlen_nonneg rw); lia]).
  set (n := (zlen rw - 1)%Z). assert (N : (0 <= n < 2^50)%Z) by (unfold n; lia). destruct rw as [|d rw']; [elim NE; reflexivity|]. set (rw := d :: rw') in *.
  assert (W1 : wrap (n + 1) = (n + 1)%Z) by (apply wrap_small; lia).
  assert (W3 : wrap (n * 3) = (n * 3)%Z) by (apply wrap_small; lia).
  assert (W4 : wrap ((n + 1) * 3) = ((n + 1) * 3)%Z) by (apply wrap_small; lia).
  unfold statres. rewrite W1, W3, W4.
  assert (I : forall a, (0 <= a)%Z -> (a <= n)%Z -> conf_at rw a = Ok (r_conf (at_ d rw a))) by (intros a A1 A2; apply conf_at_ok; unfold n in A2; lia).
  assert (V : forall a, (0 <= a)%Z -> (a <= n)%Z -> fv (r_conf (at_ d rw a)) (conf_real (at_ d rw a)) /\ -1 <= conf_real (at_ d rw a) <= 1).
  { intros a A1 A2. rewrite Forall_forall in C. destruct (C (at_ d rw a)) as (C1 & C2). { apply nth_In. unfold n, zlen in A2. lia. }
    split; [split; [exact C1|reflexivity]|exact C2]. }
  assert (I1 : (0 <= n / 4 <= n)%Z) by (split; [apply Z.div_pos; lia|apply Z.div_le_upper_bound; lia]).
  assert (I2 : (n / 4 <= (n + 1) / 4 <= n)%Z) by (split; [apply Z.div_le_mono; lia|apply Z.lt_succ_r, Z.div_lt_upper_bound; lia]).
  assert (I3 : ((n + 1) / 4 <= n * 3 / 4 <= n)%Z).
  { split; [|apply Z.div_le_upper_bound; lia]. destruct (Z.eq_dec n 0) as [->|]; [reflexivity|]. apply Z.div_le_mono; lia. }
  assert (I4 : (n * 3 / 4 <= (n + 1) * 3 / 4 <= n)%Z) by (split; [apply Z.div_le_mono; lia|apply Z.lt_succ_r, Z.div_lt_upper_bound; lia]).
  rewrite (I (n / 2)%Z) by (try (apply Z.div_pos; lia); apply Z.div_le_upper_bound; lia). cbn [bind].
  rewrite (I ((n + 1) / 2)%Z) by (try (apply Z.div_pos; lia); apply Z.lt_succ_r, Z.div_lt_upper_bound; lia). cbn [bind].
  rewrite (I (n / 4)%Z) by lia. cbn [bind]. rewrite (I ((n + 1) / 4)%Z) by lia. cbn [bind].
  rewrite (I (n * 3 / 4)%Z) by lia. cbn [bind]. rewrite (I ((n + 1) * 3 / 4)%Z) by lia. cbn [bind].
  destruct (V (n / 4)%Z) as (V1 & B1); try lia. destruct (V ((n + 1) / 4)%Z) as (V2 & B2); try lia.
  destruct (V (n * 3 / 4)%Z) as (V3 & B3); try lia. destruct (V ((n + 1) * 3 / 4)%Z) as (V4 & B4); try lia.
  pose proof (sorted_at rw S (n / 4) ((n + 1) / 4) d ltac:(lia) ltac:(unfold n in *; lia)) as S12.
  pose proof (sorted_at rw S ((n + 1) / 4) (n * 3 / 4) d ltac:(lia) ltac:(unfold n in *; lia)) as S23.
  pose proof (sorted_at rw S (n * 3 / 4) ((n + 1) * 3 / 4) d ltac:(lia) ltac:(unfold n in *; lia)) as S34.
  pose proof (sorted_at rw S 0 (n * 3 / 4) d ltac:(lia) ltac:(unfold n in *; lia)) as S03.
  destruct (quartile_v _ _ _ _ n ltac:(lia) V1 V2 S12 ltac:(lra) ltac:(lra)) as (lq & LQ & LB).
  destruct (quartile_v _ _ _ _ (n * 3) ltac:(lia) V3 V4 S34 ltac:(lra) ltac:(lra)) as (hq & HQ & HB).
  destruct (fence_v 3 _ _ _ _ ltac:(lia) HQ LQ ltac:(lra) ltac:(lra) ltac:(lra)) as (inner & IN & INB).
  destruct (fence_v 6 _ _ _ _ ltac:(lia) HQ LQ ltac:(lra) ltac:(lra) ltac:(lra)) as (outer & OUT & OUTB).
  replace ((0 <=? n)%Z && (n <=? zlen rw)%Z)%bool with true by (unfold n in *; lia).
  assert (FL : forall x r, fv x r -> r <= conf_real d -> flt (r_conf d) x = false).
  { intros x r (X1 & X2) LE. destruct (flt (r_conf d) x) eqn:Q; [|reflexivity].
    destruct (V 0%Z ltac:(lia) ltac:(lia)) as ((VF & _) & _). apply flt_spec in Q; [|exact VF|exact X1]. unfold conf_real in LE. rewrite X2 in Q. lra. }
  change (at_ d rw 0) with d in S03.
  assert (RL : firstn (Z.to_nat n) rw = removelast rw). { rewrite removelast_firstn_len. f_equal. clear -L. unfold n, zlen in *. lia. }
  rewrite RL. destruct (removelast rw) as [|r t] eqn:ER; [cbn; eexists; split; [reflexivity|split; reflexivity]|].
  assert (r = d). { unfold rw in ER. destruct rw'; cbn in ER; [discriminate|]. inversion ER. reflexivity. } subst r.
  rewrite below_stop by (eapply FL; [exact IN|lra]). rewrite below_stop by (eapply FL; [exact OUT|lra]).
  eexists. split; [reflexivity|]. split; reflexivity.
Qed.

(** In the opposite order the lists are what their titles say. *)
Lemma below_ascending bound l : StronglySorted (fun a b => conf_real a <= conf_real b) l -> Forall confident l -> ffinite bound = true ->
  below bound l = (filter (fun r => flt (r_conf r) bound) l, filter (fun r => negb (flt (r_conf r) bound)) l).
Proof.
  intros S C FB. induction S as [|a l S IH F]; [reflexivity|]. inversion C as [|? ? CA CL]; subst. cbn [below filter].
  destruct (flt (r_conf a) bound) eqn:Q.
  - rewrite (IH CL). reflexivity.
  - cbn [negb]. assert (G : forall r, In r l -> flt (r_conf r) bound = false).
    { intros r I. rewrite Forall_forall in F, CL. specialize (F r I). destruct (CL r I) as (CF & _). destruct (flt (r_conf r) bound) eqn:X; [|reflexivity].
      apply flt_spec in X; [|exact CF|exact FB]. rewrite <- Q. symmetry. apply flt_spec; [apply CA|exact FB|]. unfold conf_real in F. lra. }
    clear -G. f_equal; [|f_equal]; induction l as [|b l IH]; cbn [filter]; try reflexivity; rewrite (G b) by (left; reflexivity); cbn [negb]; rewrite <- IH by (intros; apply G; right; assumption); reflexivity.
Qed.
