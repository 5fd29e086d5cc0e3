(** Each detection method of Methods.v computes the ratios of SpecAnalysis.v. *)
From Coq Require Import Reals Lra.
From Flocq Require Import Core IEEE754.BinarySingleNaN IEEE754.Binary IEEE754.Bits.
From Verif Require Import Base Flt Util Methods Spec SpecAnalysis BaseProofs FltProofs.
Open Scope Z_scope.

(** ** Counting loops *)
Lemma count_if_small sm c b : 0 <= c -> c + 1 < sm -> count_if sm c b = c + (if b then 1 else 0).
Proof. intros. unfold count_if. apply Z.mod_small. destruct b; lia. Qed.

Lemma for_count sm (P : Z -> bool) body lo hi acc :
  (forall i acc, lo <= i < hi -> body i acc = Ok (count_if sm acc (P i))) ->
  0 <= acc -> acc + Z.max 0 (hi - lo) < sm ->
  for_range lo hi body acc = Ok (acc + how_many P lo hi).
Proof.
  intros Hb. remember (Z.to_nat (hi - lo)) as k eqn:Hk. revert lo acc Hb Hk.
  induction k as [|k IH]; intros lo acc Hb Hk Ha Hs.
  - rewrite for_range_empty by lia. rewrite how_many_empty by lia. f_equal; lia.
  - rewrite for_range_step by lia. rewrite Hb by lia. cbn [bind].
    rewrite count_if_small by lia.
    rewrite how_many_step by lia.
    rewrite IH; try lia.
    + f_equal; lia.
    + intros i a Hi. apply Hb. lia.
    + destruct (P lo); lia.
    + destruct (P lo); lia.
Qed.

Lemma for_count2 sm (P : Z -> Z -> bool) (body : Z -> Z -> Z -> res Z) n range :
  0 <= n -> 0 <= range -> n * range < sm ->
  (forall y i acc, 0 <= y < n -> 1 <= i <= range -> body y i acc = Ok (count_if sm acc (P y i))) ->
  for_range 0 n (fun y acc => for_range 1 (range + 1) (body y) acc) 0 = Ok (how_many_pairs P n range).
Proof.
  intros Hn Hr Hs Hb.
  assert (G : forall k lo acc, lo + Z.of_nat k = n -> 0 <= lo -> 0 <= acc <= lo * range ->
     for_range lo n (fun y acc => for_range 1 (range + 1) (body y) acc) acc =
     Ok (acc + Z.of_nat (List.length (filter (fun p => P (fst p) (snd p))
            (list_prod (zrange lo n) (zrange 1 (range + 1))))))).
  { induction k as [|k IH]; intros lo acc Hlo H0 Ha.
    - rewrite for_range_empty by lia. rewrite (zrange_empty lo n) by lia. simpl. f_equal; lia.
    - rewrite for_range_step by lia.
      rewrite (for_count sm (P lo)).
      + cbn [bind].
        rewrite (zrange_cons lo n) by lia. rewrite filter_list_prod_cons.
        rewrite IH; try lia.
        * f_equal. unfold how_many. lia.
        * pose proof (how_many_bounds (P lo) 1 (range + 1)). nia.
      + intros i a Hi. apply Hb; lia.
      + lia.
      + nia. }
  rewrite (G (Z.to_nat n) 0 0) by lia. reflexivity.
Qed.

(** ** Addressing *)
Lemma geom_get f n stride dist D y x k : geometry f n stride dist D ->
  0 <= y < n -> 0 <= x < d_len D -> k = y * stride + x * dist ->
  get f (wrap k) = Ok (d_coef D y x).
Proof.
  intros G Hy Hx ->. pose proof (g_in _ _ _ _ _ G y x Hy Hx). pose proof (g_size _ _ _ _ _ G).
  fold (zlen f) in *.
  rewrite wrap_small by lia. rewrite (get_at f0) by lia.
  rewrite (g_coef _ _ _ _ _ G) by assumption. reflexivity.
Qed.

Lemma sign_differs_xorb a b : sign_differs a b = xorb (fsign a) (fsign b).
Proof. unfold sign_differs. destruct (fsign a), (fsign b); reflexivity. Qed.

Lemma count_sign_ok sm f n stride dist D range x :
  geometry f n stride dist D -> 0 <= range -> range <= x -> x + range < d_len D ->
  n * range < sm ->
  count_sign sm f n stride dist range x = Ok (inverted_pairs D range x).
Proof.
  intros G Hr Hx Hx' Hs. unfold count_sign, inverted_pairs. rewrite (g_n _ _ _ _ _ G).
  pose proof (g_lines _ _ _ _ _ G).
  apply (for_count2 sm); try lia. intros y i acc Hy Hi.
  rewrite (geom_get f n stride dist D y (x - i)) by (assumption || lia || ring).
  cbn [bind].
  rewrite (geom_get f n stride dist D y (x + i)) by (assumption || lia || ring).
  cbn [bind]. rewrite sign_differs_xorb. reflexivity.
Qed.

Lemma count_mag_ok special sp sm f n stride dist D range x :
  (forall a b, mag_matches special a b = opposite_magnitude sp a b) ->
  geometry f n stride dist D -> 0 <= range -> range <= x -> x + range < d_len D ->
  n * range < sm ->
  count_mag special sm f n stride dist range x = Ok (matching_pairs sp D range x).
Proof.
  intros HM G Hr Hx Hx' Hs. unfold count_mag, matching_pairs. rewrite (g_n _ _ _ _ _ G).
  pose proof (g_lines _ _ _ _ _ G).
  apply (for_count2 sm); try lia. intros y i acc Hy Hi.
  rewrite (geom_get f n stride dist D y (x - i)) by (assumption || lia || ring).
  cbn [bind].
  rewrite (geom_get f n stride dist D y (x + i)) by (assumption || lia || ring).
  cbn [bind]. rewrite HM. reflexivity.
Qed.

(** ** The magnitude criterion *)
Lemma clamped_ok b :
  let ab := f64_of_f32 (fabsf b) in
  fcopysign (f32_of_f64 (if dgt ab DBL_EPSILON then ab else DBL_EPSILON)) b = clamped b.
Proof.
  cbv zeta. unfold clamped, eps32.
  destruct (ffinite b) eqn:F.
  - assert (FA := fabsf_finite b F). destruct FA as (FA & EA).
    destruct (f64_of_f32_finite _ FA) as (FD & ED & SD).
    destruct DBL_EPSILON_fin as (FE & EE). destruct f32_of_f64_eps as (Fe & Ee).
    assert (Q : dgt (f64_of_f32 (fabsf b)) DBL_EPSILON = fgt (fabsf b) (f32_of_f64 DBL_EPSILON)).
    { rewrite dgt_dlt, fgt_flt. apply Bool.eq_iff_eq_true.
      rewrite dlt_spec, flt_spec by assumption. rewrite ED, EE, Ee. reflexivity. }
    rewrite Q. destruct (fgt (fabsf b) (f32_of_f64 DBL_EPSILON)); [|reflexivity].
    rewrite f32_f64_roundtrip by exact FA. apply fcopysign_abs.
    destruct b; simpl in F; try discriminate; reflexivity.
  - destruct b as [s|s|s pl H|s m e H]; try discriminate; reflexivity.
Qed.

Lemma mag_matches_ok special a b :
  mag_matches special a b = opposite_magnitude (special <=? 0) a b.
Proof.
  unfold mag_matches, opposite_magnitude. pose proof (clamped_ok b) as C. cbv zeta in C.
  rewrite C. set (s := fadd (fdiv a (clamped b)) (f32_of_Z 1)). cbv zeta.
  destruct (ffinite s) eqn:F.
  - destruct (f64_of_f32_finite s F) as (FD & ED & _).
    destruct (fabsf_finite s F) as (FA & EA).
    destruct (f32_of_Z_exact 1 ltac:(lia)) as (F1 & _ & E1).
    apply Bool.eq_iff_eq_true. rewrite frexp_exp_spec by exact FD.
    rewrite flt_spec by assumption. rewrite ED, EA, E1. reflexivity.
  - destruct s as [t|t|t pl H|t m e H]; try discriminate; reflexivity.
Qed.

(** ** Zero crossings *)
Lemma count_zerox_ok sm f n stride dist D x :
  geometry f n stride dist D -> 1 <= x -> x + 1 < d_len D -> n < sm ->
  count_zerox sm f n stride dist x = Ok (crossing_lines D x).
Proof.
  intros G Hx Hx' Hs. unfold count_zerox, crossing_lines. rewrite (g_n _ _ _ _ _ G).
  pose proof (g_lines _ _ _ _ _ G).
  rewrite (for_count sm (fun y => crossing (d_coef D y (x - 1)) (d_coef D y x) (d_coef D y (x + 1)))); try lia.
  - f_equal; lia.
  - intros y acc Hy.
    rewrite (geom_get f n stride dist D y (x - 1)) by (assumption || lia || ring). cbn [bind].
    rewrite (geom_get f n stride dist D y x) by (assumption || lia || ring). cbn [bind].
    rewrite (geom_get f n stride dist D y (x + 1)) by (assumption || lia || ring). cbn [bind].
    unfold zero_crosses, crossing. rewrite sign_differs_xorb, !fgt_flt. reflexivity.
Qed.

(** ** Accumulating into the result buffer *)
Lemma add_result_ok result i v : 0 <= i < zlen result ->
  add_result result i v = Ok (upd result (Z.to_nat i) (dadd (at_ d0 result i) v)).
Proof.
  intros H. unfold add_result. rewrite (get_at d0) by exact H. cbn [bind].
  apply set_upd. exact H.
Qed.

(** One pass over the window: position start+i receives [v] when the test holds. *)
Lemma accumulate_ok (t : Z -> bool) (v : Z -> f64) body start end_ result :
  0 <= start <= end_ -> end_ < 2^64 -> zlen result = end_ - start ->
  (forall x r, start <= x < end_ ->
     body x r = if t x then add_result r (wrap (x - start)) (v x) else Ok r) ->
  exists result', for_range start end_ body result = Ok result' /\
     zlen result' = zlen result /\
     forall i, 0 <= i < zlen result ->
      at_ d0 result' i = if t (start + i) then dadd (at_ d0 result i) (v (start + i)) else at_ d0 result i.
Proof.
  intros Hs He Hl Hb.
  destruct (for_range_inv (fun x r => zlen r = zlen result /\
     forall i, 0 <= i < zlen result ->
       at_ d0 r i = if (start + i <? x) && t (start + i)
                    then dadd (at_ d0 result i) (v (start + i)) else at_ d0 result i)
     body start end_ result) as (r & E & L & A).
  - lia.
  - split; [reflexivity|]. intros i Hi. replace (start + i <? start) with false by lia. reflexivity.
  - intros x r Hx (L & A). rewrite Hb by exact Hx. destruct (t x) eqn:T.
    + rewrite wrap_small by lia. rewrite add_result_ok by lia.
      eexists. split; [reflexivity|]. split; [rewrite zlen_upd; exact L|].
      intros i Hi. rewrite at_upd by lia.
      destruct (Z.eqb_spec i (x - start)) as [->|N].
      * replace (start + (x - start)) with x by lia. rewrite T.
        replace (x <? x + 1) with true by lia. cbn [andb].
        rewrite A by lia. replace (start + (x - start) <? x) with false by lia. reflexivity.
      * rewrite A by lia. replace (start + i <? x + 1) with (start + i <? x) by lia. reflexivity.
    + exists r. split; [reflexivity|]. split; [exact L|]. intros i Hi. rewrite A by lia.
      destruct (Z.eq_dec (start + i) x) as [->|N].
      * rewrite T, !andb_false_r. reflexivity.
      * replace (start + i <? x + 1) with (start + i <? x) by lia. reflexivity.
  - exists r. split; [exact E|]. split; [exact L|]. intros i Hi. rewrite A by exact Hi.
    replace (start + i <? end_) with true by lia. reflexivity.
Qed.

(** ** The original method's sums *)
Lemma orig_sums_ok f n stride dist D :
  geometry f n stride dist D -> d_len D < 2^64 ->
  exists sum, orig_sums f (d_len D) n stride dist = Ok sum /\
     zlen sum = d_len D /\ forall x, 0 <= x < d_len D -> at_ d0 sum x = mean_abs D x.
Proof.
  intros G Hl. pose proof (g_len _ _ _ _ _ G) as L0. pose proof (g_lines _ _ _ _ _ G) as N0.
  unfold orig_sums.
  set (part := fun k x => fold_left (fun s y => dadd s (dabs (f64_of_f32 (d_coef D y x)))) (zrange 0 k) d0).
  destruct (for_range_inv (fun y s => zlen s = d_len D /\
     forall x, 0 <= x < d_len D -> at_ d0 s x = part y x)
     (fun y sum => for_range 0 (d_len D) (fun x sum =>
             v <- get f (wrap (y*stride + x*dist)) ;;
             add_result sum x (dabs (f64_of_f32 v))) sum) 0 n (repeat d0 (Z.to_nat (d_len D)))) as (s1 & E1 & L1 & A1).
  - lia.
  - split; [rewrite zlen_repeat; lia|]. intros x Hx. rewrite at_repeat. reflexivity.
  - intros y s Hy (L & A).
    destruct (accumulate_ok (fun _ => true) (fun x => dabs (f64_of_f32 (d_coef D y x)))
       (fun x sum => v <- get f (wrap (y*stride + x*dist)) ;;
             add_result sum x (dabs (f64_of_f32 v))) 0 (d_len D) s) as (s' & E & L' & A'); try lia.
    + intros x r Hx. rewrite (geom_get f n stride dist D y x) by (assumption || lia || ring).
      cbn [bind]. rewrite Z.sub_0_r, wrap_small by lia. reflexivity.
    + exists s'. split; [exact E|]. split; [lia|]. intros x Hx.
      rewrite A' by lia. rewrite A by lia. unfold part.
      rewrite zrange_snoc by lia. rewrite fold_left_app. reflexivity.
  - rewrite E1. cbn [bind].
    destruct (for_range_inv (fun k s => zlen s = d_len D /\
     forall x, 0 <= x < d_len D -> at_ d0 s x = if x <? k then mean_abs D x else part n x)
      (fun x sum => s <- get sum x ;; set sum x (ddiv s (f64_of_Z n))) 0 (d_len D) s1) as (s2 & E2 & L2 & A2).
    + lia.
    + split; [exact L1|]. intros x Hx. replace (x <? 0) with false by lia. apply A1. exact Hx.
    + intros x s Hx (L & A). rewrite (get_at d0) by lia. cbn [bind]. rewrite set_upd by lia.
      eexists. split; [reflexivity|]. split; [rewrite zlen_upd; exact L|].
      intros i Hi. rewrite at_upd by lia. destruct (Z.eqb_spec i x) as [->|N].
      * replace (x <? x + 1) with true by lia. rewrite A by lia.
        replace (x <? x) with false by lia. unfold mean_abs, part. rewrite (g_n _ _ _ _ _ G). reflexivity.
      * rewrite A by lia. replace (i <? x + 1) with (i <? x) by lia. reflexivity.
    + exists s2. split; [exact E2|]. split; [exact L2|]. intros x Hx. rewrite A2 by exact Hx.
      replace (x <? d_len D) with true by lia. reflexivity.
Qed.

Lemma orig_test_ok D sum range x :
  zlen sum = d_len D -> d_len D < 2^64 ->
  (forall x, 0 <= x < d_len D -> at_ d0 sum x = mean_abs D x) ->
  0 <= range -> range <= x -> x + range < d_len D ->
  orig_test sum range x = Ok (dip D range x).
Proof.
  intros L Hl A Hr Hx Hx'. unfold orig_test.
  rewrite (get_at d0) by lia. cbn [bind]. rewrite A by lia.
  rewrite (for_range_fold (fun i '(l, r) => (dadd l (mean_abs D (x + (-1) * i)), dadd r (mean_abs D (x + 1 * i))))).
  - assert (F : forall l a b, fold_left (fun s j => let '(l, r) := s in
        (dadd l (mean_abs D (x + -1 * j)), dadd r (mean_abs D (x + 1 * j)))) l (a, b) =
        (fold_left (fun s i => dadd s (mean_abs D (x + -1 * i))) l a,
         fold_left (fun s i => dadd s (mean_abs D (x + 1 * i))) l b)).
    { induction l as [|h t IH]; intros a b; simpl fold_left; [reflexivity|]. apply IH. }
    rewrite F. reflexivity.
  - intros i [l r] Hi. rewrite wrap_small by lia. rewrite (get_at d0) by lia. cbn [bind].
    rewrite wrap_small by lia. rewrite (get_at d0) by lia. cbn [bind].
    rewrite !A by lia. do 4 f_equal; lia.
Qed.

(** ** All methods *)
Definition criterion_of (c : config) (m : method) : criterion :=
  match m with
  | Msign => Sign
  | Mmag => Magnitude (c_frexp_special c <=? 0)
  | Morig => Original
  | Mzerox => ZeroCrossing
  end.

(** the world after one allocation request that left nothing behind *)
Definition tick (w : world) : world := mkWorld (S (w_count w)) (w_live w) (w_nfile w) (w_files w).

Lemma alloc_free al w : match alloc al w with
  | (Some b, w') => free_block b w' = Ok (tick w)
  | (None, w') => w' = tick w
  end.
Proof.
  unfold alloc. destruct (al (w_count w)); [|reflexivity].
  unfold free_block. cbn [w_live]. rewrite remove1_head. reflexivity.
Qed.

Lemma bpow_big a b e : (a <= IZR (2^e))%R -> 0 <= e <= b -> (a <= bpow radix2 b)%R.
Proof.
  intros H He. eapply Rle_trans; [exact H|]. rewrite <- bpow_IZR by lia. apply bpow_le. lia.
Qed.

Lemma denominator_val n range : 0 < n <= 2^53 -> 0 < range <= 2^53 ->
  dval (dmul (f64_of_Z n) (f64_of_Z range)) (rnd64 (IZR (n * range))).
Proof.
  intros Hn Hr. rewrite mult_IZR. apply dmul_val.
  - apply f64_of_Z_exact. lia.
  - apply f64_of_Z_exact. lia.
  - rewrite <- mult_IZR. apply (bpow_big _ _ 106); [|lia]. apply IZR_le.
    change (2^106) with (2^53 * 2^53). nia.
Qed.

Lemma rnd64_pos z : 1 <= z -> (1 <= rnd64 (IZR z))%R.
Proof. intros H. rewrite <- rnd64_1. apply rnd64_le. apply IZR_le. lia. Qed.

(** every ratio is a number between 0 and 1 *)
Lemma quotient_val k d : 0 <= k <= d -> 1 <= d -> forall y, dval y (rnd64 (IZR d)) -> d <= 2^106 ->
  k <= 2^64 ->
  dval (ddiv (f64_of_Z k) y) (rnd64 (rnd64 (IZR k) / rnd64 (IZR d))) /\
  (rnd64 (rnd64 (IZR k) / rnd64 (IZR d)) <= 1)%R.
Proof.
  intros Hk Hd y Hy Hd2 Hk2.
  pose proof (rnd64_pos d Hd) as P.
  assert (Q : (rnd64 (IZR k) / rnd64 (IZR d) <= 1)%R).
  { apply Rmult_le_reg_r with (rnd64 (IZR d)); [lra|].
    unfold Rdiv. rewrite Rmult_assoc, Rinv_l, Rmult_1_r, Rmult_1_l by lra.
    apply rnd64_le. apply IZR_le. lia. }
  split.
  - apply ddiv_val; [apply f64_of_Z_val; lia|exact Hy|lra|].
    apply (bpow_big _ _ 0); [exact Q|lia].
  - rewrite <- rnd64_1. apply rnd64_le. exact Q.
Qed.

Lemma zero_quotient y d : dval y d -> (0 < d)%R -> ddiv (f64_of_Z 0) y = d0.
Proof.
  intros Hy Hd. eapply dval_inj; [|apply d0_val].
  assert (V := ddiv_val (f64_of_Z 0) y 0 d (f64_of_Z_exact 0 ltac:(lia)) Hy Hd).
  replace (rnd64 (0 / d)) with 0%R in V.
  - apply V. unfold Rdiv. rewrite Rmult_0_l. apply bpow_ge_0.
  - unfold Rdiv. rewrite Rmult_0_l. symmetry. apply rnd64_0.
Qed.

Lemma dmul_comm_Z n range : 0 < n <= 2^53 -> 0 < range <= 2^53 ->
  dmul (f64_of_Z range) (f64_of_Z n) = dmul (f64_of_Z n) (f64_of_Z range).
Proof.
  intros Hn Hr. eapply dval_inj; [apply denominator_val; lia|].
  rewrite Z.mul_comm. apply denominator_val; lia.
Qed.

Section RunMethod.
Variables (c : config) (al : oracle) (m : method) (f : list f32)
          (n stride dist range : Z) (D : dim) (result : list f64).
Hypothesis G : geometry f n stride dist D.
Hypothesis Hlen : d_len D < 2^64.
Hypothesis Hrange : 1 <= range.
Hypothesis Hwin : 2 * range < d_len D.
Hypothesis Hsm : n * range < storage_mod c.
Hypothesis Hn : n <= 2^53.
Hypothesis Hr : range <= 2^53.
Hypothesis Hzerox : m = Mzerox -> range = 1.
Hypothesis Hres : zlen result = d_len D - 2 * range.

Definition accumulated (result' : list f64) : Prop :=
  zlen result' = zlen result /\
  forall i, 0 <= i < zlen result ->
    at_ d0 result' i = dadd (at_ d0 result i) (ratio (criterion_of c m) D range (range + i)).

Lemma run_method_ok w :
  (m = Morig -> forall i, 0 <= i < zlen result -> exists r, dval (at_ d0 result i) r) ->
  exists e result' w',
    run_method c al w m f (d_len D) n stride dist range result (range, d_len D - range) =
      Ok (e, result', (range, d_len D - range), w') /\
    w' = (match m with Morig => tick w | _ => w end) /\
    ((e = RDEOK /\ accumulated result') \/
     (e = RDENOMEM /\ result' = result /\ m = Morig /\ al (w_count w) = false)).
Proof.
  intros Hfin. pose proof (g_lines _ _ _ _ _ G) as N0. pose proof (g_n _ _ _ _ _ G) as GN.
  unfold run_method, accumulated. destruct m eqn:Em.
  - unfold detect_method_sign.
    destruct (accumulate_ok (fun _ => true) (fun x => ratio Sign D range x)
      (fun x result => sign_diff <- count_sign (storage_mod c) f n stride dist range x ;;
         add_result result (wrap (x - range))
           (ddiv (f64_of_Z sign_diff) (dmul (f64_of_Z n) (f64_of_Z range))))
      range (d_len D - range) result) as (r' & E & L & A); try lia.
    + intros x r Hx. rewrite (count_sign_ok _ _ _ _ _ D) by (assumption || lia).
      cbn [bind]. unfold ratio, hits. rewrite GN. reflexivity.
    + rewrite E. cbn [bind]. do 3 eexists. split; [reflexivity|]. split; [reflexivity|].
      left. split; [reflexivity|]. split; [exact L|exact A].
  - unfold detect_method_magnitude.
    destruct (accumulate_ok (fun _ => true) (fun x => ratio (Magnitude (c_frexp_special c <=? 0)) D range x)
      (fun x result => mag_match <- count_mag (c_frexp_special c) (storage_mod c) f n stride dist range x ;;
         add_result result (wrap (x - range))
           (ddiv (f64_of_Z mag_match) (dmul (f64_of_Z n) (f64_of_Z range))))
      range (d_len D - range) result) as (r' & E & L & A); try lia.
    + intros x r Hx. rewrite (count_mag_ok _ (c_frexp_special c <=? 0) _ _ _ _ _ D)
        by (assumption || lia || (intros; apply mag_matches_ok)).
      cbn [bind]. unfold ratio, hits. rewrite GN. reflexivity.
    + rewrite E. cbn [bind]. do 3 eexists. split; [reflexivity|]. split; [reflexivity|].
      left. split; [reflexivity|]. split; [exact L|exact A].
  - unfold detect_method_original.
    replace (wrap (range * 2) >=? d_len D) with false by (rewrite wrap_small; lia).
    pose proof (alloc_free al w) as AF. destruct (alloc al w) as [[blk|] w1] eqn:EA.
    + destruct (orig_sums_ok f n stride dist D G Hlen) as (sum & ES & LS & AS).
      rewrite ES. cbn [bind]. rewrite wrap_small by lia.
      destruct (accumulate_ok (dip D range) (fun x => ratio Original D range x)
        (fun x result => t <- orig_test sum range x ;;
            if t then
              sign <- count_sign (storage_mod c) f n stride dist range x ;;
              add_result result (wrap (x - range))
                (ddiv (f64_of_Z sign) (dmul (f64_of_Z range) (f64_of_Z n)))
            else Ok result)
        range (d_len D - range) result) as (r' & E & L & A); try lia.
      * intros x r Hx. rewrite (orig_test_ok D) by (assumption || lia). cbn [bind].
        destruct (dip D range x) eqn:Edip; [|reflexivity].
        rewrite (count_sign_ok _ _ _ _ _ D) by (assumption || lia). cbn [bind].
        unfold ratio, hits. rewrite Edip, GN, dmul_comm_Z by lia. reflexivity.
      * rewrite E. cbn [bind]. rewrite AF. cbn [bind]. do 3 eexists. split; [reflexivity|].
        split; [reflexivity|]. left. split; [reflexivity|]. split; [exact L|].
        intros i Hi. rewrite A by exact Hi. destruct (dip D range (range + i)) eqn:Edip; [reflexivity|].
        destruct (Hfin eq_refl i Hi) as (v & Hv).
        cbn [criterion_of]. unfold ratio, hits. rewrite Edip.
        rewrite GN.
        rewrite (zero_quotient _ _ (denominator_val n range ltac:(lia) ltac:(lia))).
        -- symmetry. eapply dadd_0_r. exact Hv.
        -- pose proof (rnd64_pos (n * range)). specialize (H ltac:(nia)). lra.
    + do 3 eexists. split; [reflexivity|]. split; [exact AF|]. right.
      repeat split. unfold alloc in EA. destruct (al (w_count w)); [discriminate|reflexivity].
  - unfold detect_method_zerocrossing. rewrite (Hzerox eq_refl) in *.
    assert (H1 : n < storage_mod c) by lia.
    destruct (accumulate_ok (fun _ => true) (fun x => ratio ZeroCrossing D 1 x)
      (fun x result => zc <- count_zerox (storage_mod c) f n stride dist x ;;
         add_result result (wrap (x - 1)) (ddiv (f64_of_Z zc) (f64_of_Z n)))
      1 (d_len D - 1) result) as (r' & E & L & A); try lia.
    + intros x r Hx. rewrite (count_zerox_ok _ _ _ _ _ D) by (assumption || lia).
      cbn [bind]. unfold ratio, hits. rewrite GN. reflexivity.
    + rewrite E. cbn [bind]. do 3 eexists. split; [reflexivity|]. split; [reflexivity|].
      left. split; [reflexivity|]. split; [exact L|exact A].
Qed.
End RunMethod.

(** ** Ratios are numbers between 0 and 1 *)
Lemma hits_bounds c D range x : 0 <= d_lines D -> 0 <= range ->
  0 <= hits c D range x <= match c with ZeroCrossing => d_lines D | _ => d_lines D * range end.
Proof.
  intros Hn Hr. destruct c; unfold hits.
  - apply how_many_pairs_bounds; assumption.
  - apply how_many_pairs_bounds; assumption.
  - destruct (dip D range x); [apply how_many_pairs_bounds; assumption|]. nia.
  - pose proof (how_many_bounds (fun y => crossing (d_coef D y (x - 1)) (d_coef D y x) (d_coef D y (x + 1))) 0 (d_lines D) Hn).
    unfold crossing_lines. lia.
Qed.

Lemma ratio_val c D range x : 0 < d_lines D <= 2^53 -> 0 < range <= 2^53 ->
  d_lines D * range <= 2^64 ->
  exists r, dval (ratio c D range x) r /\ (0 <= r <= 1)%R.
Proof.
  intros Hn Hr Hp. pose proof (hits_bounds c D range x ltac:(lia) ltac:(lia)) as HB.
  assert (Q : forall k d y, 0 <= k <= d -> 1 <= d <= 2^64 -> dval y (rnd64 (IZR d)) ->
     exists r, dval (ddiv (f64_of_Z k) y) r /\ (0 <= r <= 1)%R).
  { intros k d y Hk Hd Hy. destruct (quotient_val k d Hk ltac:(lia) y Hy) as (V & U).
    - apply Z.le_trans with (2^64); [lia|]. apply Z.pow_le_mono_r; lia.
    - lia.
    - eexists. split; [exact V|]. split; [eapply dval_nonneg; exact V|exact U]. }
  unfold ratio. destruct c.
  1-3: apply (Q _ (d_lines D * range)); [lia|nia|apply denominator_val; lia].
  apply (Q _ (d_lines D)); [lia|lia|]. apply f64_of_Z_val. lia.
Qed.
