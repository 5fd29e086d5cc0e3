(** Proofs about the byte counts of Sizes.v. *)
From Coq Require Import ZArith List Bool Lia Psatz.
From Verif Require Import Base Flt Util Methods Analysis Sizes SpecSizes UtilProofs AnalysisProofs.
Import ListNotations.
Open Scope list_scope.
Open Scope Z_scope.

Lemma wr_small P z : 0 <= z < 2 ^ pf_bits P -> wr P z = z.
Proof. intros. unfold wr. apply Z.mod_small. assumption. Qed.

Lemma exceeds_limit_iff P pm w h n t :
  0 <= w -> 0 <= h -> 0 <= n -> 0 < t -> 0 <= pm -> 0 <= pf_bits P ->
  exceeds_limit P pm w h n t = false <->
  1 <= w /\ 1 <= h /\ 1 <= n /\ w * h * n <= pm /\ w * h * n * t < 2 ^ pf_bits P.
Proof.
  intros W H N T PM B. unfold exceeds_limit. rewrite negb_false_iff, !andb_true_iff, !negb_true_iff, !Z.eqb_neq.
  assert (P2 : 0 < 2 ^ pf_bits P) by (apply Z.pow_pos_nonneg; lia).
  split.
  - intros ((((A1 & A2) & A3) & A4) & A5).
    assert (1 <= w /\ 1 <= h /\ 1 <= n) as (W1 & H1 & N1) by lia.
    assert (WH : 0 < w * h) by nia. assert (WHN : 0 < w * h * n) by nia.
    repeat (split; [lia|]).
    rewrite !Z.div_div in A4 by nia. rewrite !Z.div_div in A5 by nia. rewrite !Z.mul_assoc in A4, A5.
    split.
    + destruct (Z_le_gt_dec (w * h * n) pm); [assumption|]. exfalso. apply A4. apply Z.div_small. lia.
    + unfold size_max in *. destruct (Z_le_gt_dec (w * h * n * t) (2 ^ pf_bits P - 1)); [lia|].
      exfalso. apply A5. apply Z.div_small. lia.
  - intros (W1 & H1 & N1 & L1 & L2).
    assert (WH : 0 < w * h) by nia. assert (WHN : 0 < w * h * n) by nia. assert (0 < w * h * n * t) by nia.
    rewrite !Z.div_div by nia. rewrite !Z.mul_assoc.
    repeat split; try lia.
    + assert (1 <= pm / (w * h * n)); [|lia]. apply Z.div_le_lower_bound; lia.
    + assert (1 <= size_max P / (w * h * n * t)); [|lia]. apply Z.div_le_lower_bound; unfold size_max; lia.
Qed.

Lemma exceeds_limit_64 c P w h n t : pf_bits P = 64 ->
  0 <= w -> 0 <= h -> 0 <= n -> 0 < t -> 0 <= c_pixel_max c ->
  dims_exceed_limit c w h n t = Ok (exceeds_limit P (c_pixel_max c) w h n t).
Proof.
  intros B W H N T PM. destruct (dims_limit_ok c w h n t W H N T PM) as (b & -> & I). f_equal.
  pose proof (exceeds_limit_iff P (c_pixel_max c) w h n t W H N T PM ltac:(lia)) as J.
  rewrite B in J. unfold SIZE_MAX in I.
  destruct b, (exceeds_limit P (c_pixel_max c) w h n t); try reflexivity; exfalso.
  - assert (true = false); [|discriminate]. apply I. destruct J as [J _]. specialize (J eq_refl). lia.
  - assert (true = false); [|discriminate]. apply J. destruct I as [I _]. specialize (I eq_refl). lia.
Qed.

Lemma quot_three n : 0 <= n -> Z.quot (n * 3) 2 = n + n / 2.
Proof. intros. rewrite Z.quot_div_nonneg by lia. replace (n * 3) with (n + n * 2) by lia.
  rewrite Z.div_add by lia. lia. Qed.

(** ** One FFT block *)
Lemma fftr_exact P n : ordinary P -> 1 <= n -> 5 * pf_scalar P * n + 3 * 1024 <= 2 ^ pf_bits P ->
  fftr_request P n = fftr_space P n.
Proof.
  intros (C & _ & _ & _ & _ & R & F & _) N B. unfold fftr_request, fft_request, fftr_space, space, cpx_size.
  assert (D : 0 <= n / 2 <= n) by (split; [apply Z.div_pos; lia|apply Z.div_le_upper_bound; lia]).
  assert (D2 : 2 * (n / 2) <= n) by (apply Z.mul_div_le; lia).
  assert (M : pf_scalar P * (2 * (n / 2)) <= pf_scalar P * n) by (apply Z.mul_le_mono_nonneg_l; lia).
  assert (M0 : 0 <= pf_scalar P * (n / 2)) by (apply Z.mul_nonneg_nonneg; lia).
  assert (M1 : 1 * n <= pf_scalar P * n) by (apply Z.mul_le_mono_nonneg_r; lia).
  rewrite quot_three by lia.
  rewrite (wr_small P (n - 1)) by lia. rewrite (wr_small P (n + n / 2)) by lia.
  rewrite (wr_small P (2 * pf_scalar P * (n - 1))) by nia.
  rewrite (wr_small P (pf_fft P + _)) by nia.
  rewrite (wr_small P (pf_fftr P + _)) by nia.
  rewrite (wr_small P (2 * pf_scalar P * (n + n / 2))) by nia.
  rewrite wr_small by nia. nia.
Qed.

Lemma mirror_exact P n : 1 <= n -> 2 <= pf_scalar P -> 2 * pf_scalar P * n < 2 ^ pf_bits P ->
  mirror_request P n = space (2 * n) (pf_scalar P).
Proof. intros N C B. unfold mirror_request, space. rewrite (wr_small P (pf_scalar P * n)) by nia. rewrite wr_small by nia. lia. Qed.
Lemma F_exact P n : 1 <= n -> 2 <= pf_scalar P -> 2 * pf_scalar P * (n + 1) < 2 ^ pf_bits P ->
  F_request P n = space (n + 1) (cpx_size P).
Proof. intros N C B. unfold F_request, space, cpx_size. rewrite (wr_small P (n + 1)) by nia. rewrite wr_small by nia. lia. Qed.
Lemma shift_exact P n : 1 <= n -> 2 <= pf_scalar P -> 2 * pf_scalar P * n < 2 ^ pf_bits P ->
  shift_request P n = space n (cpx_size P).
Proof. intros N C B. unfold shift_request, space, cpx_size. rewrite wr_small by nia. lia. Qed.

Lemma coeffs_exact P b w h : 2 <= pf_coeff P -> 1 <= w -> 1 <= h -> w * h * pf_coeff P < 2 ^ pf_bits P ->
  coeffs_request P b w h = space (w * h) (pf_coeff P).
Proof.
  intros C W H B. unfold coeffs_request, space. destruct b.
  - rewrite (wr_small P (pf_coeff P * w)) by nia. rewrite wr_small by nia. lia.
  - rewrite (wr_small P (w * h)) by nia. rewrite wr_small by nia. lia.
Qed.

Lemma dimension_exact P n range : 0 <= n -> n + 1 < 2 ^ pf_bits P -> 0 <= range < 2 ^ pf_bits P ->
  dimension_requests P n range = window_needs P n range.
Proof.
  intros N B R. unfold dimension_requests, window_needs. rewrite (wr_small P (n + 1)) by lia.
  destruct (range <? (n + 1) / 2) eqn:L.
  - apply Z.ltb_lt in L. assert (2 * range < n).
    { pose proof (Z.mul_div_le (n + 1) 2 ltac:(lia)). lia. }
    rewrite (wr_small P (range * 2)) by lia. rewrite wr_small by lia.
    replace (n - range * 2 =? 0) with false by lia. replace (2 * range <? n) with true by lia.
    unfold space. do 2 f_equal. lia.
  - apply Z.ltb_ge in L. pose proof (Z.mul_succ_div_gt (n + 1) 2 ltac:(lia)).
    replace (2 * range <? n) with false by lia. reflexivity.
Qed.

(** ** Whole plans *)
Lemma longest_if w h : (if w >? h then w else h) = Z.max w h.
Proof. destruct (w >? h) eqn:G; lia. Qed.

Lemma kiss_exact P w h : ordinary P -> 1 <= w -> 1 <= h ->
  5 * pf_scalar P * Z.max w h + 3 * 1024 <= 2 ^ pf_bits P -> kiss_requests P w h = kiss_needs P w h.
Proof.
  intros O W H B. pose proof O as (C & _). unfold kiss_requests, kiss_needs. rewrite longest_if.
  assert (pf_scalar P * w <= pf_scalar P * Z.max w h) by (apply Z.mul_le_mono_nonneg_l; lia).
  assert (pf_scalar P * h <= pf_scalar P * Z.max w h) by (apply Z.mul_le_mono_nonneg_l; lia).
  rewrite mirror_exact, F_exact, !shift_exact, !fftr_exact by (try assumption; nia). reflexivity.
Qed.

Lemma create_exact P b pm w h range : ordinary P -> accepted P b pm w h -> 0 <= range < 2 ^ pf_bits P -> 32 <= pf_bits P ->
  (b = KISS -> 5 * pf_scalar P * Z.max w h + 3 * 1024 <= 2 ^ pf_bits P) ->
  create_requests P b w h range = create_needs P b w h range.
Proof.
  intros O (W & H & _ & L) R B K. pose proof O as (C & _). unfold create_requests, create_needs.
  assert (2 ^ 32 <= 2 ^ pf_bits P) by (apply Z.pow_le_mono_r; lia).
  assert (INT_MAX / 3 <= 2 ^ 31) by (vm_compute; discriminate). assert (INT_MAX < 2 ^ 31) by reflexivity.
  rewrite coeffs_exact by lia. rewrite !dimension_exact by (destruct b; lia).
  destruct b; [rewrite kiss_exact by (auto; lia)|]; reflexivity.
Qed.

Lemma create_wide P b pm w h range : ordinary P -> 64 <= pf_bits P -> accepted P b pm w h -> 0 <= range < 2 ^ pf_bits P ->
  create_requests P b w h range = create_needs P b w h range.
Proof.
  intros O B A R. eapply create_exact; eauto; try lia. intros ->.
  assert (2 ^ 64 <= 2 ^ pf_bits P) by (apply Z.pow_le_mono_r; lia).
  destruct A as (W & H' & _), O as (C & _). assert (INT_MAX / 3 <= 2 ^ 31) by (vm_compute; discriminate).
  assert (Z.max w h <= 2 ^ 31) by lia. nia.
Qed.

(** 32 bits: if the FFT block of the longest side wraps then everything together takes more
    than the address space *)
Lemma mod_cases z M k : 0 < M -> k * M <= z < (k + 1) * M -> z mod M = z - k * M.
Proof. intros. symmetry. apply Z.mod_unique with k; lia. Qed.

Lemma total_app l l' : total (l ++ l') = total l + total l'.
Proof. induction l; cbn [app total fold_right] in *; [reflexivity|]. unfold total in *. lia. Qed.
Lemma total_nonneg l : Forall (fun z => 0 <= z) l -> 0 <= total l.
Proof. induction 1; cbn [total fold_right]; [lia|]. unfold total in *. lia. Qed.

Lemma wr_range P z : 0 <= pf_bits P -> 0 <= wr P z < 2 ^ pf_bits P.
Proof. intros. apply Z.mod_pos_bound. apply Z.pow_pos_nonneg; lia. Qed.

Lemma wr_add_l P a b : wr P (wr P a + b) = wr P (a + b).
Proof. apply Zplus_mod_idemp_l. Qed.
Lemma wr_add_r P a b : wr P (a + wr P b) = wr P (a + b).
Proof. apply Zplus_mod_idemp_r. Qed.
Lemma wr_mul_l P a b : wr P (wr P a * b) = wr P (a * b).
Proof. apply Zmult_mod_idemp_l. Qed.
Lemma wr_mul_r P a b : wr P (a * wr P b) = wr P (a * b).
Proof. apply Zmult_mod_idemp_r. Qed.

Lemma fftr_value P n : 1 <= n -> fftr_request P n = wr P (fftr_space P n).
Proof.
  intros. unfold fftr_request, fft_request, fftr_space, space, cpx_size. rewrite quot_three by lia.
  rewrite !wr_mul_r, (wr_add_r P (pf_fft P)), (wr_add_r P (pf_fftr P)). repeat (rewrite wr_add_r || rewrite wr_add_l). f_equal. ring.
Qed.
Lemma mirror_value P n : mirror_request P n = wr P (2 * (pf_scalar P * n)).
Proof. unfold mirror_request. rewrite wr_mul_l. f_equal. lia. Qed.
Lemma F_value P n : F_request P n = wr P (2 * (pf_scalar P * n) + 2 * pf_scalar P).
Proof. unfold F_request. rewrite wr_mul_r. f_equal. lia. Qed.
Lemma shift_value P n : shift_request P n = wr P (2 * (pf_scalar P * n)).
Proof. unfold shift_request. f_equal. lia. Qed.

(** coefficients, mirror, outputs, shift and FFT of a side of n *)
Lemma narrow_sum P n : ordinary P -> pf_bits P = 32 -> 1 <= n -> pf_scalar P * n < 2 ^ 32 ->
  pf_scalar P * n + mirror_request P n + F_request P n + shift_request P n + fftr_request P n < 2 ^ 32 ->
  5 * pf_scalar P * n + 3 * 1024 <= 2 ^ 32.
Proof.
  intros O B N L S. pose proof O as (C & _ & _ & _ & _ & R & F & _).
  rewrite mirror_value, F_value, shift_value, fftr_value in S by assumption.
  unfold fftr_space, space, cpx_size in S.
  set (T := pf_scalar P * n) in *.
  assert (HF : exists e, 0 <= e <= pf_scalar P /\
     pf_fftr P + (pf_fft P + (n - 1) * (2 * pf_scalar P)) + n * (2 * pf_scalar P) + n / 2 * (2 * pf_scalar P) =
     5 * T + (pf_fftr P + pf_fft P - 2 * pf_scalar P - e)).
  { exists (pf_scalar P * (n mod 2)). pose proof (Z.mod_pos_bound n 2 ltac:(lia)). split; [nia|].
    pose proof (Z.div_mod n 2 ltac:(lia)) as DM. unfold T. replace (n / 2 * (2 * pf_scalar P)) with (pf_scalar P * (n - n mod 2)) by nia. nia. }
  destruct HF as (e & E & HF). rewrite HF in S. clear HF.
  set (k := pf_fftr P + pf_fft P - 2 * pf_scalar P - e) in *.
  assert (K : 0 < k <= 2048) by lia.
  unfold wr in S. rewrite B in S.
  destruct (Z_le_gt_dec (5 * T + 3072) (2 ^ 32)) as [G|G]; [lia|exfalso].
  assert (T5 : 5 * T + k < 6 * 2 ^ 32) by lia.
  pose proof (Z.div_mod (5 * T + k) (2 ^ 32) ltac:(lia)) as D5. pose proof (Z.mod_pos_bound (5 * T + k) (2 ^ 32) ltac:(lia)) as M5.
  pose proof (Z.div_mod (2 * T) (2 ^ 32) ltac:(lia)) as D2. pose proof (Z.mod_pos_bound (2 * T) (2 ^ 32) ltac:(lia)) as M2.
  pose proof (Z.div_mod (2 * T + 2 * pf_scalar P) (2 ^ 32) ltac:(lia)) as D3.
  pose proof (Z.mod_pos_bound (2 * T + 2 * pf_scalar P) (2 ^ 32) ltac:(lia)) as M3.
  lia.
Qed.

Lemma mirror_nonneg P n : 0 <= pf_bits P -> 0 <= mirror_request P n. Proof. intros. apply wr_range. assumption. Qed.
Lemma F_nonneg P n : 0 <= pf_bits P -> 0 <= F_request P n. Proof. intros. apply wr_range. assumption. Qed.
Lemma shift_nonneg P n : 0 <= pf_bits P -> 0 <= shift_request P n. Proof. intros. apply wr_range. assumption. Qed.
Lemma fftr_nonneg P n : 0 <= pf_bits P -> 0 <= fftr_request P n. Proof. intros. apply wr_range. assumption. Qed.
Lemma dimension_nonneg P n r : 0 <= pf_bits P -> 0 <= pf_inter P -> 0 <= total (dimension_requests P n r).
Proof.
  intros B I. unfold dimension_requests. match goal with |- context [if ?c then ?a else 0] => set (m := if c then a else 0) end.
  assert (0 <= m). { unfold m. destruct (r <? _); [|lia]. apply wr_range. assumption. }
  destruct (m =? 0); cbn [total fold_right]; nia.
Qed.

Lemma kiss_total P w h : ordinary P -> 0 <= pf_bits P ->
  let n := Z.max w h in
  mirror_request P n + F_request P n + shift_request P n + fftr_request P n <= total (kiss_requests P w h).
Proof.
  intros O B n. pose proof O as (_ & _ & _ & K & _). unfold kiss_requests. rewrite longest_if. fold n. rewrite total_app.
  pose proof (shift_nonneg P w B). pose proof (shift_nonneg P h B). pose proof (fftr_nonneg P w B). pose proof (fftr_nonneg P h B).
  destruct (w =? h) eqn:Q; cbn [total fold_right].
  - apply Z.eqb_eq in Q. subst h. unfold n. rewrite Z.max_id. lia.
  - unfold n. destruct (Z.max_spec w h) as [(_ & ->)|(_ & ->)]; lia.
Qed.

Lemma create_narrow P b pm w h range : ordinary P -> pf_bits P = 32 -> accepted P b pm w h -> 0 <= range < 2 ^ 32 ->
  total (create_requests P b w h range) < 2 ^ 32 ->
  create_requests P b w h range = create_needs P b w h range.
Proof.
  intros O B A R T. apply create_exact with pm; auto; try (rewrite B; lia). intros ->.
  pose proof O as (C & I & N & _). pose proof A as (W & H & _ & L). rewrite B in *.
  assert (M : Z.max w h <= w * h) by nia.
  assert (pf_scalar P * Z.max w h <= pf_coeff P * (w * h)) by (apply Z.mul_le_mono_nonneg; lia).
  apply narrow_sum; auto; try lia.
  unfold create_requests in T. rewrite !total_app in T. rewrite coeffs_exact in T by (rewrite ?B; lia).
    pose proof (kiss_total P w h O ltac:(lia)) as KT. cbn zeta in KT.
    pose proof (dimension_nonneg P w range ltac:(lia) ltac:(lia)). pose proof (dimension_nonneg P h range ltac:(lia) ltac:(lia)).
    cbn [total fold_right] in T. unfold space in T.
    assert (Z.max w h <= w * h) by nia. assert (pf_scalar P * Z.max w h <= pf_coeff P * (w * h)) by (apply Z.mul_le_mono_nonneg; lia). lia.
Qed.

(** ** Result lists *)
Lemma total_in l z : Forall (fun z => 0 <= z) l -> In z l -> z <= total l.
Proof. induction 1; cbn [In total fold_right]; [tauto|]. intros [->|I]; [|apply IHForall in I]; pose proof (total_nonneg l H0); unfold total in *; lia. Qed.

Lemma space_nonneg n s : 0 <= n -> 0 <= s -> 0 <= space n s.
Proof. intros. unfold space. nia. Qed.

Lemma kiss_needs_nonneg P w h : ordinary P -> 1 <= w -> 1 <= h -> 0 <= total (kiss_needs P w h).
Proof.
  intros O W H. pose proof O as (C & _ & _ & K & _ & R & F & _).
  assert (S : forall n, 1 <= n -> 0 <= fftr_space P n).
  { intros n N. unfold fftr_space. assert (0 <= n / 2) by (apply Z.div_pos; lia).
    pose proof (space_nonneg (n - 1) (cpx_size P)). pose proof (space_nonneg n (cpx_size P)). pose proof (space_nonneg (n / 2) (cpx_size P)).
    unfold cpx_size in *. lia. }
  apply total_nonneg. unfold kiss_needs. apply Forall_app. split; [|destruct (w =? h)];
    repeat constructor; try (apply space_nonneg; unfold cpx_size; lia); try (apply S; lia); lia.
Qed.

Lemma window_nonneg P n r : 0 <= pf_inter P -> 0 <= total (window_needs P n r).
Proof. intros. unfold window_needs. destruct (2 * r <? n) eqn:L; cbn [total fold_right]; [|lia]. pose proof (space_nonneg (n - 2 * r) (pf_inter P)). lia. Qed.

Lemma results_wide P b pm w h range len n : ordinary P -> 64 <= pf_bits P -> accepted P b pm w h -> 1 <= range ->
  len = w \/ len = h -> 1 <= n <= 1 + Z.max 0 (len - 2 * range) ->
  results_request P n = space n (pf_result P).
Proof.
  intros O B (W & H & _) R LEN N. pose proof O as (_ & _ & _ & _ & _ & _ & _ & _ & S). unfold results_request, space.
  assert (2 ^ 64 <= 2 ^ pf_bits P) by (apply Z.pow_le_mono_r; lia). apply wr_small.
  assert (INT_MAX / 3 <= 2 ^ 31) by (vm_compute; discriminate). assert (INT_MAX < 2 ^ 31) by reflexivity.
  assert (len <= 2 ^ 31) by (destruct b, LEN; lia). nia.
Qed.

Lemma results_narrow P b pm w h range len n : ordinary P -> pf_bits P = 32 -> pf_result P <= pf_coeff P + pf_inter P -> accepted P b pm w h -> 1 <= range < 2 ^ 32 ->
  total (create_requests P b w h range) < 2 ^ 32 -> len = w \/ len = h ->
  1 <= n <= 1 + Z.max 0 (len - 2 * range) ->
  results_request P n = space n (pf_result P).
Proof.
  intros O B S2 A R T LEN N. pose proof O as (C & I & NA & NK & NP & _ & _ & NF & S). pose proof A as (W & H & _ & L). rewrite B in L.
  unfold results_request, space. apply wr_small. rewrite B. split; [nia|].
  rewrite (create_narrow P b pm w h range) in T by (assumption || lia).
  unfold create_needs in T. rewrite !total_app in T. cbn [total fold_right] in T.
  assert (0 <= total (match b with KISS => kiss_needs P w h | FFTW => [pf_fplan P; pf_fftw P] end)).
  { destruct b; [apply kiss_needs_nonneg; auto; lia|cbn [total fold_right]; lia]. }
  pose proof (window_nonneg P w range ltac:(lia)). pose proof (window_nonneg P h range ltac:(lia)).
  destruct (Z_lt_le_dec (2 * range) len) as [G|G].
  - assert (T2 : w * h * pf_coeff P + (len - 2 * range) * pf_inter P + 32 < 2 ^ 32).
    { assert (WN : total (window_needs P len range) = (len - 2 * range) * pf_inter P).
      { unfold window_needs. replace (2 * range <? len) with true by lia. cbn [total fold_right]. unfold space. lia. }
      unfold space in T. destruct LEN; subst len; lia. }
    assert (len <= w * h) by (destruct LEN; subst; nia).
    set (m := len - 2 * range) in *. assert (1 <= m) by lia. assert (m + 2 <= len) by lia.
    assert ((m + 2) * pf_coeff P <= w * h * pf_coeff P) by nia.
    assert (n * pf_result P <= (1 + m) * (pf_coeff P + pf_inter P)) by (apply Z.mul_le_mono_nonneg; lia). lia.
  - assert (n = 1) by lia. subst n. lia.
Qed.

(** ** The requests belong to the allocations of the model *)
Lemma kiss_tower_count al w h wd k wd' : kiss_tower al w h wd = (Some k, true, wd') ->
  forall P, w_count wd' = (w_count wd + length (kiss_requests P w h))%nat.
Proof.
  unfold kiss_tower, kiss_requests, alloc. intros Q P. rewrite app_length.
  repeat match type of Q with
  | context [if al ?n then _ else _] => destruct (al n) eqn:?; cbn [w_count] in Q; try discriminate
  | context [if w =? h then _ else _] => destruct (w =? h) eqn:?; try discriminate
  end; injection Q as <- <-; cbn [w_count length]; lia.
Qed.

Lemma plan_count E w h wd pl wd' P : resdet_create_plan E w h wd = Ok (Some pl, RDEOK, wd') ->
  w_count wd' = (w_count wd + length (match c_backend (e_cfg E) with KISS => kiss_requests P w h | FFTW => fftw_requests P end))%nat.
Proof.
  unfold resdet_create_plan. destruct (c_backend (e_cfg E)).
  - unfold kiss_create_plan. destruct ((w >? INT_MAX / 3) || (h >? INT_MAX / 3)); [discriminate|].
    destruct (kiss_tower (e_alloc E) w h wd) as [[[k|] []] wd1] eqn:K; try discriminate.
    + intros Q. injection Q as _ <-. apply (kiss_tower_count _ _ _ _ _ _ K P).
    + destruct (resdet_free_plan _ _); cbn [bind]; discriminate.
  - unfold fftw_create_plan, alloc. destruct ((w >? INT_MAX) || (h >? INT_MAX)); [discriminate|].
    destruct (e_alloc E (w_count wd)); cbn [w_count]; [|discriminate].
    destruct (e_alloc E (S (w_count wd))); cbn [w_count].
    + intros Q. injection Q as _ <-. cbn. lia.
    + destruct (resdet_free_plan _ _); cbn [bind]; discriminate.
Qed.

Lemma setup_count al len range wd r bd wd' P : pf_bits P = 64 -> 0 <= len < 2 ^ 64 -> 0 <= range ->
  setup_dimension al len range wd = (RDEOK, r, bd, wd') ->
  w_count wd' = (w_count wd + length (dimension_requests P len range))%nat.
Proof.
  intros B L R. unfold setup_dimension, dimension_requests, wr. rewrite B. change (wrap (len + 1)) with ((len + 1) mod 2 ^ 64).
  assert (EQ : (if range <? (len + 1) mod 2 ^ 64 / 2 then wrap (len - range * 2) else 0) =
               (if range <? (len + 1) mod 2 ^ 64 / 2 then (len - (range * 2) mod 2 ^ 64) mod 2 ^ 64 else 0)).
  { destruct (range <? _); [|reflexivity]. unfold wrap. rewrite Zminus_mod_idemp_r. reflexivity. }
  rewrite EQ. match goal with |- context [if ?c then ?a else 0] => set (m := if c then a else 0) end. destruct (m =? 0).
  - intros Q. injection Q as _ _ <-. cbn. lia.
  - unfold alloc. destruct (al (w_count wd)); [|discriminate]. intros Q. injection Q as _ _ <-. cbn. lia.
Qed.

Lemma create_count E m w h p wd a wd' P : pf_bits P = 64 -> 0 <= w < 2 ^ 64 -> 0 <= h < 2 ^ 64 ->
  0 <= p_range (an_params a) ->
  resdet_create_analysis E m w h p wd = Ok (Some a, RDEOK, wd') ->
  w_count wd' = (w_count wd + length (create_requests P (c_backend (e_cfg E)) w h (p_range (an_params a))))%nat.
Proof.
  intros B W H R. unfold resdet_create_analysis, create_requests.
  destruct (alloc (e_alloc E) wd) as [[blk|] wd1] eqn:A1; [|cbn; discriminate].
  destruct (match m with Some m0 => Some m0 | None => resdet_get_method None end) as [m'|]; [|discriminate].
  assert (F : forall a e w0, (w0 <- resdet_destroy_analysis (Some a) w0 ;; Ok (None, e, w0)) <> Ok (Some a, RDEOK, wd')).
  { intros a0 e w0. destruct (resdet_destroy_analysis (Some a0) w0); cbn [bind]; discriminate. }
  assert (F' : forall a0 e w0, (w0 <- resdet_destroy_analysis (Some a0) w0 ;; Ok (None, e, w0)) <> Ok (Some a, RDEOK, wd')).
  { intros a0 e w0. destruct (resdet_destroy_analysis (Some a0) w0); cbn [bind]; discriminate. }
  destruct ((w =? 0) || (h =? 0)); [intros Q; destruct (F' _ _ _ Q)|].
  destruct (dims_exceed_limit (e_cfg E) w h 1 4) as [[|]|]; cbn [bind]; [intros Q; destruct (F' _ _ _ Q)| |discriminate].
  destruct (alloc (e_alloc E) wd1) as [[fb|] wd2] eqn:A2; [|intros Q; destruct (F' _ _ _ Q)].
  destruct (resdet_create_plan E w h wd2) as [((pl, e), wd3)|] eqn:PL; cbn [bind an_params an_f]; [|discriminate].
  destruct (e =? 0) eqn:E0; cbn [negb]; [|intros Q; destruct (F' _ _ _ Q)].
  destruct (setup_dimension (e_alloc E) w _ wd3) as [[[ex xr] xb] wd4] eqn:SX.
  destruct (ex =? 0) eqn:EX; cbn [negb]; [|intros Q; destruct (F' _ _ _ Q)].
  destruct (setup_dimension (e_alloc E) h _ wd4) as [[[ey yr] yb] wd5] eqn:SY.
  destruct (ey =? 0) eqn:EY; cbn [negb]; [|intros Q; destruct (F' _ _ _ Q)].
  intros Q. assert (wd5 = wd') by congruence. assert (AP : an_params a = effective_params (e_cfg E) m' p) by (injection Q as <- _; reflexivity).
  clear Q. subst wd'. rewrite AP in *.
  apply Z.eqb_eq in E0, EX, EY. subst e ex ey.
  pose proof (setup_count _ _ _ _ _ _ _ P B W R SX) as N1. pose proof (setup_count _ _ _ _ _ _ _ P B H R SY) as N2.
  assert (PL' : exists q, pl = Some q).
  { destruct pl; [eauto|]. exfalso. revert PL. unfold resdet_create_plan. destruct (c_backend (e_cfg E)).
    - unfold kiss_create_plan. destruct (_ || _); [discriminate|]. destruct (kiss_tower _ _ _ _) as [[[k|] []] wdx]; try discriminate;
        destruct (resdet_free_plan _ _); cbn [bind]; discriminate.
    - unfold fftw_create_plan. destruct (_ || _); [discriminate|]. destruct (alloc (e_alloc E) wd2) as [[|] wdx]; [|discriminate].
      destruct (alloc (e_alloc E) wdx) as [[|] wdy]; [discriminate|]. destruct (resdet_free_plan _ _); cbn [bind]; discriminate. }
  destruct PL' as (q & ->). pose proof (plan_count _ _ _ _ _ _ P PL) as N3.
  assert (C1 : w_count wd1 = S (w_count wd)) by (unfold alloc in A1; destruct (e_alloc E (w_count wd)); injection A1 as _ <-; reflexivity).
  assert (C2 : w_count wd2 = S (w_count wd1)) by (unfold alloc in A2; destruct (e_alloc E (w_count wd1)); injection A2 as _ <-; reflexivity).
  rewrite !app_length. cbn [length]. lia.
Qed.

(** ** Images *)
Lemma image_exact P pm w h n : 32 <= pf_bits P -> 0 <= pm -> 0 <= w -> 0 <= h -> 0 <= n ->
  exceeds_limit P pm w h n 4 = false -> images_request P w h n = space (w * h * n) 4.
Proof.
  intros B PM W H N L. apply exceeds_limit_iff in L; try lia. destruct L as (W1 & H1 & N1 & _ & L).
  unfold images_request, space. rewrite (wr_small P (w * h)) by nia. rewrite (wr_small P (w * h * n)) by nia. apply wr_small. nia.
Qed.

Lemma one_image P w h : image_request P w h = images_request P w h 1.
Proof. unfold image_request, images_request. rewrite wr_mul_l. rewrite (wr_mul_l P (w * h) 1). rewrite Z.mul_1_r.
  rewrite wr_mul_l. reflexivity. Qed.

Lemma png_exact P pm w h ch : 32 <= pf_bits P -> 0 <= pm -> 0 <= w -> 0 <= h -> 1 <= ch <= 4 ->
  exceeds_limit P pm w h 1 4 = false -> png_request P w h ch = space (w * h) ch /\ jpeg_request P w h = space (w * h) 1.
Proof.
  intros B PM W H C L. apply exceeds_limit_iff in L; try lia. destruct L as (W1 & H1 & _ & _ & L).
  unfold png_request, jpeg_request, space. rewrite !(wr_small P (w * h)) by nia. split; [apply wr_small; nia|lia].
Qed.

Lemma half_up n : 1 <= n -> (n + 1) / 2 <= n /\ 2 * ((n + 1) / 2) <= n + 1 /\ 1 <= (n + 1) / 2.
Proof.
  intros. pose proof (Z.mul_div_le (n + 1) 2 ltac:(lia)). split; [|split]; [|lia|].
  - apply Z.div_le_upper_bound; lia.
  - apply Z.div_le_lower_bound; lia.
Qed.

Lemma chroma_exact P c w h : 32 <= pf_bits P -> 1 <= w -> 1 <= h -> w * h * 4 < 2 ^ pf_bits P ->
  y4m_chroma P c w h = chroma_samples c w h /\ 0 <= chroma_samples c w h <= 2 * (w * h).
Proof.
  intros B W H L. pose proof (half_up w W) as (A1 & A2 & A3). pose proof (half_up h H) as (B1 & B2 & B3).
  assert (w <= w * h) by nia. assert (h <= w * h) by nia.
  unfold y4m_chroma, chroma_samples. destruct c.
  - lia.
  - rewrite (wr_small P (w + 1)), (wr_small P (h + 1)) by lia.
    assert (0 <= (w + 1) / 2 * ((h + 1) / 2) <= w * h) by nia.
    rewrite (wr_small P ((w + 1) / 2 * ((h + 1) / 2))) by lia. rewrite wr_small by lia. lia.
  - rewrite (wr_small P (w + 1)) by lia.
    assert (0 <= (w + 1) / 2 * h <= w * h) by nia.
    rewrite (wr_small P ((w + 1) / 2 * h)) by lia. rewrite wr_small by lia. lia.
  - rewrite (wr_small P (w * h)) by lia. rewrite wr_small by lia. lia.
Qed.

Lemma y4m_exact P pm c depth w h lmax fs y uv bytes : 32 <= pf_bits P -> 0 <= pm -> 0 <= w -> 0 <= h -> 8 <= depth <= 16 ->
  exceeds_limit P pm w h 4 1 = false -> y4m_request P c depth w h lmax fs = Some (y, uv, bytes) ->
  let width_of_sample := if depth =? 8 then 1 else 2 in
  y = space (w * h) width_of_sample /\ uv = space (chroma_samples c w h) width_of_sample /\ y <= bytes /\
  (uv <= bytes \/ (fs = true /\ y + uv <= lmax)).
Proof.
  intros B PM W H D L. apply exceeds_limit_iff in L; try lia. destruct L as (W1 & H1 & _ & _ & L).
  destruct (chroma_exact P c w h B W1 H1 ltac:(lia)) as (CE & CB).
  unfold y4m_request. rewrite CE. rewrite (wr_small P (w * h)) by nia. rewrite (wr_small P (w * h + _)) by nia.
  assert (BW : (depth + 7) / 8 = if depth =? 8 then 1 else 2).
  { destruct (depth =? 8) eqn:Q; [apply Z.eqb_eq in Q; subst; reflexivity|]. apply Z.eqb_neq in Q.
    symmetry. apply Z.div_unique with (depth + 7 - 16); lia. }
  rewrite BW. cbn zeta. set (bw := if depth =? 8 then 1 else 2) in *. assert (1 <= bw <= 2) by (unfold bw; destruct (depth =? 8); lia).
  destruct (size_max P / bw <? _) eqn:G; [discriminate|]. apply Z.ltb_ge in G.
  assert (G2 : (w * h + chroma_samples c w h) * bw < 2 ^ pf_bits P).
  { pose proof (Z.mul_div_le (size_max P) bw ltac:(lia)). unfold size_max in *. nia. }
  assert (0 <= w * h) by nia.
  rewrite (wr_small P (w * h * bw)) by nia. rewrite (wr_small P (chroma_samples c w h * bw)) by nia. rewrite (wr_small P (w * h * bw + _)) by nia.
  intros Q. injection Q as <- <- <-. unfold space. split; [reflexivity|]. split; [reflexivity|].
  destruct fs; rewrite ?andb_true_r, ?andb_false_r.
  - destruct (w * h * bw + chroma_samples c w h * bw <=? lmax) eqn:LM.
    + split; [lia|]. right. split; [reflexivity|]. lia.
    + destruct (chroma_samples c w h * bw <? w * h * bw) eqn:Q; lia.
  - destruct (chroma_samples c w h * bw <? w * h * bw) eqn:Q; lia.
Qed.

Lemma pfm_exact P (colour : bool) w h : 1 <= w -> 1 <= h -> w * h * (if colour then 12 else 4) < 2 ^ pf_bits P ->
  pfm_skip P colour w h = space (w * h * (if colour then 3 else 1)) 4.
Proof.
  intros W H L. unfold pfm_skip, space. assert (1 <= w * h) by nia. destruct colour.
  - rewrite (wr_small P (w * h)) by lia. rewrite (wr_small P (w * h * 3)) by lia. rewrite wr_small; lia.
  - rewrite (wr_small P (w * h)) by lia. rewrite wr_small; lia.
Qed.

(** ** The block of an FFT *)
Lemma fftr_space_exact P n : ordinary P -> 1 <= n -> fftr_space P n < 2 ^ pf_bits P ->
  fft_request P n = pf_fft P + space (n - 1) (cpx_size P) /\ fftr_request P n = fftr_space P n.
Proof.
  intros O N B. pose proof O as ((C & _) & _ & _ & _ & _ & R & F & _).
  assert (D : 0 <= n / 2) by (apply Z.div_pos; lia).
  unfold fftr_space, space, cpx_size in *.
  assert (0 <= (n - 1) * (2 * pf_scalar P)) by nia. assert (0 <= n / 2 * (2 * pf_scalar P)) by nia.
  assert (4 * n <= n * (2 * pf_scalar P)) by nia.
  split.
  - unfold fft_request. rewrite (wr_small P (n - 1)) by lia. rewrite (wr_small P (2 * pf_scalar P * (n - 1))) by lia. rewrite wr_small by lia. lia.
  - rewrite fftr_value by assumption. rewrite wr_small; unfold fftr_space, space, cpx_size; lia.
Qed.
Lemma half_even n : Z.odd (2 * n) = false /\ Z.shiftr (2 * n) 1 = n.
Proof. split; [rewrite Z.odd_mul; reflexivity|]. rewrite Z.shiftr_div_pow2 by lia. change (2 ^ 1) with 2. rewrite Z.mul_comm, Z.div_mul; lia. Qed.
Definition block_layout (P : platform) (n : Z) : layout :=
  let tmpbuf := pf_fftr P + (pf_fft P + space (n - 1) (cpx_size P)) in
  mkLayout (pf_fftr P) tmpbuf (tmpbuf + space n (cpx_size P)) Given.
Lemma fftr_memory_exact P n mem lenmem : ordinary P -> 1 <= n -> fftr_space P n < 2 ^ pf_bits P ->
  fftr_memory P (2 * n) mem lenmem =
  match lenmem with
  | None => (Asked (fftr_space P n), None, Some (block_layout P n))
  | Some len => if mem && (fftr_space P n <=? len) then (Given, Some (fftr_space P n), Some (block_layout P n))
                else (Refused, Some (fftr_space P n), None)
  end.
Proof.
  intros O N B. destruct (fftr_space_exact P n O N B) as (A & R). destruct (half_even n) as (E1 & E2).
  unfold fftr_memory. rewrite E1, E2. unfold fft_memory. cbn [snd fst andb]. rewrite Z.leb_refl.
  fold (fftr_request P n). rewrite R, A.
  assert (Q : pf_fftr P + (pf_fft P + space (n - 1) (cpx_size P)) + 2 * pf_scalar P * n = pf_fftr P + (pf_fft P + space (n - 1) (cpx_size P)) + space n (cpx_size P)).
  { unfold space, cpx_size. ring. }
  rewrite Q. fold (block_layout P n). destruct lenmem as [len|]; [|reflexivity].
  rewrite andb_comm. destruct (mem && (fftr_space P n <=? len)); reflexivity.
Qed.
Lemma block_parts P n : ordinary P -> twiddle_inside P -> 1 <= n ->
  Forall (within (fftr_space P n)) (fftr_parts P n (block_layout P n)) /\ ForallOrdPairs apart (fftr_parts P n (block_layout P n)).
Proof.
  intros O (T0 & T1) N. pose proof O as ((C & _) & _ & _ & _ & _ & R & F & _).
  assert (D : 0 <= n / 2) by (apply Z.div_pos; lia).
  unfold fftr_parts, block_layout, within, apart, fftr_space. cbn [ly_substate ly_tmpbuf ly_super].
  assert (E : space n (cpx_size P) = space (n - 1) (cpx_size P) + cpx_size P) by (unfold space; ring).
  assert (0 <= space (n - 1) (cpx_size P)) by (unfold space, cpx_size; nia). assert (0 <= space (n / 2) (cpx_size P)) by (unfold space, cpx_size; nia).
  assert (0 < cpx_size P) by (unfold cpx_size; lia).
  set (a := space n (cpx_size P)) in *. set (b := space (n - 1) (cpx_size P)) in *. set (c := space (n / 2) (cpx_size P)) in *. set (d := cpx_size P) in *.
  split; repeat constructor; cbn [fst snd]; lia.
Qed.
Lemma block_aligned P n : compiled P -> (pf_align P | pf_fftr P) ->
  forall p, In p (fftr_parts P n (block_layout P n)) -> (pf_align P | fst p).
Proof.
  intros (A & F & S & C) R p I. unfold fftr_parts, block_layout in I. cbn [ly_substate ly_tmpbuf ly_super In] in I.
  assert (forall k, (pf_align P | space k (cpx_size P))) by (intros k; apply Z.divide_mul_r; exact C).
  assert (0 <= 0) by lia.
  destruct I as [<-|[<-|[<-|[<-|[<-|[]]]]]]; cbn [fst]; repeat apply Z.divide_add_r; try assumption; try apply H. apply Z.divide_0_r.
Qed.
