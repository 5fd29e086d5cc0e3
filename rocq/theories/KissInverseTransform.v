(** The inverse transforms with their strides and buffers. *)
From Coq Require Import Reals Lra Lia Znumtheory.
From Verif Require Import Base Spec Kiss History SpecTransform KissInverse SpecInverse.
From Verif Require Import BaseProofs WorldProofs FrameProofs KissProofs KissFactor KissTransform KissExact KissInverseProofs.
Open Scope list_scope.
Open Scope Z_scope.

(** ** The transforms, for any scalars *)
Lemma nth_drop {A} (d : A) : forall n (l : list A) k, nth k (skipn n l) d = nth (n + k) l d.
Proof. induction n as [|n IH]; intros [|a l] k; cbn; [reflexivity|reflexivity|destruct k; reflexivity|apply IH]. Qed.

Section Transforms.
Context {T : Type} (K I : ops T).
Notation cpx := (T * T)%type.
Notation c0 := (czero K).
Notation t0 := (o_zero K).

Definition dir_val (c : cfg) (n : Z) (x : Z -> cpx) (k : Z) : cpx :=
  (if c_inverse c then ifft_val K (ft_twiddles (c_state c)) n (ft_factors (c_state c)) 1 x k
   else fft_val K (ft_twiddles (c_state c)) n (ft_factors (c_state c)) 1 x k).
Definition cfg_ok (n : Z) (c : cfg) : Prop := fft_ok (tables K I (c_inverse c)) n (c_state c).

Lemma kiss_fft_new_ok n inverse : 1 <= n <= INT_MAX / 3 -> exists c, kiss_fft_new K I n inverse = Ok c /\ c_inverse c = inverse /\ cfg_ok n c.
Proof.
  intros Hn. unfold kiss_fft_new. destruct (kiss_fft_alloc_ok (tables K I inverse) n Hn) as (st & E & S). rewrite E.
  eexists. split; [reflexivity|]. split; [reflexivity|exact S].
Qed.

Lemma dir_val_ext c n x x' k : cfg_ok n c -> 0 <= k < n -> (forall j, 0 <= j < n -> x j = x' j) -> dir_val c n x k = dir_val c n x' k.
Proof.
  intros [N F L V] Hk H. unfold dir_val. destruct (c_inverse c).
  - apply (ifft_val_ext K (ft_twiddles (c_state c)) n _ n); assumption.
  - apply (fft_val_ext K (ft_twiddles (c_state c)) n _ n); assumption.
Qed.

Lemma stride_ok al n c fin fout ins wd : 1 <= n <= INT_MAX / 3 -> cfg_ok n c -> 0 <= ins -> (n - 1) * ins < zlen fin -> zlen fout = n ->
  exists out wd', kiss_fft_stride K al c fin fout ins wd = Ok (out, wd') /\ owns wd' wd [] /\ zlen out = n /\
   ((forall k, al k = true) -> forall k, 0 <= k < n -> at_ c0 out k = dir_val c n (fun j => at_ c0 fin (j * ins)) k).
Proof.
  intros Hn C Hs Hi Ho. assert (C' := C). destruct C' as [N F L V]. unfold kiss_fft_stride. rewrite N.
  assert (HF : forall j, 0 <= j < n -> 0 <= 0 + j * (1 * ins) < zlen fin) by (intros; nia).
  unfold dir_val. destruct (c_inverse c).
  - destruct (kf_worki_ok K (ft_twiddles (c_state c)) n L Hn al fin ins _ _ F 0 0 1 fout wd) as (b & w & E & O & LB & _ & VB); try lia; [exact HF|].
    exists b, w. split; [exact E|]. split; [exact O|]. split; [lia|]. intros Hal k Hk.
    rewrite <- (Z.add_0_l k) at 1. rewrite VB by assumption.
    apply (ifft_val_ext K (ft_twiddles (c_state c)) n _ n); [exact F|exact Hk|]. intros j Hj. f_equal. lia.
  - rewrite (kf_work_forward K al n _ _ _ (List.length (ft_factors (c_state c)))) by lia.
    destruct (kf_work_ok K (ft_twiddles (c_state c)) n L Hn al fin ins _ _ F 0 0 1 fout wd) as (b & w & E & O & LB & _ & VB); try lia; [exact HF|].
    exists b, w. split; [exact E|]. split; [exact O|]. split; [lia|]. intros Hal k Hk.
    rewrite <- (Z.add_0_l k) at 1. rewrite VB by assumption.
    apply (fft_val_ext K (ft_twiddles (c_state c)) n _ n); [exact F|exact Hk|]. intros j Hj. f_equal. lia.
Qed.

Lemma in_place_ok al n c buf ins junk wd : 1 <= n <= INT_MAX / 3 -> cfg_ok n c -> 1 <= ins -> (n - 1) * ins < zlen buf ->
  exists out wd', kiss_fft_in_place K al c buf ins junk wd = Ok (out, wd') /\ owns wd' wd [] /\ zlen out = zlen buf /\
   (forall k, n <= k -> at_ c0 out k = at_ c0 buf k) /\
   (al (w_count wd) = false -> out = buf) /\
   ((forall k, al k = true) -> forall k, 0 <= k < n -> at_ c0 out k = dir_val c n (fun j => at_ c0 buf (j * ins)) k).
Proof.
  intros Hn C Hs Hb. unfold kiss_fft_in_place. assert (HB : n <= zlen buf) by nia.
  pose proof (owns_alloc al wd wd [] (owns_refl wd)) as A. unfold alloc in *. destruct (al (w_count wd)) eqn:EA.
  - destruct A as (A & _). rewrite (fk_nfft _ _ _ C).
    destruct (stride_ok al n c buf (repeat junk (Z.to_nat n)) ins (mkWorld (S (w_count wd)) (w_count wd :: w_live wd) (w_nfile wd) (w_files wd)))
      as (out & w & E & O & L & V); try assumption; try lia; [unfold zlen; rewrite repeat_length; lia|].
    rewrite E. cbn [bind]. destruct (Z.ltb_spec (zlen buf) n); [lia|].
    pose proof (owns_trans _ _ _ _ _ O A) as O2. destruct (owns_free _ _ _ _ O2) as (w2 & E2 & O3 & _). rewrite E2. cbn [bind].
    eexists. exists w2. split; [reflexivity|]. split; [exact O3|].
    assert (LO : List.length (firstn (Z.to_nat n) out) = Z.to_nat n) by (rewrite firstn_length; unfold zlen in L; lia).
    split; [unfold zlen in *; rewrite app_length, LO, skipn_length; lia|]. split; [|split; [discriminate|]].
    + intros k Hk. unfold at_. rewrite app_nth2 by lia. rewrite LO. destruct (Z.lt_ge_cases k (zlen buf)) as [KB|KB].
      * unfold zlen in KB. transitivity (nth (Z.to_nat n + (Z.to_nat k - Z.to_nat n)) buf c0)%nat; [|f_equal; lia]. apply nth_drop.
      * unfold zlen in KB. rewrite !nth_overflow; [reflexivity|lia|rewrite skipn_length; lia].
    + intros Hal k Hk. rewrite <- V by assumption. rewrite at_app_l by (unfold zlen; lia). apply at_firstn. lia.
  - destruct A as (A & _ & _). exists buf. eexists. split; [reflexivity|]. split; [exact A|]. split; [reflexivity|]. split; [reflexivity|]. split; [reflexivity|].
    intros H. rewrite H in EA. discriminate.
Qed.

(** ** The real inverse *)
Definition irfft_lo (sup : Z -> cpx) (n : Z) (F : Z -> cpx) (k : Z) : cpx :=
  let fnkc := (fst (F (n - k)), o_neg K (snd (F (n - k)))) in
  C_ADD K (C_ADD K (F k) fnkc) (C_MUL K (C_SUB K (F k) fnkc) (sup (k - 1))).
Definition irfft_hi (sup : Z -> cpx) (n : Z) (F : Z -> cpx) (k : Z) : cpx :=
  let fnkc := (fst (F (n - k)), o_neg K (snd (F (n - k)))) in
  let v := C_SUB K (C_ADD K (F k) fnkc) (C_MUL K (C_SUB K (F k) fnkc) (sup (k - 1))) in
  (fst v, o_neg K (snd v)).
Definition irfft_val (sup : Z -> cpx) (n : Z) (F : Z -> cpx) (k : Z) : cpx :=
  if k =? 0 then (o_add K (fst (F 0)) (fst (F n)), o_sub K (fst (F 0)) (fst (F n)))
  else if k <? n - k then irfft_lo sup n F k
  else irfft_hi sup n F (n - k).

Lemma as_scalars_zlen (l : list cpx) : zlen (as_scalars l) = 2 * zlen l.
Proof. induction l as [|[a b] l IH]; [reflexivity|]. cbn [as_scalars]. rewrite !zlen_cons, IH. lia. Qed.
Lemma as_scalars_nth : forall (l : list cpx) j, nth (2 * j) (as_scalars l) t0 = fst (nth j l c0) /\ nth (2 * j + 1) (as_scalars l) t0 = snd (nth j l c0).
Proof.
  induction l as [|[a b] l IH]; intros j.
  - cbn [as_scalars]. destruct (2 * j)%nat, (2 * j + 1)%nat, j; split; reflexivity.
  - destruct j as [|j]; [split; reflexivity|]. replace (2 * S j)%nat with (S (S (2 * j))) by lia.
    replace (S (S (2 * j)) + 1)%nat with (S (S (2 * j + 1))) by lia. cbn [as_scalars nth]. apply IH.
Qed.
Lemma as_scalars_at (l : list cpx) j : 0 <= j -> at_ t0 (as_scalars l) (2 * j) = fst (at_ c0 l j) /\ at_ t0 (as_scalars l) (2 * j + 1) = snd (at_ c0 l j).
Proof.
  intros Hj. unfold at_. destruct (as_scalars_nth l (Z.to_nat j)) as (A & B). split; [rewrite <- A|rewrite <- B]; f_equal; lia.
Qed.

Definition real_ifft (st : fftr_state) (n : Z) (F : Z -> cpx) (k : Z) : cpx :=
  ifft_val K (ft_twiddles (fr_sub st)) n (ft_factors (fr_sub st)) 1 (irfft_val (at_ c0 (fr_super st)) n F) k.

Lemma kiss_fftr_new_ok n inverse : 1 <= n <= INT_MAX / 3 ->
  exists c, kiss_fftr_new K I (n * 2) inverse = Ok (Some c) /\ r_inverse c = inverse /\ fftr_ok (tables K I inverse) n (r_state c).
Proof.
  intros Hn. unfold kiss_fftr_new. destruct (kiss_fftr_alloc_ok (tables K I inverse) n Hn) as (st & E & S). rewrite E.
  eexists. split; [reflexivity|]. split; [reflexivity|exact S].
Qed.

Lemma kiss_fftri_ok al n c freq tmp time wd : 1 <= n <= INT_MAX / 3 -> r_inverse c = true -> fftr_ok I n (r_state c) ->
  n + 1 <= zlen freq -> zlen tmp = n -> zlen time = 2 * n ->
  exists time' tmp' wd', kiss_fftri K al c freq tmp time wd = Ok (time', tmp', wd') /\ owns wd' wd [] /\
    zlen time' = 2 * n /\ zlen tmp' = n /\
    ((forall k, al k = true) -> forall k, 0 <= k < n ->
       (at_ t0 time' (2 * k), at_ t0 time' (2 * k + 1)) = real_ifft (r_state c) n (at_ c0 freq) k).
Proof.
  intros Hn RI [S SL _ _] Lf Lp Lt. assert (Hn' := Hn). unfold kiss_fftri. rewrite RI. cbn [negb]. rewrite (fk_nfft _ _ _ S). rewrite INT3' in Hn.
  rewrite (get_at c0 freq 0) by lia. cbn [bind]. rewrite (get_at c0 freq n) by lia. cbn [bind]. rewrite set_upd by lia. cbn [bind].
  set (fr0 := upd tmp (Z.to_nat 0) _).
  assert (L0 : zlen fr0 = n) by (unfold fr0; rewrite !zlen_upd; exact Lp).
  rewrite Z.quot_div_nonneg by lia. pose proof (Z.div_pos n 2 ltac:(lia) ltac:(lia)) as D0.
  pose proof (Z.mul_div_le n 2 ltac:(lia)) as D1.
  assert (D2 : n < 2 * (n / 2) + 2) by (pose proof (Z.mod_pos_bound n 2 ltac:(lia)); pose proof (Z.div_mod n 2 ltac:(lia)); lia).
  match goal with |- context [for_range 1 (n / 2 + 1) ?b fr0] =>
  destruct (for_range_inv (fun k f => zlen f = n /\ forall j, 0 <= j < n ->
      at_ c0 f j = if j =? 0 then at_ c0 fr0 j
                   else if (j <? k) && (j <? n - j) then irfft_lo (at_ c0 (fr_super (r_state c))) n (at_ c0 freq) j
                   else if (n - j <? k) && (n - j <=? j) then irfft_hi (at_ c0 (fr_super (r_state c))) n (at_ c0 freq) (n - j)
                   else at_ c0 f j) b 1 (n / 2 + 1) fr0) as (fr & EF & LF & VF) end.
  - lia.
  - split; [exact L0|]. intros j Hj. destruct (Z.eqb_spec j 0); try reflexivity.
    replace (j <? 1) with false by lia. replace (n - j <? 1) with false by lia. reflexivity.
  - intros k f Hk (LF & VF).
    rewrite (get_at c0 freq k) by lia. cbn [bind]. rewrite (get_at c0 freq (n - k)) by lia. cbn [bind].
    rewrite (get_at c0 (fr_super (r_state c))) by lia. cbn [bind].
    rewrite set_upd by lia. cbn [bind]. rewrite set_upd by (rewrite zlen_upd; lia). cbn [bind].
    rewrite (get_at c0) by (rewrite !zlen_upd; lia). cbn [bind]. rewrite set_upd by (rewrite !zlen_upd; lia).
    eexists. split; [reflexivity|]. rewrite !zlen_upd. split; [exact LF|].
    intros j Hj. specialize (VF j Hj).
    rewrite (at_upd c0 _ (n - k) j) by (rewrite ?zlen_upd; lia).
    rewrite (at_upd c0 _ (n - k) (n - k)) by (rewrite ?zlen_upd; lia). rewrite Z.eqb_refl.
    rewrite (at_upd c0 _ (n - k) j) by (rewrite ?zlen_upd; lia).
    rewrite (at_upd c0 _ k j) by (rewrite ?zlen_upd; lia).
    destruct (j =? 0) eqn:EO.
    { replace (j =? n - k) with false by lia. replace (j =? k) with false by lia. exact VF. }
    destruct (Z.eqb_spec j (n - k)) as [EJ|NJ].
    { replace ((j <? k + 1) && (j <? n - j)) with false by lia.
      replace ((n - j <? k + 1) && (n - j <=? j)) with true by lia. replace (n - j) with k by lia. reflexivity. }
    destruct (Z.eqb_spec j k) as [EJ|NJ'].
    { replace ((j <? k + 1) && (j <? n - j)) with true by lia. subst j. reflexivity. }
    replace (j <? k + 1) with (j <? k) by lia. replace (n - j <? k + 1) with (n - j <? k) by lia.
    destruct ((j <? k) && (j <? n - j)); [exact VF|]. destruct ((n - j <? k) && (n - j <=? j)); [exact VF|reflexivity].
  - rewrite EF. cbn [bind].
    destruct (stride_ok al n (mkCfg true (fr_sub (r_state c))) fr (as_cpx time) 1 wd) as (out & w & E & O & LO & VO); try assumption; try lia.
    { apply as_cpx_zlen; lia. }
    rewrite E. cbn [bind]. eexists _, _, _. split; [reflexivity|]. split; [exact O|]. split; [rewrite as_scalars_zlen; lia|]. split; [exact LF|].
    intros Hal k Hk. destruct (as_scalars_at out k) as (A & B); [lia|]. rewrite A, B, <- surjective_pairing.
    rewrite VO by assumption. unfold dir_val, real_ifft. cbn [c_inverse c_state].
    apply (ifft_val_ext K (ft_twiddles (fr_sub (r_state c))) n _ n); [apply (fk_factors _ _ _ S)|exact Hk|].
    intros j Hj. rewrite Z.mul_1_r. specialize (VF j Hj). rewrite VF. unfold irfft_val. clear VF.
    destruct (Z.eqb_spec j 0) as [E0|].
    { rewrite E0. unfold fr0. rewrite at_upd by (rewrite ?zlen_upd; lia). reflexivity. }
    destruct (Z.ltb_spec j (n - j)).
    + replace (j <? n / 2 + 1) with true by lia. reflexivity.
    + rewrite andb_false_r. replace ((n - j <? n / 2 + 1) && (n - j <=? j)) with true by lia. reflexivity.
Qed.
End Transforms.
