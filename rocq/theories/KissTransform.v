(** The plan, the real FFT and the two-dimensional transform: memory safety and the
    values computed, for any scalar operations. *)
From Coq Require Import Permutation.
From Verif Require Import Base Spec BaseProofs Util Methods Analysis History WorldProofs Kiss KissProofs KissFactor.

Section Transform.
Context {T : Type} (K : ops T).
Notation cpx := (T * T)%type.
Notation c0 := (czero K).
Notation t0 := (o_zero K).

Lemma INT3' : INT_MAX / 3 = 715827882. Proof. reflexivity. Qed.

Lemma fill_table_ok n cap (f : Z -> cpx) : 0 <= n <= cap ->
  exists t, fill_table K n cap f = Ok t /\ zlen t = cap /\ forall i, 0 <= i < n -> at_ c0 t i = f i.
Proof.
  intros H. unfold fill_table.
  destruct (for_range_inv (fun k t => zlen t = cap /\ forall i, 0 <= i < k -> at_ c0 t i = f i)
     (fun i t => set t i (f i)) 0 n (repeat c0 (Z.to_nat cap))) as (t & E & L & V).
  - lia.
  - rewrite zlen_repeat. split; [lia|]. intros; lia.
  - intros k t Hk (L & V). rewrite set_upd by lia. eexists. split; [reflexivity|]. rewrite zlen_upd. split; [exact L|].
    intros i Hi. rewrite at_upd by lia. destruct (Z.eqb_spec i k) as [->|]; [reflexivity|]. apply V. lia.
  - exists t. split; [exact E|]. split; assumption.
Qed.

(** a correct FFT configuration *)
Record fft_ok (n : Z) (st : fft_state) : Prop := {
  fk_nfft : ft_nfft st = n;
  fk_factors : factors_ok (ft_factors st) n;
  fk_len : zlen (ft_twiddles st) = n;
  fk_tw : forall i, 0 <= i < n -> at_ c0 (ft_twiddles st) i = o_twiddle K n i
}.

Lemma kiss_fft_alloc_ok n : 1 <= n <= INT_MAX / 3 -> exists st, kiss_fft_alloc K n = Ok st /\ fft_ok n st.
Proof.
  intros Hn. rewrite INT3' in Hn. unfold kiss_fft_alloc. rewrite cint_ok by (unfold INT_MAX; lia). cbn [bind].
  rewrite (wrap_small (n - 1)) by lia. rewrite (wrap_small (8 * (n - 1))) by lia. rewrite wrap_small by lia.
  replace ((272 + 8 * (n - 1) - 264) / 8) with n by (replace (272 + 8 * (n - 1) - 264) with (n * 8) by lia; symmetry; apply Z.div_mul; lia).
  destruct (fill_table_ok n n (o_twiddle K n)) as (t & -> & L & V); [lia|]. cbn [bind].
  destruct (kf_factor_ok n) as (l & -> & F & _); [unfold INT_MAX; lia|]. cbn [bind].
  eexists. split; [reflexivity|]. constructor; cbn; [reflexivity|exact F|exact L|exact V].
Qed.

Record fftr_ok (n : Z) (st : fftr_state) : Prop := {
  rk_sub : fft_ok n (fr_sub st);
  rk_len : zlen (fr_super st) = n / 2;
  rk_super : forall i, 0 <= i < n / 2 -> at_ c0 (fr_super st) i = o_super K n i;
  rk_tmp : fr_tmpsize st = n
}.

Lemma kiss_fftr_alloc_ok n : 1 <= n <= INT_MAX / 3 -> exists st, kiss_fftr_alloc K (n * 2) = Ok (Some st) /\ fftr_ok n st.
Proof.
  intros Hn. unfold kiss_fftr_alloc.
  assert (OD : Z.odd (n * 2) = false) by (rewrite Z.odd_mul; apply andb_false_r). rewrite OD.
  rewrite Z.div_mul by lia. rewrite cint_ok by (rewrite INT3' in Hn; unfold INT_MAX; lia). cbn [bind].
  destruct (kiss_fft_alloc_ok n Hn) as (st & -> & F). cbn [bind]. rewrite INT3' in Hn.
  rewrite !Z.quot_div_nonneg by lia.
  replace (n * 3 / 2 - n) with (n / 2) by (replace (n * 3) with (n + n * 2) by lia; rewrite Z.div_add by lia; lia).
  pose proof (Z.div_pos n 2 ltac:(lia) ltac:(lia)).
  destruct (fill_table_ok (n / 2) (n / 2) (o_super K n)) as (t & -> & L & V); [lia|]. cbn [bind].
  eexists. split; [reflexivity|]. constructor; cbn; assumption || reflexivity.
Qed.

(** ** The complex FFT *)
Lemma kiss_fft_ok al n st fin fout wd : 1 <= n <= INT_MAX / 3 -> fft_ok n st -> n <= zlen fin -> zlen fout = n ->
  exists out wd', kiss_fft K al st fin fout wd = Ok (out, wd') /\ owns wd' wd [] /\ zlen out = n /\
   ((forall k, al k = true) -> forall k, 0 <= k < n ->
      at_ c0 out k = fft_val K (ft_twiddles st) n (ft_factors st) 1 (at_ c0 fin) k).
Proof.
  intros Hn [N F L V] Hi Ho. unfold kiss_fft. rewrite N.
  destruct (kf_work_ok K (ft_twiddles st) n L Hn al fin 1 _ _ F 0 0 1 fout wd) as (b & w & E & O & LB & _ & VB); try lia.
  { exists b, w. split; [exact E|]. split; [exact O|]. split; [lia|]. intros Hal k Hk.
    rewrite <- (Z.add_0_l k) at 1. rewrite VB by assumption.
    apply (fft_val_ext K (ft_twiddles st) n _ n); [exact F|exact Hk|]. intros j Hj. f_equal. lia. }
Qed.

(** ** The real FFT *)
Definition rfft_lo (sup : Z -> cpx) (n : Z) (Y : Z -> cpx) (k : Z) : cpx :=
  let fpk := Y k in
  let fpnk := (fst (Y (n - k)), o_neg K (snd (Y (n - k)))) in
  let f1k := C_ADD K fpk fpnk in
  let tw := C_MUL K (C_SUB K fpk fpnk) (sup (k - 1)) in
  (o_half K (o_add K (fst f1k) (fst tw)), o_half K (o_add K (snd f1k) (snd tw))).
Definition rfft_hi (sup : Z -> cpx) (n : Z) (Y : Z -> cpx) (k : Z) : cpx :=
  let fpk := Y k in
  let fpnk := (fst (Y (n - k)), o_neg K (snd (Y (n - k)))) in
  let f1k := C_ADD K fpk fpnk in
  let tw := C_MUL K (C_SUB K fpk fpnk) (sup (k - 1)) in
  (o_half K (o_sub K (fst f1k) (fst tw)), o_half K (o_sub K (snd tw) (snd f1k))).
Definition rfft_val (sup : Z -> cpx) (n : Z) (Y : Z -> cpx) (k : Z) : cpx :=
  if k =? 0 then (o_add K (fst (Y 0)) (snd (Y 0)), t0)
  else if k =? n then (o_sub K (fst (Y 0)) (snd (Y 0)), t0)
  else if k <? n - k then rfft_lo sup n Y k
  else rfft_hi sup n Y (n - k).

Lemma as_cpx_len : forall n (l : list T), List.length l = (2 * n)%nat -> List.length (as_cpx l) = n.
Proof.
  induction n as [|n IH]; intros l H.
  - destruct l; [reflexivity|discriminate].
  - destruct l as [|a [|b l]]; [discriminate|cbn in H; lia|]. cbn. f_equal. apply IH. cbn in H. lia.
Qed.

Lemma as_cpx_at : forall n (l : list T), List.length l = (2 * n)%nat -> forall j, (j < n)%nat ->
  nth j (as_cpx l) c0 = (nth (2 * j) l t0, nth (2 * j + 1) l t0).
Proof.
  induction n as [|n IH]; intros l H j Hj; [lia|].
  destruct l as [|a [|b l]]; [discriminate|cbn in H; lia|]. destruct j as [|j]; [reflexivity|].
  cbn [as_cpx nth]. rewrite IH by (cbn in H; lia).
  replace (2 * S j)%nat with (S (S (2 * j))) by lia. reflexivity.
Qed.

Lemma as_cpx_zlen n (l : list T) : 0 <= n -> zlen l = 2 * n -> zlen (as_cpx l) = n.
Proof. intros Hn H. unfold zlen in *. rewrite (as_cpx_len (Z.to_nat n)); lia. Qed.
Lemma as_cpx_zat n (l : list T) j : 0 <= j < n -> zlen l = 2 * n ->
  at_ c0 (as_cpx l) j = (at_ t0 l (2 * j), at_ t0 l (2 * j + 1)).
Proof.
  intros Hj H. unfold at_, zlen in *. rewrite (as_cpx_at (Z.to_nat n)) by lia. f_equal; f_equal; lia.
Qed.

Definition real_fft (st : fftr_state) (n : Z) (x : Z -> T) (k : Z) : cpx :=
  rfft_val (at_ c0 (fr_super st)) n
    (fft_val K (ft_twiddles (fr_sub st)) n (ft_factors (fr_sub st)) 1 (fun j => (x (2 * j), x (2 * j + 1)))) k.

Lemma rfft_val_ext sup n Y Y' k : 1 <= n -> 0 <= k <= n -> (forall j, 0 <= j < n -> Y j = Y' j) ->
  rfft_val sup n Y k = rfft_val sup n Y' k.
Proof.
  intros Hn Hk H. unfold rfft_val. destruct (Z.eqb_spec k 0); [rewrite !H by lia; reflexivity|].
  destruct (Z.eqb_spec k n); [rewrite !H by lia; reflexivity|].
  destruct (Z.ltb_spec k (n - k)); [unfold rfft_lo|unfold rfft_hi]; rewrite !H by lia; reflexivity.
Qed.

Lemma kiss_fftr_ok al n N st time tmp freq wd : 1 <= n <= INT_MAX / 3 -> fftr_ok n st ->
  zlen time = 2 * N -> n <= N -> zlen tmp = n -> n + 1 <= zlen freq ->
  exists freq' tmp' wd', kiss_fftr K al st time tmp freq wd = Ok (freq', tmp', wd') /\ owns wd' wd [] /\
    zlen freq' = zlen freq /\ zlen tmp' = n /\
    ((forall k, al k = true) -> forall k, 0 <= k <= n -> at_ c0 freq' k = real_fft st n (at_ t0 time) k).
Proof.
  intros Hn [S SL SV _] Lt HN Lp Lf. unfold kiss_fftr. rewrite (fk_nfft _ _ S).
  destruct (kiss_fft_ok al n (fr_sub st) (as_cpx time) tmp wd) as (out & w & E & O & LO & VO); try assumption.
  { rewrite (as_cpx_zlen N); lia. }
  rewrite E. cbn [bind]. rewrite INT3' in Hn.
  rewrite (get_at c0 out 0) by lia. cbn [bind]. rewrite set_upd by lia. cbn [bind].
  rewrite set_upd by (rewrite zlen_upd; lia). cbn [bind].
  set (fr0 := upd (upd freq (Z.to_nat 0) _) (Z.to_nat n) _).
  assert (L0 : zlen fr0 = zlen freq) by (unfold fr0; rewrite !zlen_upd; reflexivity).
  rewrite Z.quot_div_nonneg by lia. pose proof (Z.div_pos n 2 ltac:(lia) ltac:(lia)) as D0.
  pose proof (Z.mul_div_le n 2 ltac:(lia)) as D1.
  assert (D2 : n < 2 * (n / 2) + 2) by (pose proof (Z.mod_pos_bound n 2 ltac:(lia)); pose proof (Z.div_mod n 2 ltac:(lia)); lia).
  match goal with |- context [for_range 1 (n / 2 + 1) ?b fr0] =>
  destruct (for_range_inv (fun k f => zlen f = zlen freq /\ forall j, 0 <= j <= n ->
      at_ c0 f j = if (j =? 0) || (j =? n) then at_ c0 fr0 j
                   else if (j <? k) && (j <? n - j) then rfft_lo (at_ c0 (fr_super st)) n (at_ c0 out) j
                   else if (n - j <? k) && (n - j <=? j) then rfft_hi (at_ c0 (fr_super st)) n (at_ c0 out) (n - j)
                   else at_ c0 f j) b 1 (n / 2 + 1) fr0) as (fr & EF & LF & VF) end.
  - lia.
  - split; [exact L0|]. intros j Hj. destruct (Z.eqb_spec j 0), (Z.eqb_spec j n); cbn [orb]; try reflexivity.
    replace (j <? 1) with false by lia. replace (n - j <? 1) with false by lia. reflexivity.
  - intros k f Hk (LF & VF).
    rewrite (get_at c0 out k) by lia. cbn [bind]. rewrite (get_at c0 out (n - k)) by lia. cbn [bind].
    rewrite (get_at c0 (fr_super st)) by lia. cbn [bind].
    rewrite set_upd by lia. cbn [bind]. rewrite set_upd by (rewrite zlen_upd; lia).
    eexists. split; [reflexivity|]. rewrite !zlen_upd. split; [exact LF|].
    intros j Hj. specialize (VF j Hj).
    rewrite at_upd by (rewrite ?zlen_upd; lia). rewrite at_upd by lia.
    destruct ((j =? 0) || (j =? n)) eqn:EO.
    { replace (j =? n - k) with false by lia. replace (j =? k) with false by lia. exact VF. }
    destruct (Z.eqb_spec j (n - k)) as [EJ|NJ].
    { replace ((j <? k + 1) && (j <? n - j)) with false by lia.
      replace ((n - j <? k + 1) && (n - j <=? j)) with true by lia. replace (n - j) with k by lia. reflexivity. }
    destruct (Z.eqb_spec j k) as [EJ|NJ'].
    { replace ((j <? k + 1) && (j <? n - j)) with true by lia. subst j. reflexivity. }
    replace (j <? k + 1) with (j <? k) by lia. replace (n - j <? k + 1) with (n - j <? k) by lia.
    destruct ((j <? k) && (j <? n - j)); [exact VF|]. destruct ((n - j <? k) && (n - j <=? j)); [exact VF|reflexivity].
  - rewrite EF. cbn [bind]. exists fr, out, w. split; [reflexivity|]. split; [exact O|]. split; [exact LF|]. split; [exact LO|].
    intros Hal k Hk.
    assert (G : real_fft st n (at_ t0 time) k = rfft_val (at_ c0 (fr_super st)) n (at_ c0 out) k).
    { unfold real_fft. apply rfft_val_ext; [lia|exact Hk|]. intros j Hj. rewrite VO by assumption.
      apply (fft_val_ext K (ft_twiddles (fr_sub st)) n _ n); [apply (fk_factors _ _ S)|exact Hj|].
      intros i Hi. symmetry. apply (as_cpx_zat N); [lia|exact Lt]. }
    rewrite G. specialize (VF k Hk). rewrite VF. unfold rfft_val.
    clear VF G. destruct (Z.eqb_spec k 0) as [E0|]; cbn [orb].
    { rewrite E0. unfold fr0. rewrite at_upd by (rewrite ?zlen_upd; lia). replace (0 =? n) with false by lia.
      rewrite at_upd by lia. reflexivity. }
    destruct (Z.eqb_spec k n) as [En|]; cbn [orb].
    { rewrite En. unfold fr0. rewrite at_upd by (rewrite ?zlen_upd; lia). rewrite Z.eqb_refl. reflexivity. }
    destruct (Z.ltb_spec k (n - k)).
    + replace (k <? n / 2 + 1) with true by lia. reflexivity.
    + rewrite andb_false_r. replace ((n - k <? n / 2 + 1) && (n - k <=? k)) with true by lia. reflexivity.
Qed.

(** ** The DCT of rows or columns *)
Record direction_ok (n : Z) (d : direction) : Prop := {
  dk_cfg : fftr_ok n (dr_cfg d);
  dk_len : zlen (dr_shift d) = n;
  dk_shift : forall i, 0 <= i < n -> at_ c0 (dr_shift d) i = o_shift K n i
}.

Lemma make_direction_ok n : 1 <= n <= INT_MAX / 3 -> exists d, make_direction K n = Ok (Some d) /\ direction_ok n d.
Proof.
  intros Hn. unfold make_direction. pose proof Hn as Hn'. rewrite INT3' in Hn'.
  rewrite (wrap_small (8 * n)) by lia.
  replace (8 * n / 8) with n by (rewrite Z.mul_comm; symmetry; apply Z.div_mul; lia).
  destruct (fill_table_ok n n (o_shift K n)) as (t & -> & L & V); [lia|]. cbn [bind].
  rewrite wrap_small by lia. rewrite cint_ok by (unfold INT_MAX; lia). cbn [bind].
  destruct (kiss_fftr_alloc_ok n Hn) as (st & -> & F). cbn [bind].
  eexists. split; [reflexivity|]. constructor; cbn; assumption.
Qed.

(** the 1D transform the code performs on x 0 ... x (n-1) *)
Definition mirrored (n : Z) (x : Z -> T) (i : Z) : T := if i <? n then x i else x (2 * n - 1 - i).
Definition dct_val (d : direction) (n : Z) (x : Z -> T) (i : Z) : T :=
  let F := real_fft (dr_cfg d) n (mirrored n x) i in
  let s := at_ c0 (dr_shift d) i in
  o_sub K (o_mul K (fst F) (fst s)) (o_mul K (snd F) (snd s)).

Lemma mirror_ok n (f mirror : list T) pos : 1 <= n -> 2 * n <= zlen mirror -> 2 * n < 2^64 ->
  (forall i, 0 <= i < n -> wrap (pos i) = pos i /\ 0 <= pos i < zlen f) ->
  exists m', for_range 0 n (fun i mirror =>
      v <- get f (wrap (pos i)) ;;
      mirror <- set mirror (wrap (n * 2 - 1 - i)) v ;;
      set mirror i v) mirror = Ok m' /\ zlen m' = zlen mirror /\
    forall i, 0 <= i < 2 * n -> at_ t0 m' i = mirrored n (fun i => at_ t0 f (pos i)) i.
Proof.
  intros Hn Hm HB HP.
  match goal with |- context [for_range 0 n ?b mirror] =>
  destruct (for_range_inv (fun k m => zlen m = zlen mirror /\ forall i, (0 <= i < k \/ 2 * n - k <= i < 2 * n) ->
       at_ t0 m i = mirrored n (fun i => at_ t0 f (pos i)) i) b 0 n mirror) as (m' & E & L & V) end.
  - lia.
  - split; [reflexivity|]. intros; lia.
  - intros k m Hk (L & V). destruct (HP k Hk) as (W & P). rewrite W. rewrite (get_at t0) by lia. cbn [bind].
    rewrite wrap_small by lia. rewrite set_upd by lia. cbn [bind]. rewrite set_upd by (rewrite zlen_upd; lia).
    eexists. split; [reflexivity|]. rewrite !zlen_upd. split; [exact L|]. intros i Hi.
    rewrite at_upd by (rewrite ?zlen_upd; lia). rewrite at_upd by lia. unfold mirrored.
    destruct (Z.eqb_spec i k) as [->|]; [replace (k <? n) with true by lia; reflexivity|].
    destruct (Z.eqb_spec i (n * 2 - 1 - k)) as [->|].
    { replace (n * 2 - 1 - k <? n) with false by lia. f_equal. f_equal. lia. }
    apply V. lia.
  - exists m'. split; [exact E|]. split; [exact L|]. intros i Hi. apply V. lia.
Qed.

Lemma real_fft_ext st n x x' k : 1 <= n -> fftr_ok n st -> 0 <= k <= n -> (forall i, 0 <= i < 2 * n -> x i = x' i) ->
  real_fft st n x k = real_fft st n x' k.
Proof.
  intros Hn [S _ _ _] Hk H. unfold real_fft. apply rfft_val_ext; [lia|exact Hk|]. intros j Hj.
  apply (fft_val_ext K _ n _ n); [apply (fk_factors _ _ S)|exact Hj|]. intros i Hi. rewrite !H by lia. reflexivity.
Qed.

Lemma dct_val_ext d n x x' i : 1 <= n -> direction_ok n d -> 0 <= i < n -> (forall i, 0 <= i < n -> x i = x' i) ->
  dct_val d n x i = dct_val d n x' i.
Proof.
  intros Hn [D _ _] Hi H. unfold dct_val. rewrite (real_fft_ext _ n _ (mirrored n x')); try assumption; try lia; [reflexivity|].
  intros j Hj. unfold mirrored. destruct (Z.ltb_spec j n); apply H; lia.
Qed.

(** one pass over n lines of the given length *)
Lemma kiss_dct_ok al d n len stride dist f mirror F tmp wd N :
  0 <= n -> 1 <= len <= INT_MAX / 3 -> direction_ok len d ->
  (forall j i, 0 <= j < n -> 0 <= i < len -> 0 <= j * dist + i * stride < zlen f) -> zlen f < 2^64 ->
  (forall j i j' i', 0 <= j < n -> 0 <= i < len -> 0 <= j' < n -> 0 <= i' < len ->
      j * dist + i * stride = j' * dist + i' * stride -> j = j' /\ i = i') ->
  zlen mirror = 2 * N -> len <= N -> len + 1 <= zlen F -> zlen tmp = len ->
  exists f' mirror' F' tmp' wd',
    kiss_dct K al d n len stride dist (f, mirror, F, tmp, wd) = Ok (f', mirror', F', tmp', wd') /\
    owns wd' wd [] /\ zlen f' = zlen f /\ zlen mirror' = zlen mirror /\ zlen F' = zlen F /\ zlen tmp' = len /\
    ((forall k, al k = true) -> forall j i, 0 <= j < n -> 0 <= i < len ->
       at_ t0 f' (j * dist + i * stride) = dct_val d len (fun i => at_ t0 f (j * dist + i * stride)) i).
Proof.
  intros Hn Hl D HP HB HU HM HN HF HT. unfold kiss_dct.
  match goal with |- context [for_range 0 n ?b _] =>
  destruct (for_range_inv (fun k (st : dct_state) => let '(f', mirror', F', tmp', wd') := st in
      owns wd' wd [] /\ zlen f' = zlen f /\ zlen mirror' = zlen mirror /\ zlen F' = zlen F /\ zlen tmp' = len /\
      (forall j i, k <= j < n -> 0 <= i < len -> at_ t0 f' (j * dist + i * stride) = at_ t0 f (j * dist + i * stride)) /\
      ((forall k, al k = true) -> forall j i, 0 <= j < k -> 0 <= i < len ->
         at_ t0 f' (j * dist + i * stride) = dct_val d len (fun i => at_ t0 f (j * dist + i * stride)) i))
     b 0 n (f, mirror, F, tmp, wd)) as (((((f' & m') & F') & p') & w') & E & O & Lf & Lm & LF & Lt & _ & V) end.
  - lia.
  - split; [apply owns_refl|]. do 4 (split; [reflexivity||exact HT|]). split; [auto|]. intros; lia.
  - intros k ((((f1 & m1) & F1) & p1) & w1) Hk (O & Lf & Lm & LF & Lt & U & V).
    destruct (mirror_ok len f1 m1 (fun i => k * dist + i * stride)) as (m2 & E2 & L2 & V2).
    { lia. } { lia. } { rewrite INT3' in Hl. lia. }
    { intros i Hi. specialize (HP k i Hk Hi). split; [apply wrap_small; lia|lia]. }
    rewrite E2. cbn [bind]. clear E2.
    destruct (kiss_fftr_ok al len N (dr_cfg d) m2 p1 F1 w1) as (F2 & p2 & w2 & E3 & O3 & L3 & Lp3 & V3); try assumption; try lia.
    { apply (dk_cfg _ _ D). }
    rewrite E3. cbn [bind]. clear E3.
    match goal with |- context [for_range 0 len ?b f1] =>
    destruct (for_range_inv (fun q f' => zlen f' = zlen f /\
       (forall j i, k < j < n -> 0 <= i < len -> at_ t0 f' (j * dist + i * stride) = at_ t0 f1 (j * dist + i * stride)) /\
       (forall j i, 0 <= j < k -> 0 <= i < len -> at_ t0 f' (j * dist + i * stride) = at_ t0 f1 (j * dist + i * stride)) /\
       (forall i, 0 <= i < q -> at_ t0 f' (k * dist + i * stride) =
          o_sub K (o_mul K (fst (at_ c0 F2 i)) (fst (at_ c0 (dr_shift d) i))) (o_mul K (snd (at_ c0 F2 i)) (snd (at_ c0 (dr_shift d) i)))))
      b 0 len f1) as (f2 & E4 & L4 & U4 & D4 & V4) end.
    + lia.
    + split; [exact Lf|]. split; [auto|]. split; [auto|]. intros; lia.
    + intros q f3 Hq (L4 & U4 & D4 & V4). pose proof (HP k q Hk Hq) as PK.
      rewrite (get_at c0 F2) by lia. cbn [bind]. rewrite (get_at c0 (dr_shift d)) by (rewrite (dk_len _ _ D); lia). cbn [bind].
      rewrite wrap_small by lia. rewrite set_upd by lia. eexists. split; [reflexivity|]. rewrite zlen_upd. split; [exact L4|].
      assert (NE : forall j i, 0 <= j < n -> 0 <= i < len -> (j <> k \/ i <> q) ->
           (j * dist + i * stride =? k * dist + q * stride) = false).
      { intros j i Hj Hi Hd. apply Z.eqb_neq. intros X. destruct (HU j i k q) as (? & ?); try assumption. lia. }
      split; [|split].
      * intros j i Hj Hi. pose proof (HP j i ltac:(lia) Hi). rewrite at_upd by lia. rewrite NE by lia. apply U4; assumption.
      * intros j i Hj Hi. pose proof (HP j i ltac:(lia) Hi). rewrite at_upd by lia. rewrite NE by lia. apply D4; assumption.
      * intros i Hi. pose proof (HP k i ltac:(lia) ltac:(lia)). rewrite at_upd by lia.
        destruct (Z.eq_dec i q) as [Eq|Nq].
        -- rewrite Eq, Z.eqb_refl. reflexivity.
        -- rewrite NE by lia. apply V4. lia.
    + rewrite E4. cbn [bind]. eexists. split; [reflexivity|]. cbn beta iota.
      split; [apply (owns_trans _ w1 _ [] []); assumption|]. split; [exact L4|]. split; [lia|]. split; [lia|]. split; [exact Lp3|].
      split.
      * intros j i Hj Hi. rewrite U4 by lia. apply U; lia.
      * intros Hal j i Hj Hi. destruct (Z.eq_dec j k) as [Ej|Nj].
        -- subst j. rewrite V4 by exact Hi. rewrite V3 by (try assumption; lia).
           unfold dct_val. rewrite (real_fft_ext (dr_cfg d) len (at_ t0 m2) (mirrored len (fun i => at_ t0 f (k * dist + i * stride)))); try lia; [reflexivity|apply (dk_cfg _ _ D)|].
           intros r Hr. rewrite V2 by exact Hr. unfold mirrored. destruct (Z.ltb_spec r len); apply U; lia.
        -- rewrite D4 by lia. apply V; [exact Hal|lia|exact Hi].
  - exists f', m', F', p', w'. split; [exact E|]. split; [exact O|]. split; [exact Lf|]. split; [exact Lm|]. split; [exact LF|]. split; [exact Lt|exact V].
Qed.

(** ** The two-dimensional transform *)
Lemma kiss_transform_ok al w h f mirror F tmp0 tmp1 wd :
  1 <= w <= INT_MAX / 3 -> 1 <= h <= INT_MAX / 3 -> zlen f = w * h ->
  zlen mirror = 2 * Z.max w h -> zlen F = Z.max w h + 1 -> zlen tmp0 = w -> zlen tmp1 = h ->
  exists f' wd', kiss_transform K al w h f mirror F tmp0 tmp1 wd = Ok (f', wd') /\ owns wd' wd [] /\ zlen f' = w * h /\
    exists d0 d1, make_direction K w = Ok (Some d0) /\ make_direction K h = Ok (Some d1) /\
      direction_ok w d0 /\ direction_ok h d1 /\
    ((forall k, al k = true) -> forall y x, 0 <= y < h -> 0 <= x < w ->
       at_ t0 f' (y * w + x) = dct_val d1 h (fun y => dct_val d0 w (fun x => at_ t0 f (y * w + x)) x) y).
Proof.
  intros Hw Hh Lf Lm LF L0 L1. unfold kiss_transform.
  destruct (make_direction_ok w Hw) as (d0 & E0 & D0). rewrite E0. cbn [bind].
  assert (D1 : exists d1, (if w =? h then Ok (Some d0) else make_direction K h) = Ok (Some d1) /\
                 make_direction K h = Ok (Some d1) /\ direction_ok h d1).
  { destruct (make_direction_ok h Hh) as (d1 & E1 & D1). destruct (Z.eqb_spec w h) as [X|].
    - exists d0. rewrite <- X. split; [reflexivity|]. split; [exact E0|exact D0].
    - exists d1. split; [exact E1|]. split; [exact E1|exact D1]. }
  destruct D1 as (d1 & -> & E1 & D1). cbn [bind].
  pose proof Hw as Hw'. pose proof Hh as Hh'. rewrite INT3' in Hw', Hh'.
  destruct (kiss_dct_ok al d0 h w 1 w f mirror F tmp0 wd (Z.max w h)) as (f1 & m1 & F1 & p1 & w1 & E & O & Lf1 & Lm1 & LF1 & Lp1 & V1);
    try assumption; try lia.
  { intros j i Hj Hi. nia. }
  { nia. }
  { intros j i j' i' Hj Hi Hj' Hi' X. assert (j = j') by nia. nia. }
  rewrite E. cbn [bind]. clear E.
  destruct (kiss_dct_ok al d1 w h w 1 f1 m1 F1 (if w =? h then p1 else tmp1) w1 (Z.max w h))
    as (f2 & m2 & F2 & p2 & w2 & E & O2 & Lf2 & Lm2 & LF2 & Lp2 & V2); try assumption; try lia.
  { intros j i Hj Hi. nia. }
  { nia. }
  { intros j i j' i' Hj Hi Hj' Hi' X. assert (i = i') by nia. nia. }
  { destruct (Z.eqb_spec w h); lia. }
  rewrite E. cbn [bind]. exists f2, w2. split; [reflexivity|].
  split; [apply (owns_trans _ w1 _ [] []); assumption|]. split; [lia|].
  exists d0, d1. split; [reflexivity|]. split; [exact E1|]. split; [exact D0|]. split; [exact D1|]. intros Hal y x Hy Hx.
  specialize (V2 Hal x y Hx Hy). replace (y * w + x) with (x * 1 + y * w) by lia. rewrite V2.
  apply dct_val_ext; [lia|exact D1|exact Hy|]. intros y' Hy'.
  specialize (V1 Hal y' x Hy' Hx). replace (x * 1 + y' * w) with (y' * w + x * 1) by lia. rewrite V1.
  apply dct_val_ext; [lia|exact D0|exact Hx|]. intros x' Hx'. f_equal. lia.
Qed.
End Transform.
