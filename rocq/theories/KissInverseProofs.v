(** The inverse transforms. *)
From Coq Require Import Reals Lra Lia Znumtheory.
From Verif Require Import Base Spec Kiss History SpecTransform KissInverse SpecInverse.
From Verif Require Import BaseProofs WorldProofs KissProofs KissFactor KissTransform KissExact.
Open Scope list_scope.
Open Scope Z_scope.

(** ** Directions *)
Lemma kf_bfly_forward {T} (K : ops T) al nfft tw fo fs m p s : kf_bfly_dir K false al nfft tw fo fs m p s = kf_bfly K al nfft tw fo fs m p s.
Proof. reflexivity. Qed.
Lemma kf_work_forward {T} (K : ops T) al nfft tw f ins : forall n l, (List.length l <= n)%nat -> forall fo fi fs s,
  kf_work_dir K false al nfft tw f ins l fo fi fs s = kf_work K al nfft tw f ins l fo fi fs s.
Proof.
  induction n as [|n IH]; intros l Hl fo fi fs s; (destruct l as [|p [|m l]]; [reflexivity|reflexivity|]); cbn [List.length] in Hl; [lia|].
  cbn [kf_work_dir kf_work]. destruct (cint (p * m)); [|reflexivity]. cbn [bind]. destruct (p <=? 0); [reflexivity|].
  destruct (m =? 1); [reflexivity|]. f_equal. apply for_range_ext. intros k Hk t. apply IH. lia.
Qed.

Section Generic.
Context {T : Type} (K : ops T).
Notation cpx := (T * T)%type.
Notation c0 := (czero K).

Definition bval4i (tw : Z -> cpx) (s u : Z) (x : Z -> cpx) (q1 : Z) : cpx :=
  bval4 K tw s u x (if q1 =? 1 then 3 else if q1 =? 3 then 1 else q1).
Definition bvali (nfft : Z) (tw : Z -> cpx) (p m s u : Z) (x : Z -> cpx) (q1 : Z) : cpx :=
  if p =? 4 then bval4i tw s u x q1 else bval K nfft tw p m s u x q1.

Ltac gets := repeat (match goal with
  | |- context [get ?l ?i] => rewrite (get_at c0 l i) by (rewrite ?zlen_upd; try lia); cbn [bind]
  | |- context [set ?l ?i ?a] => rewrite (set_upd l i a) by (rewrite ?zlen_upd; try lia); cbn [bind]
  | |- context [cint ?z] => rewrite (cint_ok z) by (unfold INT_MAX; lia); cbn [bind]
  end).
Ltac ups := repeat (rewrite at_upd by (rewrite ?zlen_upd; lia)).
Ltac eqbs := repeat (match goal with |- context [?a =? ?b] =>
  first [replace (a =? b) with true by lia | replace (a =? b) with false by lia] end).

Section Stage.
Context (tw : list cpx) (nfft : Z).
Hypothesis Htw : zlen tw = nfft.
Hypothesis Hn : 1 <= nfft <= INT_MAX / 3.
Notation twf := (at_ c0 tw).

Lemma bfly4i_ok buf fo s m : 0 <= fo -> 1 <= m -> 1 <= s -> s * (4 * m) = nfft -> fo + 4 * m <= zlen buf ->
  exists buf', kf_bfly4_dir K true tw buf fo s m = Ok buf' /\
   columns_done K fo m 4 (fun u q1 => bval4i twf s u (fun q => at_ c0 buf (fo + u + q * m)) q1) buf buf'.
Proof.
  intros Hfo Hm Hs HN Hb. unfold kf_bfly4_dir. destruct (Z.leb_spec m 0); [lia|].
  assert (0 <= s * m < nfft) by nia.
  apply column_loop; try lia. intros u b Hu L V.
  assert (0 <= u * s) by nia. assert (u * s < s * m) by nia. assert (u * (s * 2) = 2 * (u * s)) by ring.
  assert (u * (s * 3) = 3 * (u * s)) by ring.
  assert (s * (4 * m) = 4 * (s * m)) by ring.
  gets. eexists. split; [reflexivity|]. split; [rewrite !zlen_upd; lia|].
  pose proof (V 0 ltac:(lia)) as V0. pose proof (V 1 ltac:(lia)) as V1. pose proof (V 2 ltac:(lia)) as V2.
  pose proof (V 3 ltac:(lia)) as V3.
  rewrite Z.mul_0_l, Z.add_0_r in V0. rewrite Z.mul_1_l in V1.
  split.
  - intros q Hq. ups. unfold bval4i, bval4. rewrite Z.mul_0_l, Z.add_0_r, Z.mul_1_l.
    rewrite <- V0, <- V1, <- V2, <- V3.
    assert (C : q = 0 \/ q = 1 \/ q = 2 \/ q = 3) by lia. destruct C as [->|[->|[->| ->]]]; eqbs; reflexivity.
  - intros i Hi Ho. ups. pose proof (Ho 0 ltac:(lia)). pose proof (Ho 1 ltac:(lia)). pose proof (Ho 2 ltac:(lia)).
    pose proof (Ho 3 ltac:(lia)). eqbs. reflexivity.
Qed.

Lemma bflyi_ok al buf fo s m p wd : 0 <= fo -> 1 <= m -> 1 <= p -> 1 <= s -> s * (p * m) = nfft -> fo + p * m <= zlen buf ->
  exists buf' wd', kf_bfly_dir K true al nfft tw fo s m p (buf, wd) = Ok (buf', wd') /\ owns wd' wd [] /\
   zlen buf' = zlen buf /\
   (forall i, 0 <= i < zlen buf -> ~ (fo <= i < fo + p * m) -> at_ c0 buf' i = at_ c0 buf i) /\
   ((forall k, al k = true) ->
    columns_done K fo m p (fun u q1 => bvali nfft twf p m s u (fun q => at_ c0 buf (fo + u + q * m)) q1) buf buf').
Proof.
  intros Hfo Hm Hp Hs HN Hb. unfold bvali. destruct (Z.eqb_spec p 4) as [->|N4].
  - unfold kf_bfly_dir. cbn [Z.eqb Pos.eqb].
    destruct (bfly4i_ok buf fo s m) as (b & E & D); try lia. rewrite E. cbn [bind]. exists b, wd.
    split; [reflexivity|]. split; [apply owns_refl|]. split; [apply D|]. split; [apply D|]. intros _. exact D.
  - replace (kf_bfly_dir K true al nfft tw fo s m p (buf, wd)) with (kf_bfly K al nfft tw fo s m p (buf, wd)).
    + apply bfly_ok; assumption.
    + unfold kf_bfly, kf_bfly_dir. destruct (Z.eqb_spec p 4); [contradiction|reflexivity].
Qed.

Fixpoint ifft_val (factors : list Z) (s : Z) (x : Z -> cpx) (k : Z) : cpx :=
  match factors with
  | p :: m :: rest =>
      bvali nfft twf p m s (k mod m)
        (fun q => if m =? 1 then x q else ifft_val rest (s * p) (fun r => x (q + p * r)) (k mod m)) (k / m)
  | _ => x k
  end.

Lemma bvali_ext p m s u x x' q1 : 1 <= p -> (forall q, 0 <= q < p -> x q = x' q) ->
  bvali nfft twf p m s u x q1 = bvali nfft twf p m s u x' q1.
Proof.
  intros Hp H. unfold bvali. destruct (Z.eqb_spec p 4) as [->|]; [unfold bval4i, bval4; rewrite !H by lia; reflexivity|].
  apply bval_ext; assumption.
Qed.
Lemma ifft_val_ext l N : factors_ok l N -> forall s x x' k, 0 <= k < N -> (forall j, 0 <= j < N -> x j = x' j) ->
  ifft_val l s x k = ifft_val l s x' k.
Proof.
  induction 1 as [p rest Hp|p m rest Hp Hm H IH]; intros s x x' k Hk Hx; cbn [ifft_val].
  - apply bvali_ext; [exact Hp|]. intros q Hq. cbn. apply Hx. exact Hq.
  - apply bvali_ext; [exact Hp|]. intros q Hq. replace (m =? 1) with false by lia.
    apply IH; [apply Z.mod_pos_bound; lia|]. intros j Hj. apply Hx. nia.
Qed.

Lemma kf_worki_ok al f ins : forall l N, factors_ok l N -> forall fo fi s buf wd,
  1 <= s -> s * N = nfft -> 0 <= fo -> fo + N <= zlen buf ->
  (forall j, 0 <= j < N -> 0 <= fi + j * (s * ins) < zlen f) ->
  exists buf' wd', kf_work_dir K true al nfft tw f ins l fo fi s (buf, wd) = Ok (buf', wd') /\ owns wd' wd [] /\
   zlen buf' = zlen buf /\
   (forall i, 0 <= i < zlen buf -> ~ (fo <= i < fo + N) -> at_ c0 buf' i = at_ c0 buf i) /\
   ((forall k, al k = true) -> forall k, 0 <= k < N ->
      at_ c0 buf' (fo + k) = ifft_val l s (fun j => at_ c0 f (fi + j * (s * ins))) k).
Proof.
  induction 1 as [p rest Hp|p m rest Hp Hm H IH]; intros fo fi s buf wd Hs HN Hfo Hb Hf; cbn [kf_work_dir]; rewrite (INT3) in Hn.
  - rewrite Z.mul_1_r. rewrite cint_ok by (unfold INT_MAX; nia). cbn [bind]. destruct (Z.leb_spec p 0); [lia|].
    change (1 =? 1) with true. cbn iota.
    match goal with |- context [for_range 0 p ?b (buf, wd)] =>
    destruct (for_range_inv (fun q (st : list cpx * world) => snd st = wd /\ zlen (fst st) = zlen buf /\
       (forall j, 0 <= j < q -> at_ c0 (fst st) (fo + j) = at_ c0 f (fi + j * (s * ins))) /\
       (forall i, 0 <= i < zlen buf -> ~ (fo <= i < fo + p) -> at_ c0 (fst st) i = at_ c0 buf i)) b 0 p (buf, wd))
      as ((b1 & w1) & E & EW & L & V & F) end.
    + lia.
    + cbn [fst snd]. split; [reflexivity|]. split; [reflexivity|]. split; [intros; lia|auto].
    + intros q (b & w) Hq (EW & L & V & F). cbn [fst snd] in *. subst w. specialize (Hf q Hq).
      rewrite (get_at c0 f) by lia. cbn [bind]. rewrite set_upd by lia. cbn [bind]. eexists. split; [reflexivity|].
      cbn [fst snd]. split; [reflexivity|]. split; [rewrite zlen_upd; exact L|]. split.
      * intros j Hj. rewrite at_upd by lia. destruct (Z.eqb_spec (fo + j) (fo + q)); [replace j with q by lia; reflexivity|].
        apply V. lia.
      * intros i Hi Ho. rewrite at_upd by lia. replace (i =? fo + q) with false by lia. apply F; assumption.
    + rewrite E. cbn [bind]. cbn [fst snd] in *. subst w1.
      destruct (bflyi_ok al b1 fo s 1 p wd) as (b2 & w2 & E2 & O2 & L2 & F2 & D2); try lia.
      rewrite E2. exists b2, w2. split; [reflexivity|]. split; [exact O2|]. split; [lia|]. split.
      * intros i Hi Ho. rewrite F2 by lia. apply F; assumption.
      * intros Hal k Hk. destruct (D2 Hal) as (_ & D & _). cbn [ifft_val]. rewrite Z.mod_1_r, Z.div_1_r.
        specialize (D 0 k ltac:(lia) Hk). replace (fo + 0 + k * 1) with (fo + k) in D by lia. rewrite D.
        apply bvali_ext; [lia|]. intros q Hq. cbn. replace (fo + 0 + q * 1) with (fo + q) by lia. apply V. exact Hq.
  - rewrite cint_ok by (unfold INT_MAX; nia). cbn [bind]. destruct (Z.leb_spec p 0); [lia|].
    replace (m =? 1) with false by lia. cbn iota.
    set (x := fun j => at_ c0 f (fi + j * (s * ins))) in *.
    match goal with |- context [for_range 0 p ?b (buf, wd)] =>
    destruct (for_range_inv (fun q (st : list cpx * world) => owns (snd st) wd [] /\ zlen (fst st) = zlen buf /\
       ((forall k, al k = true) -> forall j u, 0 <= j < q -> 0 <= u < m ->
          at_ c0 (fst st) (fo + u + j * m) = ifft_val rest (s * p) (fun r => x (j + p * r)) u) /\
       (forall i, 0 <= i < zlen buf -> ~ (fo <= i < fo + p * m) -> at_ c0 (fst st) i = at_ c0 buf i)) b 0 p (buf, wd))
      as ((b1 & w1) & E & O1 & L & V & F) end.
    + lia.
    + cbn [fst snd]. split; [apply owns_refl|]. split; [reflexivity|]. split; [intros; lia|auto].
    + intros q (b & w) Hq (O1 & L & V & F). cbn [fst snd] in *.
      assert (0 <= q * m) by nia. assert (q * m + m <= p * m) by nia.
      destruct (IH (fo + q * m) (fi + q * (s * ins)) (s * p) b w) as (b' & w' & E' & O' & L' & F' & V'); try nia.
      { intros j Hj. replace (fi + q * (s * ins) + j * (s * p * ins)) with (fi + (q + p * j) * (s * ins)) by ring. apply Hf. nia. }
      rewrite E'. eexists. split; [reflexivity|]. cbn [fst snd].
      split; [apply (owns_trans _ w _ [] []); assumption|]. split; [lia|]. split.
      * intros Hal j u Hj Hu. destruct (Z.eq_dec j q) as [->|Hne].
        -- replace (fo + u + q * m) with (fo + q * m + u) by lia. rewrite V' by assumption.
           apply (ifft_val_ext _ m); [exact H|exact Hu|]. intros r Hr. unfold x. f_equal. ring.
        -- assert (0 <= j * m) by nia. assert (j * m + m <= p * m) by nia.
           rewrite F' by (try lia; intros X; destruct (Z.lt_ge_cases j q); nia). apply V; [exact Hal|lia|exact Hu].
      * intros i Hi Ho. rewrite F' by lia. apply F; assumption.
    + rewrite E. cbn [bind]. cbn [fst snd] in *.
      destruct (bflyi_ok al b1 fo s m p w1) as (b2 & w2 & E2 & O2 & L2 & F2 & D2); try lia.
      rewrite E2. exists b2, w2. split; [reflexivity|].
      split; [apply (owns_trans _ w1 _ [] []); assumption|]. split; [lia|]. split.
      * intros i Hi Ho. rewrite F2 by lia. apply F; assumption.
      * intros Hal k Hk. destruct (D2 Hal) as (_ & D & _). cbn [ifft_val]. replace (m =? 1) with false by lia.
        pose proof (Z.mod_pos_bound k m ltac:(lia)) as Hu.
        assert (Hq : 0 <= k / m < p).
        { split; [apply Z.div_pos; lia|]. apply Z.div_lt_upper_bound; [lia|]. rewrite Z.mul_comm. apply Hk. }
        specialize (D (k mod m) (k / m) Hu Hq).
        replace (fo + k mod m + k / m * m) with (fo + k) in D by (rewrite (Z.div_mod k m) at 1 by lia; ring).
        rewrite D. apply bvali_ext; [lia|]. intros q Hq'. apply V; assumption.
Qed.
End Stage.
End Generic.

(** ** In exact arithmetic *)
Section Exact.
Local Open Scope R_scope.
Notation e0 := (czero exact_ops).

Lemma conj_zero : conj e0 = e0.
Proof. unfold conj, czero. cbn. f_equal. ring. Qed.
Lemma at_conj (l : list cx) i : at_ e0 (map conj l) i = conj (at_ e0 l i).
Proof. unfold at_. rewrite <- conj_zero at 1. apply map_nth. Qed.

Ltac values := unfold conj, C_ADD, C_SUB, C_MUL, C_MULBYSCALAR; cbn [exact_ops o_add o_sub o_mul o_neg o_half fst snd];
  apply injective_projections; cbn [fst snd]; ring.

Section Conj.
Variables (tw tw' x x' : Z -> cx).
Hypothesis T : forall i, tw' i = conj (tw i).
Hypothesis X : forall i, x' i = conj (x i).

Lemma bval2_conj s u q : bval2 exact_ops tw s u x q = conj (bval2 exact_ops tw' s u x' q).
Proof. unfold bval2. rewrite !T, !X. destruct (q =? 0)%Z; values. Qed.
Lemma bval3_conj m s u q : bval3 exact_ops tw m s u x q = conj (bval3 exact_ops tw' m s u x' q).
Proof. unfold bval3. rewrite !T, !X. cbv zeta. destruct (q =? 0)%Z; [values|]. destruct (q =? 1)%Z; values. Qed.
Lemma bval4_conj s u q : (0 <= q < 4)%Z -> bval4i exact_ops tw s u x q = conj (bval4 exact_ops tw' s u x' q).
Proof.
  intros H. unfold bval4i, bval4. rewrite !T, !X. cbv zeta.
  assert (C : q = 0%Z \/ q = 1%Z \/ q = 2%Z \/ q = 3%Z) by lia. destruct C as [->|[->|[->| ->]]]; cbn [Z.eqb Pos.eqb]; values.
Qed.
Lemma bval5_conj m s u q : bval5 exact_ops tw m s u x q = conj (bval5 exact_ops tw' m s u x' q).
Proof.
  unfold bval5. rewrite !T, !X. cbv zeta. destruct (q =? 0)%Z; [values|]. destruct (q =? 1)%Z; [values|]. destruct (q =? 2)%Z; [values|].
  destruct (q =? 3)%Z; values.
Qed.
Lemma bvalg_conj n p m s u q : bvalg exact_ops n tw p m s u x q = conj (bvalg exact_ops n tw' p m s u x' q).
Proof.
  unfold bvalg. rewrite X.
  assert (G : forall l a i, fst (fold_left (gstep exact_ops n tw s (u + q * m) x) l (a, i)) =
    conj (fst (fold_left (gstep exact_ops n tw' s (u + q * m) x') l (conj a, i)))).
  { induction l as [|r l IH]; intros a i; cbn [fold_left]; [cbn [fst]; rewrite conj_conj; reflexivity|].
    unfold gstep at 2 4. cbn [fst snd]. rewrite IH, T, X.
    match goal with |- context [conj (C_ADD exact_ops a (C_MUL exact_ops ?b ?c))] =>
      replace (conj (C_ADD exact_ops a (C_MUL exact_ops b c))) with (C_ADD exact_ops (conj a) (C_MUL exact_ops (conj b) (conj c))) by values end.
    reflexivity. }
  rewrite G. do 2 f_equal.
Qed.
Lemma bval_conj n p m s u q : (0 <= q < p)%Z -> bvali exact_ops n tw p m s u x q = conj (bval exact_ops n tw' p m s u x' q).
Proof.
  intros Hq. unfold bvali, bval. destruct (Z.eqb_spec p 4) as [->|]; [apply bval4_conj; exact Hq|].
  destruct (p =? 2)%Z; [apply bval2_conj|]. destruct (p =? 3)%Z; [apply bval3_conj|]. destruct (p =? 5)%Z; [apply bval5_conj|]. apply bvalg_conj.
Qed.
End Conj.

Lemma ifft_val_conj tw n : forall l N, factors_ok l N -> forall s x k, (0 <= k < N)%Z ->
  ifft_val exact_ops tw n l s x k = conj (fft_val exact_ops (map conj tw) n l s (fun j => conj (x j)) k).
Proof.
  induction 1 as [p rest Hp|p m rest Hp Hm H IH]; intros s x k Hk; cbn [ifft_val fft_val].
  - apply bval_conj; [intros; apply at_conj| |].
    + intros i. cbn. reflexivity.
    + rewrite Z.div_1_r. exact Hk.
  - replace (m =? 1)%Z with false by lia. pose proof (Z.mod_pos_bound k m ltac:(lia)) as Hu.
    apply bval_conj; [intros; apply at_conj| |].
    + intros i. rewrite IH by exact Hu. rewrite conj_conj. reflexivity.
    + split; [apply Z.div_pos; lia|]. apply Z.div_lt_upper_bound; [lia|]. rewrite Z.mul_comm. apply Hk.
Qed.

Lemma inverse_dft_conj n x k : (0 <= n)%Z -> inverse_dft n x k = conj (dft n (fun j => conj (x j)) k).
Proof.
  intros Hn. unfold inverse_dft, dft. rewrite <- csum_conj by exact Hn. apply csum_ext. intros j Hj. rewrite conj_mul, conj_conj, <- cis_opp. do 2 f_equal. ring.
Qed.

Lemma ifft_exact n st x k : fft_ok exact_inverse_ops n st -> (1 <= n)%Z -> (0 <= k < n)%Z ->
  ifft_val exact_ops (ft_twiddles st) n (ft_factors st) 1 x k = inverse_dft n x k.
Proof.
  intros [_ F L V] Hn Hk. rewrite (ifft_val_conj _ n _ n) by assumption. rewrite inverse_dft_conj by lia. f_equal.
  assert (V' : forall i, (0 <= i < n)%Z -> at_ e0 (map conj (ft_twiddles st)) i = W n i).
  { intros i Hi. rewrite at_conj. unfold W. rewrite cis_opp. f_equal. exact (V i Hi). }
  rewrite (fft_val_exact _ n V' _ n) by (assumption || lia).
  rewrite dft_W. apply csum_ext. intros j Hj. rewrite Z.mul_1_l. reflexivity.
Qed.

(** ** Orthogonality *)
Lemma cx_domain a b : cmul a b = c_0 -> a <> c_0 -> b = c_0.
Proof.
  intros H N. destruct a as (a1 & a2), b as (b1 & b2). unfold cmul, c_0 in *. cbn in H. injection H as H1 H2.
  assert (P : 0 < a1 * a1 + a2 * a2).
  { destruct (Req_dec a1 0) as [->|]; [destruct (Req_dec a2 0) as [->|]; [exfalso; apply N; reflexivity|nra]|nra]. }
  f_equal; apply Rmult_eq_reg_l with (a1 * a1 + a2 * a2); try lra.
  - transitivity (a1 * (a1 * b1 - a2 * b2) + a2 * (a1 * b2 + a2 * b1)); [ring|]. rewrite H1, H2. ring.
  - transitivity (a1 * (a1 * b2 + a2 * b1) - a2 * (a1 * b1 - a2 * b2)); [ring|]. rewrite H1, H2. ring.
Qed.
Lemma W_one n d : (1 <= n)%Z -> W n d = c_1 -> exists q, (d = q * n)%Z.
Proof.
  intros Hn H. unfold W, cis, c_1 in H. injection H as C _. rewrite cos_neg in C.
  assert (NZ : IZR n <> 0) by (apply IZR_nz; lia).
  replace (2 * PI * IZR d / IZR n) with (2 * (PI * IZR d / IZR n)) in C by (field; exact NZ). rewrite cos_2a_sin in C.
  assert (S : sin (PI * IZR d / IZR n) = 0) by nra.
  apply sin_eq_0_0 in S. destruct S as (q & Q). exists q. pose proof PI_RGT_0.
  apply eq_IZR. rewrite mult_IZR. apply Rmult_eq_reg_l with PI; [|lra].
  apply Rmult_eq_reg_r with (/ IZR n); [|apply Rinv_neq_0_compat; exact NZ].
  replace (PI * (IZR q * IZR n) * / IZR n) with (IZR q * PI) by (field; exact NZ). rewrite <- Q. unfold Rdiv. ring.
Qed.
Lemma W_powers n d : forall m, (0 <= m)%Z -> cmul (csub (W n d) c_1) (csum (fun k => W n (d * k)) 0 m) = csub (W n (d * m)) c_1.
Proof.
  apply csum_ind.
  - rewrite csum_empty by lia. rewrite Z.mul_0_r, W_0. cring.
  - intros m Hm IH. rewrite csum_last by exact Hm.
    replace (cmul (csub (W n d) c_1) (cadd (csum (fun k => W n (d * k)) 0 m) (W n (d * m))))
      with (cadd (cmul (csub (W n d) c_1) (csum (fun k => W n (d * k)) 0 m)) (cmul (csub (W n d) c_1) (W n (d * m)))) by cring.
    rewrite IH. replace (d * (m + 1))%Z with (d + d * m)%Z by ring. rewrite W_add. cring.
Qed.
Lemma W_sum n d : (1 <= n)%Z -> (- n < d < n)%Z -> csum (fun k => W n (d * k)) 0 n = if (d =? 0)%Z then (IZR n, 0) else c_0.
Proof.
  intros Hn Hd. destruct (Z.eqb_spec d 0) as [->|ND].
  - assert (G : forall m, (0 <= m)%Z -> csum (fun k => W n (0 * k)) 0 m = (IZR m, 0)).
    { apply csum_ind; [rewrite csum_empty by lia; reflexivity|]. intros m Hm IH. rewrite csum_last, IH by exact Hm. rewrite Z.mul_0_l, W_0.
      unfold cadd, c_1. cbn. rewrite plus_IZR. f_equal; ring. }
    apply G. lia.
  - apply (cx_domain (csub (W n d) c_1)).
    + rewrite W_powers by lia. replace (d * n)%Z with (0 + n * d)%Z by ring. rewrite W_period, W_0 by lia. cring.
    + intros H. destruct (W_one n d Hn) as (q & Q).
      * replace (W n d) with (cadd (csub (W n d) c_1) c_1) by cring. rewrite H. cring.
      * assert (q = 0 \/ q <= -1 \/ 1 <= q)%Z as [->|C] by lia; [lia|]. nia.
Qed.
Lemma csum_single f n l : (0 <= l < n)%Z -> (forall j, (0 <= j < n)%Z -> j <> l -> f j = c_0) -> csum f 0 n = f l.
Proof.
  intros Hl H. rewrite (csum_split f 0 l n), (csum_first f l) by lia.
  assert (Z0 : forall lo hi, (lo <= hi)%Z -> (forall j, (lo <= j < hi)%Z -> f j = c_0) -> csum f lo hi = c_0).
  { intros lo hi Hh. revert hi Hh. apply (csum_ind (fun hi => (forall j, (lo <= j < hi)%Z -> f j = c_0) -> csum f lo hi = c_0)).
    - intros _. apply csum_empty. lia.
    - intros hi Hh IH HF. rewrite csum_last, IH, HF by (try lia; intros; apply HF; lia). cring. }
  rewrite !Z0 by (try lia; intros; apply H; lia). cring.
Qed.
Lemma dft_inverse n x l : (1 <= n)%Z -> (0 <= l < n)%Z -> inverse_dft n (dft n x) l = cmul (x l) (IZR n, 0).
Proof.
  intros Hn Hl. unfold inverse_dft.
  rewrite (csum_ext _ (fun k => csum (fun j => cmul (x j) (W n ((j - l) * k))) 0 n)).
  - rewrite csum_swap by lia. rewrite (csum_ext _ (fun j => cmul (csum (fun k => W n ((j - l) * k)) 0 n) (x j))).
    + rewrite (csum_single _ n l) by (try exact Hl; intros j Hj NJ; rewrite W_sum by lia; replace (j - l =? 0)%Z with false by lia; cring).
      rewrite W_sum by lia. replace (l - l =? 0)%Z with true by lia. cring.
    + intros j Hj. rewrite <- csum_mul by lia. apply csum_ext. intros k Hk. cxring.
  - intros k Hk. rewrite dft_W, <- csum_mul by lia. apply csum_ext. intros j Hj.
    replace ((j - l) * k)%Z with (j * k + - (k * l))%Z by ring. rewrite W_add, <- W_conj.
    replace (cis (2 * PI * IZR (k * l) / IZR n)) with (conj (W n (k * l))) by (unfold W; rewrite cis_opp, conj_conj; reflexivity).
    cxring.
Qed.
End Exact.
