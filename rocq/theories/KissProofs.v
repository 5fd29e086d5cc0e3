(** The KISS FFT code is memory safe and computes certain pure expressions, for any
    scalar operations. *)
From Coq Require Import Permutation.
From Verif Require Import Base Spec BaseProofs Util Methods Analysis History WorldProofs Kiss.

Lemma cint_ok z : - 2^31 <= z <= INT_MAX -> cint z = Ok z.
Proof. intros H. unfold cint. replace ((- 2 ^ 31 <=? z) && (z <=? INT_MAX)) with true by lia. reflexivity. Qed.

Section Generic.
Context {T : Type} (K : ops T).
Notation cpx := (T * T)%type.
Notation c0 := (czero K).

(** ** Values of the butterflies: column u, inputs x 0 ... x (p-1), output q1 *)
Definition bval2 (tw : Z -> cpx) (s u : Z) (x : Z -> cpx) (q1 : Z) : cpx :=
  let t := C_MUL K (x 1) (tw (u * s)) in
  if q1 =? 0 then C_ADD K (x 0) t else C_SUB K (x 0) t.

Definition bval3 (tw : Z -> cpx) (m s u : Z) (x : Z -> cpx) (q1 : Z) : cpx :=
  let a := x 0 in
  let s1 := C_MUL K (x 1) (tw (u * s)) in
  let s2 := C_MUL K (x 2) (tw (u * (s * 2))) in
  let s3 := C_ADD K s1 s2 in
  let s0 := C_SUB K s1 s2 in
  let fm := (o_sub K (fst a) (o_half K (fst s3)), o_sub K (snd a) (o_half K (snd s3))) in
  let s0 := C_MULBYSCALAR K s0 (snd (tw (s * m))) in
  if q1 =? 0 then C_ADD K a s3
  else if q1 =? 1 then (o_sub K (fst fm) (snd s0), o_add K (snd fm) (fst s0))
  else (o_add K (fst fm) (snd s0), o_sub K (snd fm) (fst s0)).

Definition bval4 (tw : Z -> cpx) (s u : Z) (x : Z -> cpx) (q1 : Z) : cpx :=
  let s0 := C_MUL K (x 1) (tw (u * s)) in
  let s1 := C_MUL K (x 2) (tw (u * (s * 2))) in
  let s2 := C_MUL K (x 3) (tw (u * (s * 3))) in
  let s5 := C_SUB K (x 0) s1 in
  let a := C_ADD K (x 0) s1 in
  let s3 := C_ADD K s0 s2 in
  let s4 := C_SUB K s0 s2 in
  if q1 =? 0 then C_ADD K a s3
  else if q1 =? 1 then (o_add K (fst s5) (snd s4), o_sub K (snd s5) (fst s4))
  else if q1 =? 2 then C_SUB K a s3
  else (o_sub K (fst s5) (snd s4), o_add K (snd s5) (fst s4)).

Definition bval5 (tw : Z -> cpx) (m s u : Z) (x : Z -> cpx) (q1 : Z) : cpx :=
  let add := o_add K in let sub := o_sub K in let mul := o_mul K in let neg := o_neg K in
  let ya := tw (s * m) in
  let yb := tw (s * 2 * m) in
  let s0 := x 0 in
  let s1 := C_MUL K (x 1) (tw (u * s)) in
  let s2 := C_MUL K (x 2) (tw (2 * u * s)) in
  let s3 := C_MUL K (x 3) (tw (3 * u * s)) in
  let s4 := C_MUL K (x 4) (tw (4 * u * s)) in
  let s7 := C_ADD K s1 s4 in
  let s10 := C_SUB K s1 s4 in
  let s8 := C_ADD K s2 s3 in
  let s9 := C_SUB K s2 s3 in
  let s5 := (add (add (fst s0) (mul (fst s7) (fst ya))) (mul (fst s8) (fst yb)),
             add (add (snd s0) (mul (snd s7) (fst ya))) (mul (snd s8) (fst yb))) in
  let s6 := (add (mul (snd s10) (snd ya)) (mul (snd s9) (snd yb)),
             sub (neg (mul (fst s10) (snd ya))) (mul (fst s9) (snd yb))) in
  let s11 := (add (add (fst s0) (mul (fst s7) (fst yb))) (mul (fst s8) (fst ya)),
              add (add (snd s0) (mul (snd s7) (fst yb))) (mul (snd s8) (fst ya))) in
  let s12 := (add (neg (mul (snd s10) (snd yb))) (mul (snd s9) (snd ya)),
              sub (mul (fst s10) (snd yb)) (mul (fst s9) (snd ya))) in
  if q1 =? 0 then (add (fst s0) (add (fst s7) (fst s8)), add (snd s0) (add (snd s7) (snd s8)))
  else if q1 =? 1 then C_SUB K s5 s6
  else if q1 =? 2 then C_ADD K s11 s12
  else if q1 =? 3 then C_SUB K s11 s12
  else C_ADD K s5 s6.

(** generic radix: index k = u + q1 m, running twiddle index *)
Definition gstep (nfft : Z) (tw : Z -> cpx) (s k : Z) (x : Z -> cpx) (st : cpx * Z) (q : Z) : cpx * Z :=
  let i := snd st + s * k in
  let i := if i >=? nfft then i - nfft else i in
  (C_ADD K (fst st) (C_MUL K (x q) (tw i)), i).
Definition bvalg (nfft : Z) (tw : Z -> cpx) (p m s u : Z) (x : Z -> cpx) (q1 : Z) : cpx :=
  fst (fold_left (gstep nfft tw s (u + q1 * m) x) (zrange 1 p) (x 0, 0)).

Definition bval (nfft : Z) (tw : Z -> cpx) (p m s u : Z) (x : Z -> cpx) (q1 : Z) : cpx :=
  if p =? 2 then bval2 tw s u x q1
  else if p =? 3 then bval3 tw m s u x q1
  else if p =? 4 then bval4 tw s u x q1
  else if p =? 5 then bval5 tw m s u x q1
  else bvalg nfft tw p m s u x q1.

(** ** Loops that work on one column at a time *)
Definition column_step (fo m p u : Z) (val : Z -> cpx) (buf buf' : list cpx) : Prop :=
  zlen buf' = zlen buf /\
  (forall q, 0 <= q < p -> at_ c0 buf' (fo + u + q * m) = val q) /\
  (forall i, 0 <= i < zlen buf -> (forall q, 0 <= q < p -> i <> fo + u + q * m) -> at_ c0 buf' i = at_ c0 buf i).

Definition columns_done (fo m p : Z) (val : Z -> Z -> cpx) (buf buf' : list cpx) : Prop :=
  zlen buf' = zlen buf /\
  (forall u q, 0 <= u < m -> 0 <= q < p -> at_ c0 buf' (fo + u + q * m) = val u q) /\
  (forall i, 0 <= i < zlen buf -> ~ (fo <= i < fo + p * m) -> at_ c0 buf' i = at_ c0 buf i).

Lemma column_unique m u u' q q' : 0 <= u < m -> 0 <= u' < m -> u + q * m = u' + q' * m -> u = u' /\ q = q'.
Proof. intros. assert (q = q') by nia. nia. Qed.

Lemma column_loop (body : Z -> list cpx -> res (list cpx)) fo m p val buf0 :
  0 <= m -> 0 <= p -> 0 <= fo -> fo + p * m <= zlen buf0 ->
  (forall u buf, 0 <= u < m -> zlen buf = zlen buf0 ->
     (forall q, 0 <= q < p -> at_ c0 buf (fo + u + q * m) = at_ c0 buf0 (fo + u + q * m)) ->
     exists buf', body u buf = Ok buf' /\ column_step fo m p u (val u) buf buf') ->
  exists buf', for_range 0 m body buf0 = Ok buf' /\ columns_done fo m p val buf0 buf'.
Proof.
  intros Hm Hp Hfo Hb Hs.
  destruct (for_range_inv (fun u buf => zlen buf = zlen buf0 /\
      (forall v q, 0 <= v < m -> 0 <= q < p ->
         at_ c0 buf (fo + v + q * m) = if v <? u then val v q else at_ c0 buf0 (fo + v + q * m)) /\
      (forall i, 0 <= i < zlen buf0 -> ~ (fo <= i < fo + p * m) -> at_ c0 buf i = at_ c0 buf0 i))
    body 0 m buf0) as (buf' & E & L & V & F).
  - lia.
  - split; [reflexivity|]. split; [|auto]. intros v q Hv Hq. replace (v <? 0) with false by lia. reflexivity.
  - intros u buf Hu (L & V & F).
    destruct (Hs u buf Hu L) as (buf' & E & L' & V' & F').
    { intros q Hq. rewrite V by lia. replace (u <? u) with false by lia. reflexivity. }
    exists buf'. split; [exact E|]. split; [lia|]. split.
    + intros v q Hv Hq. destruct (Z.eq_dec v u) as [->|Hne].
      * rewrite V' by lia. replace (u <? u + 1) with true by lia. reflexivity.
      * rewrite F'.
        -- rewrite V by lia. destruct (Z.ltb_spec v u); destruct (Z.ltb_spec v (u + 1)); try lia; reflexivity.
        -- assert (q * m + m <= p * m) by nia. assert (0 <= q * m) by nia. lia.
        -- intros q' Hq' EQ. destruct (column_unique m v u q q'); lia.
    + intros i Hi Ho. rewrite F'.
      * apply F; assumption.
      * lia.
      * intros q Hq ->. apply Ho. assert (q * m + m <= p * m) by nia. assert (0 <= q * m) by nia. lia.
  - exists buf'. split; [exact E|]. split; [exact L|]. split; [|exact F].
    intros u q Hu Hq. rewrite V by lia. replace (u <? m) with true by lia. reflexivity.
Qed.

Ltac gets := repeat (match goal with
  | |- context [get ?l ?i] => rewrite (get_at c0 l i) by (rewrite ?zlen_upd; try lia); cbn [bind]
  | |- context [set ?l ?i ?a] => rewrite (set_upd l i a) by (rewrite ?zlen_upd; try lia); cbn [bind]
  | |- context [cint ?z] => rewrite (cint_ok z) by (unfold INT_MAX; lia); cbn [bind]
  end).
Ltac ups := repeat (rewrite at_upd by (rewrite ?zlen_upd; lia)).
Ltac eqbs := repeat (match goal with |- context [?a =? ?b] =>
  first [replace (a =? b) with true by lia | replace (a =? b) with false by lia] end).

Section Stage.
Context (tw : list cpx) (nfft : Z).
Hypothesis Htw : zlen tw = nfft.
Hypothesis Hn : 1 <= nfft <= INT_MAX / 3.

Notation twf := (at_ c0 tw).

Lemma INT3 : INT_MAX / 3 = 715827882. Proof. reflexivity. Qed.

Lemma bfly2_ok buf fo s m : 0 <= fo -> 1 <= m -> 1 <= s -> s * (2 * m) = nfft -> fo + 2 * m <= zlen buf ->
  exists buf', kf_bfly2 K tw buf fo s m = Ok buf' /\
   columns_done fo m 2 (fun u q1 => bval2 twf s u (fun q => at_ c0 buf (fo + u + q * m)) q1) buf buf'.
Proof.
  intros Hfo Hm Hs HN Hb. unfold kf_bfly2. destruct (Z.leb_spec m 0); [lia|].
  apply column_loop; try lia. intros u b Hu L V.
  assert (u * s < nfft) by nia.
  gets; [|nia..]. eexists. split; [reflexivity|]. split; [rewrite !zlen_upd; lia|].
  pose proof (V 0 ltac:(lia)) as V0. pose proof (V 1 ltac:(lia)) as V1.
  rewrite Z.mul_0_l, Z.add_0_r in V0. rewrite Z.mul_1_l in V1.
  split.
  - intros q Hq. ups. unfold bval2. rewrite Z.mul_0_l, Z.add_0_r, Z.mul_1_l.
    rewrite <- V0, <- V1.
    replace (fo + m + u) with (fo + u + m) by lia.
    destruct (Z.eq_dec q 0) as [->|]; [eqbs; reflexivity|]. replace q with 1 by lia. eqbs. reflexivity.
  - intros i Hi Ho. ups. pose proof (Ho 0 ltac:(lia)). pose proof (Ho 1 ltac:(lia)). eqbs. reflexivity.
Qed.

Lemma bfly3_ok buf fo s m : 0 <= fo -> 1 <= m -> 1 <= s -> s * (3 * m) = nfft -> fo + 3 * m <= zlen buf ->
  exists buf', kf_bfly3 K tw buf fo s m = Ok buf' /\
   columns_done fo m 3 (fun u q1 => bval3 twf m s u (fun q => at_ c0 buf (fo + u + q * m)) q1) buf buf'.
Proof.
  intros Hfo Hm Hs HN Hb. unfold kf_bfly3. destruct (Z.leb_spec m 0); [lia|].
  assert (0 <= s * m < nfft) by nia.
  rewrite (get_at c0 tw (s * m)) by lia. cbn [bind].
  apply column_loop; try lia. intros u b Hu L V.
  assert (0 <= u * s) by nia. assert (u * s < s * m) by nia. assert (u * (s * 2) = 2 * (u * s)) by ring.
  assert (s * (3 * m) = 3 * (s * m)) by ring.
  gets. eexists. split; [reflexivity|]. split; [rewrite !zlen_upd; lia|].
  pose proof (V 0 ltac:(lia)) as V0. pose proof (V 1 ltac:(lia)) as V1. pose proof (V 2 ltac:(lia)) as V2.
  rewrite Z.mul_0_l, Z.add_0_r in V0. rewrite Z.mul_1_l in V1.
  split.
  - intros q Hq. ups. unfold bval3. rewrite Z.mul_0_l, Z.add_0_r, Z.mul_1_l.
    rewrite <- V0, <- V1, <- V2.
    assert (C : q = 0 \/ q = 1 \/ q = 2) by lia. destruct C as [->|[->| ->]]; eqbs; reflexivity.
  - intros i Hi Ho. ups. pose proof (Ho 0 ltac:(lia)). pose proof (Ho 1 ltac:(lia)). pose proof (Ho 2 ltac:(lia)). eqbs. reflexivity.
Qed.

Lemma bfly4_ok buf fo s m : 0 <= fo -> 1 <= m -> 1 <= s -> s * (4 * m) = nfft -> fo + 4 * m <= zlen buf ->
  exists buf', kf_bfly4 K tw buf fo s m = Ok buf' /\
   columns_done fo m 4 (fun u q1 => bval4 twf s u (fun q => at_ c0 buf (fo + u + q * m)) q1) buf buf'.
Proof.
  intros Hfo Hm Hs HN Hb. unfold kf_bfly4. destruct (Z.leb_spec m 0); [lia|].
  assert (0 <= s * m < nfft) by nia.
  apply column_loop; try lia. intros u b Hu L V.
  assert (0 <= u * s) by nia. assert (u * s < s * m) by nia. assert (u * (s * 2) = 2 * (u * s)) by ring.
  assert (u * (s * 3) = 3 * (u * s)) by ring.
  assert (s * (4 * m) = 4 * (s * m)) by ring.
  gets. eexists. split; [reflexivity|]. split; [rewrite !zlen_upd; lia|].
  pose proof (V 0 ltac:(lia)) as V0. pose proof (V 1 ltac:(lia)) as V1. pose proof (V 2 ltac:(lia)) as V2.
  pose proof (V 3 ltac:(lia)) as V3.
  rewrite Z.mul_0_l, Z.add_0_r in V0. rewrite Z.mul_1_l in V1.
  split.
  - intros q Hq. ups. unfold bval4. rewrite Z.mul_0_l, Z.add_0_r, Z.mul_1_l.
    rewrite <- V0, <- V1, <- V2, <- V3.
    assert (C : q = 0 \/ q = 1 \/ q = 2 \/ q = 3) by lia. destruct C as [->|[->|[->| ->]]]; eqbs; reflexivity.
  - intros i Hi Ho. ups. pose proof (Ho 0 ltac:(lia)). pose proof (Ho 1 ltac:(lia)). pose proof (Ho 2 ltac:(lia)).
    pose proof (Ho 3 ltac:(lia)). eqbs. reflexivity.
Qed.

Lemma bfly5_ok buf fo s m : 0 <= fo -> 1 <= m -> 1 <= s -> s * (5 * m) = nfft -> fo + 5 * m <= zlen buf ->
  exists buf', kf_bfly5 K tw buf fo s m = Ok buf' /\
   columns_done fo m 5 (fun u q1 => bval5 twf m s u (fun q => at_ c0 buf (fo + u + q * m)) q1) buf buf'.
Proof.
  intros Hfo Hm Hs HN Hb. unfold kf_bfly5. rewrite INT3 in Hn.
  assert (0 <= s * m < nfft) by nia. assert (s * 2 * m = 2 * (s * m)) by ring.
  assert (s * (5 * m) = 5 * (s * m)) by ring. assert (m <= s * m) by nia.
  rewrite (get_at c0 tw (s * m)) by lia. cbn [bind].
  rewrite (get_at c0 tw (s * 2 * m)) by lia. cbn [bind].
  rewrite !cint_ok by (unfold INT_MAX; lia). cbn [bind].
  apply column_loop; try lia. intros u b Hu L V.
  assert (0 <= u * s) by nia. assert (u * s < s * m) by nia. assert (2 * u * s = 2 * (u * s)) by ring.
  assert (3 * u * s = 3 * (u * s)) by ring. assert (4 * u * s = 4 * (u * s)) by ring.
  gets. eexists. split; [reflexivity|]. split; [rewrite !zlen_upd; lia|].
  pose proof (V 0 ltac:(lia)) as V0. pose proof (V 1 ltac:(lia)) as V1. pose proof (V 2 ltac:(lia)) as V2.
  pose proof (V 3 ltac:(lia)) as V3. pose proof (V 4 ltac:(lia)) as V4.
  rewrite Z.mul_0_l, Z.add_0_r in V0. rewrite Z.mul_1_l in V1.
  replace (fo + m + u) with (fo + u + m) by lia. replace (fo + 2 * m + u) with (fo + u + 2 * m) by lia.
  replace (fo + 3 * m + u) with (fo + u + 3 * m) by lia. replace (fo + 4 * m + u) with (fo + u + 4 * m) by lia.
  split.
  - intros q Hq. ups. unfold bval5. rewrite Z.mul_0_l, Z.add_0_r, Z.mul_1_l.
    rewrite <- V0, <- V1, <- V2, <- V3, <- V4.
    assert (C : q = 0 \/ q = 1 \/ q = 2 \/ q = 3 \/ q = 4) by lia.
    destruct C as [->|[->|[->|[->| ->]]]]; eqbs; reflexivity.
  - intros i Hi Ho. ups. pose proof (Ho 0 ltac:(lia)). pose proof (Ho 1 ltac:(lia)). pose proof (Ho 2 ltac:(lia)).
    pose proof (Ho 3 ltac:(lia)). pose proof (Ho 4 ltac:(lia)). eqbs. reflexivity.
Qed.

(** the inner loop of the generic butterfly, at index k *)
Lemma ginner_ok (scr buf : list cpx) pos s k p x : 1 <= p -> zlen scr = p ->
  (forall q, 0 <= q < p -> at_ c0 scr q = x q) ->
  0 <= pos < zlen buf -> 0 <= s * k < nfft -> at_ c0 buf pos = x 0 ->
  exists buf' i, for_range 1 p (fun q '(buf, twidx) =>
                twidx <- cint (wrap (twidx + wrap (s * k))) ;;
                twidx <- (if twidx >=? nfft then cint (twidx - nfft) else Ok twidx) ;;
                sc <- get scr q ;;
                w <- get tw twidx ;;
                v <- get buf pos ;;
                buf <- set buf pos (C_ADD K v (C_MUL K sc w)) ;;
                Ok (buf, twidx)) (buf, 0) = Ok (buf', i) /\
   zlen buf' = zlen buf /\ (forall j, 0 <= j < zlen buf -> j <> pos -> at_ c0 buf' j = at_ c0 buf j) /\
   at_ c0 buf' pos = fst (fold_left (gstep nfft twf s k x) (zrange 1 p) (x 0, 0)).
Proof.
  intros Hp Hs Hx Hpos Hsk H0. rewrite INT3 in Hn.
  match goal with |- context [for_range 1 p ?b _] => 
  destruct (for_range_inv (fun q (st : list cpx * Z) => zlen (fst st) = zlen buf /\ 0 <= snd st < nfft /\
     (forall j, 0 <= j < zlen buf -> j <> pos -> at_ c0 (fst st) j = at_ c0 buf j) /\
     (at_ c0 (fst st) pos, snd st) = fold_left (gstep nfft twf s k x) (zrange 1 q) (x 0, 0))
    b 1 p (buf, 0)) as ((buf' & i) & E & L & B & F & V) end.
  - lia.
  - cbn [fst snd]. split; [reflexivity|]. split; [lia|]. split; [auto|]. rewrite zrange_empty by lia. cbn. rewrite H0. reflexivity.
  - intros q (b & i) Hq (L & B & F & V). cbn [fst snd] in *.
    rewrite (wrap_small (s * k)) by lia. rewrite wrap_small by lia.
    rewrite cint_ok by (unfold INT_MAX; lia). cbn [bind].
    assert (TI : (if i + s * k >=? nfft then cint (i + s * k - nfft) else Ok (i + s * k)) =
                 Ok (if i + s * k >=? nfft then i + s * k - nfft else i + s * k)).
    { destruct (i + s * k >=? nfft); [apply cint_ok; unfold INT_MAX; lia|reflexivity]. }
    rewrite TI. cbn [bind]. set (i' := if i + s * k >=? nfft then i + s * k - nfft else i + s * k).
    assert (0 <= i' < nfft) by (unfold i'; destruct (Z.geb_spec (i + s * k) nfft); lia).
    rewrite (get_at c0 scr) by lia. cbn [bind]. rewrite (get_at c0 tw) by lia. cbn [bind].
    rewrite (get_at c0 b) by lia. cbn [bind]. rewrite set_upd by lia. cbn [bind].
    eexists. split; [reflexivity|]. cbn [fst snd]. split; [rewrite zlen_upd; exact L|]. split; [lia|]. split.
    + intros j Hj Hne. rewrite at_upd by lia. replace (j =? pos) with false by lia. apply F; assumption.
    + rewrite zrange_snoc by lia. rewrite fold_left_app. rewrite <- V. cbn [fold_left]. unfold gstep at 1. cbn [fst snd].
      fold i'. rewrite at_upd by lia. rewrite Z.eqb_refl. rewrite Hx by lia. reflexivity.
  - exists buf', i. split; [exact E|]. cbn [fst snd] in *. split; [exact L|]. split; [exact F|]. rewrite <- V. reflexivity.
Qed.

(** one column of the generic butterfly *)
Lemma gcolumn_ok buf fo s m p u : 0 <= fo -> 1 <= m -> 1 <= p -> 1 <= s -> s * (p * m) = nfft -> fo + p * m <= zlen buf -> 0 <= u < m ->
  exists buf',
       ('(scratch, _) <- for_range 0 p (fun q1 '(scratch, k) =>
            v <- get buf (fo + k) ;;
            scratch <- set scratch q1 v ;;
            k <- cint (k + m) ;;
            Ok (scratch, k)) (repeat c0 (Z.to_nat p), u) ;;
        '(buf, _) <- for_range 0 p (fun q1 '(buf, k) =>
            s0 <- get scratch 0 ;;
            buf <- set buf (fo + k) s0 ;;
            '(buf, _) <- for_range 1 p (fun q '(buf, twidx) =>
                twidx <- cint (wrap (twidx + wrap (s * k))) ;;
                twidx <- (if twidx >=? nfft then cint (twidx - nfft) else Ok twidx) ;;
                sc <- get scratch q ;;
                w <- get tw twidx ;;
                v <- get buf (fo + k) ;;
                buf <- set buf (fo + k) (C_ADD K v (C_MUL K sc w)) ;;
                Ok (buf, twidx)) (buf, 0) ;;
            k <- cint (k + m) ;;
            Ok (buf, k)) (buf, u) ;;
        Ok buf) = Ok buf' /\
   column_step fo m p u (bvalg nfft twf p m s u (fun q => at_ c0 buf (fo + u + q * m))) buf buf'.
Proof.
  intros Hfo Hm Hp Hs HN Hb Hu. rewrite INT3 in Hn.
  assert (PM : p * m <= nfft) by nia. assert (MN : m <= nfft) by nia.
  assert (IX : forall q, 0 <= q < p -> 0 <= u + q * m < p * m) by (intros q Hq; nia).
  set (x := fun q => at_ c0 buf (fo + u + q * m)).
  match goal with |- context [for_range 0 p ?b (repeat c0 (Z.to_nat p), u)] =>
  destruct (for_range_inv (fun q (st : list cpx * Z) => zlen (fst st) = p /\ snd st = u + q * m /\
      forall j, 0 <= j < q -> at_ c0 (fst st) j = x j) b 0 p (repeat c0 (Z.to_nat p), u)) as ((scr & k) & E & L & Ek & V) end.
  - lia.
  - cbn [fst snd]. rewrite zlen_repeat. split; [lia|]. split; [lia|]. intros; lia.
  - intros q (sc & k) Hq (L & Ek & V). cbn [fst snd] in *. subst k. pose proof (IX q Hq).
    rewrite (get_at c0) by lia. cbn [bind]. rewrite set_upd by lia. cbn [bind].
    rewrite cint_ok by (unfold INT_MAX; lia). cbn [bind]. eexists. split; [reflexivity|]. cbn [fst snd].
    split; [rewrite zlen_upd; lia|]. split; [lia|]. intros j Hj. rewrite at_upd by lia.
    destruct (Z.eqb_spec j q) as [->|]; [unfold x; f_equal; lia|apply V; lia].
  - rewrite E. cbn [bind]. cbn [fst snd] in *. clear E.
    match goal with |- context [for_range 0 p ?b (buf, u)] =>
    destruct (for_range_inv (fun q1 (st : list cpx * Z) => zlen (fst st) = zlen buf /\ snd st = u + q1 * m /\
        (forall j, 0 <= j < q1 -> at_ c0 (fst st) (fo + u + j * m) = bvalg nfft twf p m s u x j) /\
        (forall i, 0 <= i < zlen buf -> (forall q, 0 <= q < p -> i <> fo + u + q * m) -> at_ c0 (fst st) i = at_ c0 buf i))
       b 0 p (buf, u)) as ((buf' & k') & E & L' & _ & V' & F') end.
    + lia.
    + cbn [fst snd]. split; [reflexivity|]. split; [lia|]. split; [intros; lia|auto].
    + intros q1 (b & k1) Hq (L1 & Ek1 & V1 & F1). cbn [fst snd] in *. subst k1. pose proof (IX q1 Hq).
      rewrite (get_at c0 scr) by lia. cbn [bind]. rewrite set_upd by lia. cbn [bind].
      assert (SK : 0 <= s * (u + q1 * m) < nfft) by nia.
      destruct (ginner_ok scr (upd b (Z.to_nat (fo + (u + q1 * m))) (at_ c0 scr 0)) (fo + (u + q1 * m)) s (u + q1 * m) p x)
        as (b2 & i2 & E2 & L2 & F2 & V2); try assumption; try lia.
      * rewrite zlen_upd. lia.
      * rewrite at_upd by lia. rewrite Z.eqb_refl. apply V. lia.
      * rewrite zlen_upd in L2, F2. rewrite E2. cbn [bind]. rewrite cint_ok by (unfold INT_MAX; lia). cbn [bind].
        eexists. split; [reflexivity|]. cbn [fst snd]. split; [lia|]. split; [lia|]. split.
        -- intros j Hj. destruct (Z.eq_dec j q1) as [->|Hne].
           ++ replace (fo + u + q1 * m) with (fo + (u + q1 * m)) by lia. rewrite V2. reflexivity.
           ++ pose proof (IX j ltac:(lia)).
              assert (j * m <> q1 * m) by (intros EQ; destruct (column_unique m u u j q1); lia).
              rewrite F2 by lia. rewrite at_upd by lia.
              replace (fo + u + j * m =? fo + (u + q1 * m)) with false by lia. apply V1. lia.
        -- intros i Hi Ho. pose proof (Ho q1 Hq). rewrite F2 by lia. rewrite at_upd by lia.
           replace (i =? fo + (u + q1 * m)) with false by lia. apply F1; assumption.
    + rewrite E. cbn [bind]. exists buf'. split; [reflexivity|]. cbn [fst snd] in *. split; [exact L'|]. split; [exact V'|exact F'].
Qed.

Lemma bvalg_ext p m s u x x' q1 : 1 <= p -> (forall q, 0 <= q < p -> x q = x' q) ->
  bvalg nfft twf p m s u x q1 = bvalg nfft twf p m s u x' q1.
Proof.
  intros Hp H. unfold bvalg. rewrite (H 0) by lia. f_equal.
  assert (G : forall l st, (forall q, In q l -> 0 <= q < p) ->
     fold_left (gstep nfft twf s (u + q1 * m) x) l st = fold_left (gstep nfft twf s (u + q1 * m) x') l st).
  { induction l as [|q l IH]; intros st Hl; cbn [fold_left]; [reflexivity|].
    rewrite IH by (intros; apply Hl; right; assumption). f_equal. unfold gstep. rewrite H by (apply Hl; left; reflexivity). reflexivity. }
  apply G. intros q Hq. apply in_zrange in Hq. lia.
Qed.

Lemma bflyg_ok al buf fo s m p wd : 0 <= fo -> 1 <= m -> 1 <= p -> 1 <= s -> s * (p * m) = nfft -> fo + p * m <= zlen buf ->
  exists buf' wd', kf_bfly_generic K al nfft tw buf fo s m p wd = Ok (buf', wd') /\ owns wd' wd [] /\
   zlen buf' = zlen buf /\
   (forall i, 0 <= i < zlen buf -> ~ (fo <= i < fo + p * m) -> at_ c0 buf' i = at_ c0 buf i) /\
   ((forall k, al k = true) ->
    columns_done fo m p (fun u q1 => bvalg nfft twf p m s u (fun q => at_ c0 buf (fo + u + q * m)) q1) buf buf').
Proof.
  intros Hfo Hm Hp Hs HN Hb. unfold kf_bfly_generic.
  pose proof (owns_alloc al wd wd [] (owns_refl wd)) as A. destruct (alloc al wd) as [[blk|] wd1].
  - destruct A as (A & _).
    destruct (column_loop (fun u buf =>
        '(scratch, _) <- for_range 0 p (fun q1 '(scratch, k) =>
            v <- get buf (fo + k) ;;
            scratch <- set scratch q1 v ;;
            k <- cint (k + m) ;;
            Ok (scratch, k)) (repeat c0 (Z.to_nat p), u) ;;
        '(buf, _) <- for_range 0 p (fun q1 '(buf, k) =>
            s0 <- get scratch 0 ;;
            buf <- set buf (fo + k) s0 ;;
            '(buf, _) <- for_range 1 p (fun q '(buf, twidx) =>
                twidx <- cint (wrap (twidx + wrap (s * k))) ;;
                twidx <- (if twidx >=? nfft then cint (twidx - nfft) else Ok twidx) ;;
                sc <- get scratch q ;;
                w <- get tw twidx ;;
                v <- get buf (fo + k) ;;
                buf <- set buf (fo + k) (C_ADD K v (C_MUL K sc w)) ;;
                Ok (buf, twidx)) (buf, 0) ;;
            k <- cint (k + m) ;;
            Ok (buf, k)) (buf, u) ;;
        Ok buf) fo m p (fun u q1 => bvalg nfft twf p m s u (fun q => at_ c0 buf (fo + u + q * m)) q1) buf)
      as (buf' & E & D); try lia.
    + intros u b Hu L V. destruct (gcolumn_ok b fo s m p u) as (b' & E & L' & V' & F'); try lia.
      exists b'. split; [exact E|]. split; [exact L'|]. split; [|exact F'].
      intros q Hq. rewrite V' by assumption. apply bvalg_ext; [lia|]. exact V.
    + rewrite E. cbn [bind]. destruct (owns_free _ _ _ _ A) as (wd2 & E2 & O2 & _). rewrite E2. cbn [bind].
      exists buf', wd2. split; [reflexivity|]. split; [exact O2|]. split; [apply D|]. split; [apply D|]. intros _. exact D.
  - destruct A as (A & _ & N). exists buf, wd1. split; [reflexivity|]. split; [exact A|]. split; [reflexivity|]. split; [auto|].
    intros H. rewrite H in N. discriminate.
Qed.

Lemma bfly_ok al buf fo s m p wd : 0 <= fo -> 1 <= m -> 1 <= p -> 1 <= s -> s * (p * m) = nfft -> fo + p * m <= zlen buf ->
  exists buf' wd', kf_bfly K al nfft tw fo s m p (buf, wd) = Ok (buf', wd') /\ owns wd' wd [] /\
   zlen buf' = zlen buf /\
   (forall i, 0 <= i < zlen buf -> ~ (fo <= i < fo + p * m) -> at_ c0 buf' i = at_ c0 buf i) /\
   ((forall k, al k = true) ->
    columns_done fo m p (fun u q1 => bval nfft twf p m s u (fun q => at_ c0 buf (fo + u + q * m)) q1) buf buf').
Proof.
  intros Hfo Hm Hp Hs HN Hb. unfold kf_bfly, bval.
  destruct (Z.eqb_spec p 2) as [->|]; [|destruct (Z.eqb_spec p 3) as [->|]; [|destruct (Z.eqb_spec p 4) as [->|];
    [|destruct (Z.eqb_spec p 5) as [->|]]]].
  - destruct (bfly2_ok buf fo s m) as (b & E & D); try lia. rewrite E. cbn [bind]. exists b, wd.
    split; [reflexivity|]. split; [apply owns_refl|]. split; [apply D|]. split; [apply D|]. intros _. exact D.
  - destruct (bfly3_ok buf fo s m) as (b & E & D); try lia. rewrite E. cbn [bind]. exists b, wd.
    split; [reflexivity|]. split; [apply owns_refl|]. split; [apply D|]. split; [apply D|]. intros _. exact D.
  - destruct (bfly4_ok buf fo s m) as (b & E & D); try lia. rewrite E. cbn [bind]. exists b, wd.
    split; [reflexivity|]. split; [apply owns_refl|]. split; [apply D|]. split; [apply D|]. intros _. exact D.
  - destruct (bfly5_ok buf fo s m) as (b & E & D); try lia. rewrite E. cbn [bind]. exists b, wd.
    split; [reflexivity|]. split; [apply owns_refl|]. split; [apply D|]. split; [apply D|]. intros _. exact D.
  - apply bflyg_ok; assumption.
Qed.

(** ** The recursion *)
Inductive factors_ok : list Z -> Z -> Prop :=
| fo_last p rest : 1 <= p -> factors_ok (p :: 1 :: rest) p
| fo_step p m rest : 1 <= p -> 1 < m -> factors_ok rest m -> factors_ok (p :: m :: rest) (p * m).

Fixpoint fft_val (factors : list Z) (s : Z) (x : Z -> cpx) (k : Z) : cpx :=
  match factors with
  | p :: m :: rest =>
      bval nfft twf p m s (k mod m)
        (fun q => if m =? 1 then x q else fft_val rest (s * p) (fun r => x (q + p * r)) (k mod m)) (k / m)
  | _ => x k
  end.

Lemma bval_ext p m s u x x' q1 : 1 <= p -> (forall q, 0 <= q < p -> x q = x' q) ->
  bval nfft twf p m s u x q1 = bval nfft twf p m s u x' q1.
Proof.
  intros Hp H. unfold bval.
  destruct (Z.eqb_spec p 2); [unfold bval2; rewrite !H by lia; reflexivity|].
  destruct (Z.eqb_spec p 3); [unfold bval3; rewrite !H by lia; reflexivity|].
  destruct (Z.eqb_spec p 4); [unfold bval4; rewrite !H by lia; reflexivity|].
  destruct (Z.eqb_spec p 5); [unfold bval5; rewrite !H by lia; reflexivity|].
  apply bvalg_ext; assumption.
Qed.

Lemma factors_pos l N : factors_ok l N -> 1 <= N.
Proof. induction 1; nia. Qed.

Lemma fft_val_ext l N : factors_ok l N -> forall s x x' k, 0 <= k < N -> (forall j, 0 <= j < N -> x j = x' j) ->
  fft_val l s x k = fft_val l s x' k.
Proof.
  induction 1 as [p rest Hp|p m rest Hp Hm H IH]; intros s x x' k Hk Hx; cbn [fft_val].
  - apply bval_ext; [exact Hp|]. intros q Hq. cbn. apply Hx. exact Hq.
  - apply bval_ext; [exact Hp|]. intros q Hq. replace (m =? 1) with false by lia.
    apply IH; [apply Z.mod_pos_bound; lia|]. intros j Hj. apply Hx. nia.
Qed.

Lemma kf_work_ok al f ins : forall l N, factors_ok l N -> forall fo fi s buf wd,
  1 <= s -> s * N = nfft -> 0 <= fo -> fo + N <= zlen buf ->
  (forall j, 0 <= j < N -> 0 <= fi + j * (s * ins) < zlen f) ->
  exists buf' wd', kf_work K al nfft tw f ins l fo fi s (buf, wd) = Ok (buf', wd') /\ owns wd' wd [] /\
   zlen buf' = zlen buf /\
   (forall i, 0 <= i < zlen buf -> ~ (fo <= i < fo + N) -> at_ c0 buf' i = at_ c0 buf i) /\
   ((forall k, al k = true) -> forall k, 0 <= k < N ->
      at_ c0 buf' (fo + k) = fft_val l s (fun j => at_ c0 f (fi + j * (s * ins))) k).
Proof.
  induction 1 as [p rest Hp|p m rest Hp Hm H IH]; intros fo fi s buf wd Hs HN Hfo Hb Hf; cbn [kf_work]; rewrite INT3 in Hn.
  - rewrite Z.mul_1_r. rewrite cint_ok by (unfold INT_MAX; nia). cbn [bind]. destruct (Z.leb_spec p 0); [lia|].
    change (1 =? 1) with true. cbn iota.
    match goal with |- context [for_range 0 p ?b (buf, wd)] =>
    destruct (for_range_inv (fun q (st : list cpx * world) => snd st = wd /\ zlen (fst st) = zlen buf /\
       (forall j, 0 <= j < q -> at_ c0 (fst st) (fo + j) = at_ c0 f (fi + j * (s * ins))) /\
       (forall i, 0 <= i < zlen buf -> ~ (fo <= i < fo + p) -> at_ c0 (fst st) i = at_ c0 buf i)) b 0 p (buf, wd))
      as ((b1 & w1) & E & EW & L & V & F) end.
    + lia.
    + cbn [fst snd]. split; [reflexivity|]. split; [reflexivity|]. split; [intros; lia|auto].
    + intros q (b & w) Hq (EW & L & V & F). cbn [fst snd] in *. subst w. specialize (Hf q Hq).
      rewrite (get_at c0 f) by lia. cbn [bind]. rewrite set_upd by lia. cbn [bind]. eexists. split; [reflexivity|].
      cbn [fst snd]. split; [reflexivity|]. split; [rewrite zlen_upd; exact L|]. split.
      * intros j Hj. rewrite at_upd by lia. destruct (Z.eqb_spec (fo + j) (fo + q)); [replace j with q by lia; reflexivity|].
        apply V. lia.
      * intros i Hi Ho. rewrite at_upd by lia. replace (i =? fo + q) with false by lia. apply F; assumption.
    + rewrite E. cbn [bind]. cbn [fst snd] in *. subst w1.
      destruct (bfly_ok al b1 fo s 1 p wd) as (b2 & w2 & E2 & O2 & L2 & F2 & D2); try lia.
      rewrite E2. exists b2, w2. split; [reflexivity|]. split; [exact O2|]. split; [lia|]. split.
      * intros i Hi Ho. rewrite F2 by lia. apply F; assumption.
      * intros Hal k Hk. destruct (D2 Hal) as (_ & D & _). cbn [fft_val]. rewrite Z.mod_1_r, Z.div_1_r.
        specialize (D 0 k ltac:(lia) Hk). replace (fo + 0 + k * 1) with (fo + k) in D by lia. rewrite D.
        apply bval_ext; [lia|]. intros q Hq. cbn. replace (fo + 0 + q * 1) with (fo + q) by lia. apply V. exact Hq.
  - rewrite cint_ok by (unfold INT_MAX; nia). cbn [bind]. destruct (Z.leb_spec p 0); [lia|].
    replace (m =? 1) with false by lia. cbn iota.
    set (x := fun j => at_ c0 f (fi + j * (s * ins))) in *.
    match goal with |- context [for_range 0 p ?b (buf, wd)] =>
    destruct (for_range_inv (fun q (st : list cpx * world) => owns (snd st) wd [] /\ zlen (fst st) = zlen buf /\
       ((forall k, al k = true) -> forall j u, 0 <= j < q -> 0 <= u < m ->
          at_ c0 (fst st) (fo + u + j * m) = fft_val rest (s * p) (fun r => x (j + p * r)) u) /\
       (forall i, 0 <= i < zlen buf -> ~ (fo <= i < fo + p * m) -> at_ c0 (fst st) i = at_ c0 buf i)) b 0 p (buf, wd))
      as ((b1 & w1) & E & O1 & L & V & F) end.
    + lia.
    + cbn [fst snd]. split; [apply owns_refl|]. split; [reflexivity|]. split; [intros; lia|auto].
    + intros q (b & w) Hq (O1 & L & V & F). cbn [fst snd] in *.
      assert (0 <= q * m) by nia. assert (q * m + m <= p * m) by nia.
      destruct (IH (fo + q * m) (fi + q * (s * ins)) (s * p) b w) as (b' & w' & E' & O' & L' & F' & V'); try nia.
      { intros j Hj. replace (fi + q * (s * ins) + j * (s * p * ins)) with (fi + (q + p * j) * (s * ins)) by ring. apply Hf. nia. }
      rewrite E'. eexists. split; [reflexivity|]. cbn [fst snd].
      split; [apply (owns_trans _ w _ [] []); assumption|]. split; [lia|]. split.
      * intros Hal j u Hj Hu. destruct (Z.eq_dec j q) as [->|Hne].
        -- replace (fo + u + q * m) with (fo + q * m + u) by lia. rewrite V' by assumption.
           apply (fft_val_ext _ m); [exact H|exact Hu|]. intros r Hr. unfold x. f_equal. ring.
        -- assert (0 <= j * m) by nia. assert (j * m + m <= p * m) by nia.
           rewrite F' by (try lia; intros X; destruct (Z.lt_ge_cases j q); nia). apply V; [exact Hal|lia|exact Hu].
      * intros i Hi Ho. rewrite F' by lia. apply F; assumption.
    + rewrite E. cbn [bind]. cbn [fst snd] in *.
      destruct (bfly_ok al b1 fo s m p w1) as (b2 & w2 & E2 & O2 & L2 & F2 & D2); try lia.
      rewrite E2. exists b2, w2. split; [reflexivity|].
      split; [apply (owns_trans _ w1 _ [] []); assumption|]. split; [lia|]. split.
      * intros i Hi Ho. rewrite F2 by lia. apply F; assumption.
      * intros Hal k Hk. destruct (D2 Hal) as (_ & D & _). cbn [fft_val]. replace (m =? 1) with false by lia.
        pose proof (Z.mod_pos_bound k m ltac:(lia)) as Hu.
        assert (Hq : 0 <= k / m < p).
        { split; [apply Z.div_pos; lia|]. apply Z.div_lt_upper_bound; [lia|]. rewrite Z.mul_comm. apply Hk. }
        specialize (D (k mod m) (k / m) Hu Hq).
        replace (fo + k mod m + k / m * m) with (fo + k) in D by (rewrite (Z.div_mod k m) at 1 by lia; ring).
        rewrite D. apply bval_ext; [lia|]. intros q Hq'. apply V; assumption.
Qed.
End Stage.
End Generic.
