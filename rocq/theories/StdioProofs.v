(** Input streams: what the operations leave, and parsing of well-formed text. *)
From Verif Require Import Base BaseProofs Flt Stdio.
Open Scope Z_scope.

(** ** Later states of a stream *)
Definition later (s s' : stream) : Prop :=
  stream_ok s' /\ s_broken s' = s_broken s /\ s_seekable s' = s_seekable s /\
  exists k, s_rest s' = skipn k (s_rest s).

Lemma later_refl s : stream_ok s -> later s s.
Proof. intros H. split; [exact H|]. split; [reflexivity|]. split; [reflexivity|]. exists 0%nat. reflexivity. Qed.
Lemma skipn_skipn {A} a b (l : list A) : skipn a (skipn b l) = skipn (b + a) l.
Proof.
  revert l. induction b as [|b IH]; intros l; [reflexivity|].
  destruct l; simpl; [destruct a; reflexivity|apply IH].
Qed.
Lemma later_trans s s' s'' : later s s' -> later s' s'' -> later s s''.
Proof.
  intros (_ & B & K & k & R) (O & B' & K' & k' & R'). split; [exact O|].
  split; [congruence|]. split; [congruence|]. exists (k + k')%nat. rewrite R', R. apply skipn_skipn.
Qed.
Lemma later_ok s s' : later s s' -> stream_ok s'. Proof. intros H. apply H. Qed.
Lemma later_len s s' : later s s' -> (length (s_rest s') <= length (s_rest s))%nat.
Proof. intros (_ & _ & _ & k & ->). rewrite skipn_length. lia. Qed.

Lemma Forall_skipn {A} (P : A -> Prop) k l : Forall P l -> Forall P (skipn k l).
Proof. revert k. induction l as [|a l IH]; intros k H; destruct k; simpl; auto. inversion H; auto. Qed.
Lemma Forall_firstn {A} (P : A -> Prop) k l : Forall P l -> Forall P (firstn k l).
Proof. revert k. induction l as [|a l IH]; intros k H; destruct k; simpl; auto. inversion H; auto. Qed.

Lemma later_with_rest s k : stream_ok s -> later s (with_rest s (skipn k (s_rest s))).
Proof.
  intros (B & P & L). split; [|split; [reflexivity|split; [reflexivity|exists k; reflexivity]]].
  assert (LE : zlen (skipn k (s_rest s)) <= zlen (s_rest s)) by (unfold zlen; rewrite skipn_length; lia).
  split; [apply Forall_skipn; exact B|]. cbn [s_pos s_rest s_seekable with_rest]. split; [lia|]. intros K. specialize (L K). lia.
Qed.
Lemma later_at_end s : stream_ok s -> later s (at_end s).
Proof.
  intros (B & P & L). split; [|split; [reflexivity|split; [reflexivity|]]].
  - pose proof (zlen_nonneg (s_rest s)). split; [constructor|]. cbn [s_pos s_rest s_seekable at_end]. change (zlen (@nil Z)) with 0. split; [lia|]. intros K. specialize (L K). lia.
  - exists (length (s_rest s)). cbn. symmetry. apply skipn_all.
Qed.
Lemma later_looked s k : stream_ok s -> later s (looked_to s (skipn k (s_rest s))).
Proof.
  intros H. unfold looked_to. destruct (skipn k (s_rest s)) eqn:E; [apply later_at_end; exact H|].
  rewrite <- E. apply later_with_rest; exact H.
Qed.

Lemma later_fgetc s c s' : stream_ok s -> fgetc s = (c, s') -> later s s'.
Proof.
  intros H. unfold fgetc. destruct (s_rest s) as [|a r] eqn:E; intros Q; inversion Q; subst.
  - apply later_at_end; exact H.
  - replace r with (skipn 1 (s_rest s)) by (rewrite E; reflexivity). apply later_with_rest; exact H.
Qed.
Lemma later_fread n s l s' : stream_ok s -> fread n s = (l, s') -> later s s'.
Proof.
  intros H. unfold fread. destruct (zlen (s_rest s) <? n); intros Q; inversion Q; subst.
  - apply later_at_end; exact H.
  - apply later_with_rest; exact H.
Qed.
Lemma fread_len n s l s' : 0 <= n -> fread n s = (l, s') -> zlen l <= n /\ (zlen l = n <-> n <= zlen (s_rest s)).
Proof.
  intros N. unfold fread. destruct (zlen (s_rest s) <? n) eqn:E; intros Q; inversion Q; subst; [lia|].
  unfold zlen in *. rewrite firstn_length. lia.
Qed.
Lemma fread_bytes n s l s' : stream_ok s -> fread n s = (l, s') -> Forall byte_ok l.
Proof.
  intros H. unfold fread. destruct (zlen (s_rest s) <? n); intros Q; inversion Q; subst; [apply H|].
  apply Forall_firstn. apply H.
Qed.
Lemma later_fseek n s e s' : stream_ok s -> 0 <= n -> fseek_cur n s = (e, s') -> later s s'.
Proof.
  intros H N. unfold fseek_cur. destruct (s_seekable s) eqn:K; cbn [negb].
  2: { intros Q; inversion Q; subst. apply later_refl; exact H. }
  destruct (s_pos s + n >? LONG_MAX) eqn:G; intros Q; inversion Q; subst; [apply later_refl; exact H|].
  destruct H as (B & P & L). split; [|split; [reflexivity|split; [symmetry; exact K|exists (Z.to_nat n); reflexivity]]].
  split; [apply Forall_skipn; exact B|]. cbn [s_pos s_rest s_seekable]. split; [lia|]. intros _. specialize (L K).
  unfold zlen in *. rewrite skipn_length. lia.
Qed.

(** ** Suffixes *)
Lemma drop_while_skipn p l : exists k, drop_while p l = skipn k l.
Proof.
  induction l as [|c l [k IH]]; [exists 0%nat; reflexivity|]. cbn. destruct (p c).
  - exists (S k). exact IH.
  - exists 0%nat. reflexivity.
Qed.
Lemma later_skip_space s : stream_ok s -> later s (skip_space s).
Proof.
  intros H. unfold skip_space. destruct (drop_while_skipn isspace (s_rest s)) as [k ->]. apply later_looked; exact H.
Qed.
Lemma later_looked_drop p s k : stream_ok s -> later s (looked_to s (drop_while p (skipn k (s_rest s)))).
Proof.
  intros H. destruct (drop_while_skipn p (skipn k (s_rest s))) as [j ->]. rewrite skipn_skipn. apply later_looked; exact H.
Qed.
Lemma split_sign_skipn l : exists k, snd (split_sign l) = skipn k l.
Proof.
  destruct l as [|c l]; [exists 0%nat; reflexivity|]. cbn.
  destruct (c =? 45); [exists 1%nat; reflexivity|]. destruct (c =? 43); [exists 1%nat|exists 0%nat]; reflexivity.
Qed.

(** ** fscanf *)
Definition value_ok (d : directive) (v : list value) : Prop :=
  match d with
  | Lit _ | Space | SkipWord => v = []
  | Zu => exists z, v = [VInt z] /\ is_size z
  | Hu => exists z, v = [VInt z] /\ 0 <= z < 65536
  | Fl => exists f, v = [VFloat f]
  | Ch => exists c, v = [VChar c] /\ byte_ok c
  | Word n => exists l, v = [VWord l] /\ (length l <= n)%nat
  end.

Lemma is_digit_val c : is_digit c = true -> 0 <= c - 48 <= 9.
Proof. unfold is_digit. lia. Qed.
Lemma digits_value_nonneg l : Forall (fun c => is_digit c = true) l -> 0 <= digits_value l.
Proof.
  unfold digits_value. assert (G : forall a, 0 <= a -> Forall (fun c => is_digit c = true) l ->
    0 <= fold_left (fun a c => a * 10 + (c - 48)) l a); [|apply G; lia].
  induction l as [|c l IH]; intros a A H; [exact A|].
  inversion H; subst. cbn. apply IH; [|assumption]. pose proof (is_digit_val c H2). lia.
Qed.
Lemma take_while_all p l : Forall (fun c => p c = true) (take_while p l).
Proof.
  induction l as [|c l IH]; cbn; [constructor|]. destruct (p c) eqn:E; [|constructor]. constructor; assumption.
Qed.
Lemma strtoul_size H neg l v : Forall (fun c => is_digit c = true) l -> strtoul H neg l = Ok v -> is_size v.
Proof.
  intros D. pose proof (digits_value_nonneg l D). unfold strtoul.
  destruct (digits_value l >? SIZE_MAX) eqn:G.
  - destruct (h_strict H); intros Q; inversion Q. unfold is_size, SIZE_MAX; lia.
  - intros Q; inversion Q. destruct neg; [|unfold is_size; lia].
    pose proof (wrap_range (- digits_value l)). unfold is_size, SIZE_MAX. lia.
Qed.
Lemma to_ushort_range H z v : is_size z -> to_ushort H z = Ok v -> 0 <= v < 65536.
Proof.
  intros S. unfold to_ushort, is_size in *. destruct (z >? 65535) eqn:G.
  - destruct (h_strict H); intros Q; inversion Q. apply Z.mod_pos_bound. lia.
  - intros Q; inversion Q; subst. lia.
Qed.

(** a relaxed C library runs every directive *)
Lemma run_directive_ok H d s : h_strict H = false -> stream_ok s ->
  exists o s', run_directive H d s = Ok (o, s').
Proof.
  intros R K. unfold run_directive.
  assert (T : forall neg l, exists v, strtoul H neg l = Ok v).
  { intros neg l. unfold strtoul. rewrite R. destruct (_ >? _); eauto. }
  assert (U : forall z, exists v, to_ushort H z = Ok v).
  { intros z. unfold to_ushort. rewrite R. destruct (_ >? _); eauto. }
  destruct d.
  - destruct (s_rest s); [eauto|]. destruct (_ =? _); eauto.
  - eauto.
  - cbv zeta. destruct (s_rest (skip_space s)); [eauto|]. destruct (split_sign _) as [neg l'].
    destruct (take_while is_digit l'); [eauto|]. destruct (T neg (z0 :: l0)) as [v ->]. cbn. eauto.
  - cbv zeta. destruct (s_rest (skip_space s)); [eauto|]. destruct (split_sign _) as [neg l'].
    destruct (take_while is_digit l'); [eauto|]. destruct (T neg (z0 :: l0)) as [v ->]. cbn.
    destruct (U v) as [v' ->]. cbn. eauto.
  - cbv zeta. destruct (s_rest (skip_space s)); [eauto|]. destruct (h_float H _). eauto.
  - destruct (s_rest s); eauto.
  - cbv zeta. destruct (s_rest (skip_space s)); eauto.
  - cbv zeta. destruct (s_rest (skip_space s)); eauto.
Qed.

Lemma run_directive_later H d s o s' : stream_ok s -> run_directive H d s = Ok (o, s') ->
  later s s' /\ (forall v, o = Done v -> value_ok d v).
Proof.
  intros K. unfold run_directive.
  assert (SK := later_skip_space s K). assert (SO := later_ok _ _ SK).
  assert (NUM : forall d', (d' = Zu \/ d' = Hu) ->
    (let s0 := skip_space s in
       match s_rest s0 with
       | [] => Ok (InputFailure, at_end s0)
       | l =>
           let '(neg, l) := split_sign l in
           let ds := take_while is_digit l in
           let s0 := looked_to s0 (drop_while is_digit l) in
           match ds with
           | [] => Ok (MatchFailure, s0)
           | _ => v <- strtoul H neg ds ;;
                  v <- (match d' with Hu => to_ushort H v | _ => Ok v end) ;;
                  Ok (Done [VInt v], s0)
           end
       end) = Ok (o, s') -> later s s' /\ (forall v, o = Done v -> value_ok d' v)).
  { intros d' DD. cbv zeta. destruct (s_rest (skip_space s)) as [|c l] eqn:E.
    { intros Q; inversion Q; subst. split; [eapply later_trans; [exact SK|apply later_at_end; exact SO]|discriminate]. }
    rewrite <- E. destruct (split_sign_skipn (s_rest (skip_space s))) as [k SS].
    destruct (split_sign (s_rest (skip_space s))) as [neg l']. cbn [snd] in SS. rewrite SS.
    assert (L2 : later s (looked_to (skip_space s) (drop_while is_digit (skipn k (s_rest (skip_space s)))))).
    { eapply later_trans; [exact SK|]. apply later_looked_drop. exact SO. }
    pose proof (take_while_all is_digit (skipn k (s_rest (skip_space s)))) as TA.
    destruct (take_while is_digit (skipn k (s_rest (skip_space s)))) as [|a ds].
    { intros Q; inversion Q; subst. split; [exact L2|discriminate]. }
    intros Q. apply bind_ok in Q. destruct Q as (v & V & Q). pose proof (strtoul_size _ _ _ _ TA V) as VS.
    apply bind_ok in Q. destruct Q as (v' & V' & Q). inversion Q; subst. split; [exact L2|].
    intros v0 Q0. inversion Q0; subst. destruct DD as [-> | ->].
    - inversion V'; subst. eexists; split; [reflexivity|exact VS].
    - eexists; split; [reflexivity|]. eapply to_ushort_range; eassumption. }
  destruct d.
  - destruct (s_rest s) as [|a r] eqn:E.
    { intros Q; inversion Q; subst. split; [apply later_at_end; exact K|discriminate]. }
    destruct (a =? c); intros Q; inversion Q; subst.
    + split; [|intros v Q0; inversion Q0; reflexivity].
      replace r with (skipn 1 (s_rest s)) by (rewrite E; reflexivity). apply later_with_rest; exact K.
    + split; [apply later_refl; exact K|discriminate].
  - intros Q; inversion Q; subst. split; [exact SK|]. intros v Q0; inversion Q0; reflexivity.
  - apply (NUM Zu). auto.
  - apply (NUM Hu). auto.
  - cbv zeta. destruct (s_rest (skip_space s)) as [|c l] eqn:E.
    { intros Q; inversion Q; subst. split; [eapply later_trans; [exact SK|apply later_at_end; exact SO]|discriminate]. }
    rewrite <- E. destruct (h_float H (s_rest (skip_space s))) as [n v]. intros Q; inversion Q; subst.
    split; [eapply later_trans; [exact SK|apply later_looked; exact SO]|].
    destruct v as [f|]; intros v Q0; inversion Q0; subst. exists f. reflexivity.
  - destruct (s_rest s) as [|a r] eqn:E.
    { intros Q; inversion Q; subst. split; [apply later_at_end; exact K|discriminate]. }
    intros Q; inversion Q; subst. split.
    + replace r with (skipn 1 (s_rest s)) by (rewrite E; reflexivity). apply later_with_rest; exact K.
    + intros v Q0; inversion Q0; subst. exists a. split; [reflexivity|].
      destruct K as (B & _). rewrite E in B. inversion B; assumption.
  - cbv zeta. destruct (s_rest (skip_space s)) as [|c l] eqn:E.
    { intros Q; inversion Q; subst. split; [eapply later_trans; [exact SK|apply later_at_end; exact SO]|discriminate]. }
    rewrite <- E. intros Q; inversion Q; subst. split.
    + eapply later_trans; [exact SK|]. destruct (Nat.eqb _ _); [apply later_with_rest|apply later_looked]; exact SO.
    + intros v Q0; inversion Q0; subst. eexists; split; [reflexivity|]. rewrite firstn_length. lia.
  - cbv zeta. destruct (s_rest (skip_space s)) as [|c l] eqn:E.
    { intros Q; inversion Q; subst. split; [eapply later_trans; [exact SK|apply later_at_end; exact SO]|discriminate]. }
    rewrite <- E. intros Q; inversion Q; subst. split.
    + eapply later_trans; [exact SK|]. apply (later_looked_drop _ _ 0). exact SO.
    + intros v Q0; inversion Q0; reflexivity.
Qed.

Lemma fscanf_from_ok H : h_strict H = false -> forall fmt s b vs, stream_ok s ->
  exists r, fscanf_from H fmt s b vs = Ok r.
Proof.
  intros R. induction fmt as [|d fmt IH]; intros s b vs K; [cbn; eauto|].
  cbn [fscanf_from]. destruct (run_directive_ok H d s R K) as (o & s' & E). rewrite E. cbn [bind].
  pose proof (run_directive_later _ _ _ _ _ K E) as [L _].
  destruct o; eauto. apply IH. exact (later_ok _ _ L).
Qed.
(** the values stored by a list of directives, all of which were done *)
Inductive values_ok : list directive -> list value -> Prop :=
| values_nil : values_ok [] []
| values_cons d v fmt vs : value_ok d v -> values_ok fmt vs -> values_ok (d :: fmt) (v ++ vs).
Definition stores (d : directive) : nat := match d with Lit _ | Space | SkipWord => 0 | _ => 1 end.
Lemma value_len d v : value_ok d v -> length v = stores d.
Proof. destruct d; cbn; intros H; try (destruct H as (? & -> & _); reflexivity); try (subst; reflexivity). destruct H as (? & ->); reflexivity. Qed.

Lemma fscanf_from_later H : forall fmt s b vs n vs' s', stream_ok s ->
  fscanf_from H fmt s b vs = Ok (n, vs', s') ->
  later s s' /\ (n = -1 \/ n = zlen vs') /\
  (zlen vs' <= zlen vs + Z.of_nat (list_sum (map stores fmt))) /\
  (list_sum (map stores fmt) <> 0%nat -> zlen vs' = zlen vs + Z.of_nat (list_sum (map stores fmt)) ->
   last (map stores fmt) 0%nat <> 0%nat ->
   exists tl, vs' = vs ++ tl /\ values_ok fmt tl).
Proof.
  induction fmt as [|d fmt IH]; intros s b vs n vs' s' K.
  { intros Q; inversion Q; subst. split; [apply later_refl; exact K|]. split; [right; reflexivity|].
    cbn. split; [lia|]. intros N. congruence. }
  cbn [fscanf_from]. intros Q. apply bind_ok in Q. destruct Q as ([o s1] & E & Q).
  pose proof (run_directive_later _ _ _ _ _ K E) as [L V]. cbn [map list_sum fold_right] in *.
  fold (list_sum (map stores fmt)) in *.
  destruct o.
  - inversion Q; subst. split; [exact L|]. split; [destruct b; auto|]. split; [lia|]. intros N A. lia.
  - inversion Q; subst. split; [exact L|]. split; [right; reflexivity|]. split; [lia|]. intros N A. lia.
  - specialize (V v eq_refl). pose proof (value_len _ _ V) as VL.
    destruct (IH _ _ _ _ _ _ (later_ok _ _ L) Q) as (L2 & N2 & B2 & V2).
    split; [eapply later_trans; eassumption|]. split; [exact N2|].
    assert (Z1 : zlen (vs ++ v) = zlen vs + Z.of_nat (stores d)) by (rewrite zlen_app; unfold zlen; lia).
    split; [lia|]. intros N A LS. 
    destruct fmt as [|d' fmt].
    + cbn in Q. inversion Q; subst. exists v. split; [reflexivity|].
      replace v with (v ++ []) by apply app_nil_r. constructor; [exact V|constructor].
    + destruct V2 as (tl & -> & VT).
      * intros NZ. cbn in LS. cbn [map] in NZ. revert LS NZ. clear. revert d'. induction fmt as [|d2 f IH]; intros d' LS NZ.
        { cbn in *. lia. }
        { apply (IH d2); cbn in *; [exact LS|lia]. }
      * lia.
      * cbn [map last] in LS. exact LS.
      * exists (v ++ tl). split; [rewrite app_assoc; reflexivity|]. constructor; assumption.
Qed.

Lemma fscanf_ok H fmt s : h_strict H = false -> stream_ok s -> exists n vs s', fscanf H fmt s = Ok (n, vs, s').
Proof.
  intros R K. destruct (fscanf_from_ok H R fmt s false [] K) as ([[n vs] s'] & E). exists n, vs, s'. exact E.
Qed.
Lemma fscanf_later H fmt s n vs s' : stream_ok s -> fscanf H fmt s = Ok (n, vs, s') -> later s s'.
Proof. intros K E. apply (fscanf_from_later H fmt s false [] n vs s' K E). Qed.
(** all the conversions were made *)
Lemma fscanf_full H fmt s n vs s' : stream_ok s -> fscanf H fmt s = Ok (n, vs, s') ->
  list_sum (map stores fmt) <> 0%nat -> last (map stores fmt) 0%nat <> 0%nat ->
  n = Z.of_nat (list_sum (map stores fmt)) -> values_ok fmt vs.
Proof.
  intros K E N LS NN. destruct (fscanf_from_later H fmt s false [] n vs s' K E) as (_ & N2 & B & V).
  destruct N2 as [-> | ->]; [lia|]. cbn in V. destruct (V N) as (tl & -> & VT); [lia|exact LS|exact VT].
Qed.

Lemma zu_zu_hu vs : values_ok [Zu; Space; Zu; Space; Hu] vs ->
  exists a b c, vs = [VInt a; VInt b; VInt c] /\ is_size a /\ is_size b /\ 0 <= c < 65536.
Proof.
  intros V. repeat match goal with H : values_ok (_ :: _) _ |- _ => inversion H; subst; clear H
    | H : values_ok [] _ |- _ => inversion H; subst; clear H end.
  cbn in *. repeat match goal with H : exists _, _ |- _ => destruct H as (? & -> & ?) end. subst.
  cbn. eexists _, _, _. split; [reflexivity|]. auto.
Qed.
Lemma zu_zu_fl vs : values_ok [Zu; Space; Zu; Space; Fl] vs ->
  exists a b c, vs = [VInt a; VInt b; VFloat c] /\ is_size a /\ is_size b.
Proof.
  intros V. repeat match goal with H : values_ok (_ :: _) _ |- _ => inversion H; subst; clear H
    | H : values_ok [] _ |- _ => inversion H; subst; clear H end.
  cbn in *. repeat match goal with H : exists _, _ = _ /\ _ |- _ => destruct H as (? & -> & ?) | H : exists _, _ |- _ => destruct H as (? & ->) end. subst.
  cbn. eexists _, _, _. split; [reflexivity|]. auto.
Qed.
Lemma zu_one vs : values_ok [Zu] vs -> exists a, vs = [VInt a] /\ is_size a.
Proof.
  intros V. repeat match goal with H : values_ok (_ :: _) _ |- _ => inversion H; subst; clear H
    | H : values_ok [] _ |- _ => inversion H; subst; clear H end.
  cbn in *. repeat match goal with H : exists _, _ |- _ => destruct H as (? & -> & ?) end. cbn. eauto.
Qed.
Lemma values_cons_inv d fmt vs : values_ok (d :: fmt) vs -> exists v tl, vs = v ++ tl /\ value_ok d v /\ values_ok fmt tl.
Proof. intros V. inversion V; subst. eauto. Qed.
Lemma ch_one fmt vs : Forall (fun d => stores d = 0%nat) fmt -> values_ok (fmt ++ [Ch]) vs -> exists a, vs = [VChar a] /\ byte_ok a.
Proof.
  revert vs. induction fmt as [|d fmt IH]; intros vs F V; cbn [app] in V; apply values_cons_inv in V; destruct V as (v & tl & -> & D & T).
  - inversion T; subst. destruct D as (c & -> & B). cbn. eauto.
  - inversion F as [|x y D0 F']; subst. apply value_len in D. rewrite D0 in D. destruct v; [|discriminate].
    cbn. apply IH; assumption.
Qed.
Lemma word_one n vs : values_ok [Word n] vs -> exists l, vs = [VWord l] /\ (length l <= n)%nat.
Proof.
  intros V. repeat match goal with H : values_ok (_ :: _) _ |- _ => inversion H; subst; clear H
    | H : values_ok [] _ |- _ => inversion H; subst; clear H end.
  cbn in *. repeat match goal with H : exists _, _ |- _ => destruct H as (? & -> & ?) end. cbn. eauto.
Qed.
