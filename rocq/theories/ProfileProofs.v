(** src/profile.c. *)
From Coq Require Import Permutation Sorted String.
From Verif Require Import Base BaseProofs Flt Util Methods Analysis Resdetect History Spec SpecAnalysis SpecReport WorldProofs UtilProofs AnalysisProofs
  ResultsProofs ClientProofs ProgramProofs CompareProofs AnalysisClaims Stdio StdioProofs Pgm Pfm Y4m Image ImageHistory SpecImage ImageSafe FrameProofs ImageApi FileProofs
  Cli SpecCli CodeProofs CliProofs Tools SpecTools.
Open Scope list_scope.
Open Scope Z_scope.

(** ** Times *)
Lemma diffts_ok a b : proper_time a -> proper_time b -> proper_time (diffts a b) /\ micros (diffts a b) = micros b - micros a.
Proof.
  unfold proper_time, micros, diffts. intros A B. destruct (Z.ltb_spec (tv_usec b - tv_usec a) 0); cbn [tv_sec tv_usec]; lia.
Qed.

(** ** diffres *)
Lemma wrap_wrap a b : wrap (wrap a + b) = wrap (a + b).
Proof. unfold wrap. apply Zplus_mod_idemp_l. Qed.
Lemma wrap_wrap_r a b : wrap (a + wrap b) = wrap (a + b).
Proof. unfold wrap. apply Zplus_mod_idemp_r. Qed.
Lemma skipn_get {A} (l : list A) i a : get l i = Ok a -> skipn (Z.to_nat i) l = a :: skipn (Z.to_nat (i + 1)) l.
Proof.
  intros G. pose proof (get_ok_range _ _ _ G) as R. rewrite (get_at a) in G by exact R. inversion G as [Q]. unfold at_ in *. rewrite Q.
  replace (Z.to_nat (i + 1)) with (S (Z.to_nat i)) by lia. unfold zlen in R. clear G.
  assert (I : (Z.to_nat i < length l)%nat) by lia. revert I Q. generalize (Z.to_nat i) as k. clear R i. induction l as [|b l IH]; intros k I Q; [cbn in I; lia|].
  destruct k as [|k]; cbn in *; [congruence|]. apply IH; [lia|exact Q].
Qed.
Lemma get_some {A} (l : list A) i : 0 <= i < zlen l -> exists a, get l i = Ok a.
Proof. intros I. destruct l as [|d l]; [change (zlen (@nil A)) with 0 in I; lia|]. rewrite (get_at d) by exact I. eauto. Qed.
Lemma get_firstn {A} (l : list A) n i a : get l i = Ok a -> i < n -> n <= zlen l -> get (firstn (Z.to_nat n) l) i = Ok a.
Proof.
  intros G I N. pose proof (get_ok_range _ _ _ G) as R. rewrite (get_at a) in * by (try exact R; unfold zlen; rewrite firstn_length; unfold zlen in *; lia).
  rewrite <- G. f_equal. unfold at_. rewrite <- (firstn_skipn (Z.to_nat n) l) at 2. rewrite app_nth1; [reflexivity|]. rewrite firstn_length. unfold zlen in *. lia.
Qed.
Lemma get_map {A B} (f : A -> B) (l : list A) i a : get l i = Ok a -> get (map f l) i = Ok (f a).
Proof.
  intros G. pose proof (get_ok_range _ _ _ G) as R. rewrite (get_at (f a)) by (rewrite zlen_map; exact R). f_equal. rewrite (get_at a) in G by exact R.
  unfold at_ in *. rewrite map_nth. congruence.
Qed.
Lemma ascending_tail a l : ascending (a :: l) -> ascending l /\ Forall (Z.lt a) l.
Proof. intros S. inversion S; auto. Qed.

Lemma diff_loop_ok left right n : zlen left < 2^64 -> 0 <= n <= zlen right -> n < 2^64 -> forall fuel l r plus minus,
  0 <= l <= zlen left -> 0 <= r <= n -> (zlen left - l) + (n - r) < Z.of_nat fuel ->
  let L := skipn (Z.to_nat l) left in
  let R := skipn (Z.to_nat r) (map r_index (firstn (Z.to_nat n) right)) in
  exists s, subsequence s L /\ subsequence s R /\ (ascending L -> ascending R -> forall x, In x L -> In x R -> In x s) /\
    diff_loop fuel left (zlen left) right n l r plus minus = Ok (wrap (plus + (n - r) - zlen s), wrap (minus + (zlen left - l) - zlen s)).
Proof.
  intros BL N BN. set (idx := map r_index (firstn (Z.to_nat n) right)).
  assert (LI : zlen idx = n). { unfold idx. rewrite zlen_map. unfold zlen in *. rewrite firstn_length. lia. }
  induction fuel as [|fuel IH]; intros l r plus minus HL HR HF L R; [lia|]. cbn [diff_loop].
  destruct (Z.ltb_spec l (zlen left)) as [LL|LL]; cbn [andb].
  2: { exists []. split; [constructor|]. split; [constructor|]. split; [|rewrite !wrap_wrap_r; change (zlen []) with 0; do 2 f_equal; f_equal; lia].
       intros _ _ x I _. exfalso. unfold L in I. rewrite skipn_all2 in I by (unfold zlen in LL; lia). exact I. }
  destruct (Z.ltb_spec r n) as [RR|RR]; cbn [andb].
  2: { exists []. split; [constructor|]. split; [constructor|]. split; [|rewrite !wrap_wrap_r; change (zlen []) with 0; do 2 f_equal; f_equal; lia].
       intros _ _ x _ I. exfalso. unfold R in I. rewrite skipn_all2 in I by (unfold zlen in LI; lia). exact I. }
  destruct (get_some left l ltac:(lia)) as (a & GA). rewrite GA. cbn [bind].
  destruct (get_some right r ltac:(lia)) as (b & GB). rewrite GB. cbn [bind].
  pose proof (skipn_get _ _ _ GA) as QL. fold L in QL. set (L' := skipn (Z.to_nat (l + 1)) left) in *.
  assert (GI : get idx r = Ok (r_index b)) by (unfold idx; apply get_map, get_firstn; [exact GB|exact RR|lia]).
  pose proof (skipn_get _ _ _ GI) as QR. fold R in QR. set (R' := skipn (Z.to_nat (r + 1)) idx) in *.
  rewrite (wrap_small (l + 1)) by lia. rewrite (wrap_small (r + 1)) by lia.
  destruct (Z.gtb_spec a (r_index b)) as [G|G].
  - destruct (IH l (r + 1) (wrap (plus + 1)) minus ltac:(lia) ltac:(lia) ltac:(lia)) as (s & S1 & S2 & S3 & S4). fold L R' in S1, S2, S3. exists s.
    split; [exact S1|]. split; [rewrite QR; apply sub_drop; exact S2|]. split.
    + intros AL AR x I J. rewrite QR in J, AR. destruct J as [<-|J]; [|apply S3; try assumption; apply (ascending_tail _ _ AR)].
      exfalso. rewrite QL in I, AL. destruct (ascending_tail _ _ AL) as (_ & F). rewrite Forall_forall in F. destruct I as [I|I]; [lia|]. specialize (F _ I). lia.
    + rewrite S4. f_equal. f_equal. replace (wrap (plus + 1) + (n - (r + 1)) - zlen s) with (wrap (plus + 1) + ((n - (r + 1)) - zlen s)) by ring. rewrite wrap_wrap. f_equal. ring.
  - destruct (Z.ltb_spec a (r_index b)) as [G2|G2].
    + destruct (IH (l + 1) r plus (wrap (minus + 1)) ltac:(lia) ltac:(lia) ltac:(lia)) as (s & S1 & S2 & S3 & S4). fold L' R in S1, S2, S3. exists s.
      split; [rewrite QL; apply sub_drop; exact S1|]. split; [exact S2|]. split.
      * intros AL AR x I J. rewrite QL in I, AL. destruct I as [<-|I]; [|apply S3; try assumption; apply (ascending_tail _ _ AL)].
        exfalso. rewrite QR in J, AR. destruct (ascending_tail _ _ AR) as (_ & F). rewrite Forall_forall in F. destruct J as [J|J]; [lia|]. specialize (F _ J). lia.
      * rewrite S4. f_equal. f_equal. replace (wrap (minus + 1) + (zlen left - (l + 1)) - zlen s) with (wrap (minus + 1) + ((zlen left - (l + 1)) - zlen s)) by ring. rewrite wrap_wrap. f_equal. ring.
    + assert (AB : a = r_index b) by lia.
      destruct (IH (l + 1) (r + 1) plus minus ltac:(lia) ltac:(lia) ltac:(lia)) as (s & S1 & S2 & S3 & S4). fold L' R' in S1, S2, S3. exists (a :: s).
      split; [rewrite QL; apply sub_keep; exact S1|]. split; [rewrite QR; rewrite AB; apply sub_keep; exact S2|]. split.
      * intros AL AR x I J. rewrite QL in I, AL. rewrite QR in J, AR. destruct I as [<-|I]; [left; reflexivity|]. destruct J as [J|J]; [left; congruence|].
        right. apply S3; try assumption; [apply (ascending_tail _ _ AL)|apply (ascending_tail _ _ AR)].
      * rewrite S4. f_equal. rewrite zlen_cons. f_equal; f_equal; ring.
Qed.

Lemma subsequence_len {A} (s l : list A) : subsequence s l -> zlen s <= zlen l.
Proof. induction 1; rewrite ?zlen_cons; try lia. change (zlen (@nil A)) with 0. apply zlen_nonneg. Qed.
Lemma subsequence_in {A} (s l : list A) x : subsequence s l -> In x s -> In x l.
Proof. induction 1; cbn; intuition. Qed.
Lemma absent_le l l' s : subsequence s l -> (forall x, In x s -> In x l') -> absent l l' <= zlen l - zlen s.
Proof.
  induction 1 as [l|a s l S IH|a s l S IH]; intros H.
  - change (zlen []) with 0. clear H. induction l as [|a l IH]; [cbn; lia|]. cbn [absent]. rewrite zlen_cons. destruct (in_dec _ _ _); lia.
  - cbn [absent]. rewrite !zlen_cons. destruct (in_dec Z.eq_dec a l') as [_|NI]; [|elim NI; apply H; left; reflexivity].
    specialize (IH ltac:(intros; apply H; right; assumption)). lia.
  - cbn [absent]. rewrite !zlen_cons. specialize (IH H). destruct (in_dec _ _ _); lia.
Qed.
Lemma absent_eq l l' s : NoDup l -> subsequence s l -> (forall x, In x s -> In x l') -> (forall x, In x l -> In x l' -> In x s) -> absent l l' = zlen l - zlen s.
Proof.
  intros ND S. revert ND. induction S as [l|a s l S IH|a s l S IH]; intros ND H1 H2.
  - change (zlen []) with 0. clear H1. induction l as [|a l IH]; [reflexivity|]. cbn [absent]. rewrite zlen_cons. destruct (in_dec _ _ _) as [I|NI].
    + elim (H2 a (or_introl eq_refl) I).
    + rewrite IH; [lia|inversion ND; assumption|]. intros x I. apply H2. right. exact I.
  - cbn [absent]. rewrite !zlen_cons. destruct (in_dec Z.eq_dec a l') as [_|NI]; [|elim NI; apply H1; left; reflexivity].
    inversion ND as [|? ? NI ND']; subst. rewrite IH; [lia|exact ND'|intros; apply H1; right; assumption|].
    intros x I J. destruct (H2 x (or_intror I) J) as [<-|K]; [contradiction|exact K].
  - cbn [absent]. rewrite !zlen_cons. inversion ND as [|? ? NI ND']; subst. destruct (in_dec Z.eq_dec a l') as [I|_].
    + elim NI. apply (subsequence_in _ _ _ S). apply H2; [left; reflexivity|exact I].
    + rewrite IH; [lia|exact ND'|exact H1|]. intros x I J. apply H2; [right; exact I|exact J].
Qed.
Lemma ascending_nodup l : ascending l -> NoDup l.
Proof. induction 1 as [|a l S IH F]; constructor; [|exact IH]. rewrite Forall_forall in F. intros I. specialize (F a I). lia. Qed.

(** all together: what the two lists have in common *)
Lemma diffres_ok known right n plus minus : zlen known < 2^62 -> 0 <= n <= zlen right -> n < 2^62 -> 0 <= plus < 2^63 -> 0 <= minus < 2^63 ->
  let found := map r_index (firstn (Z.to_nat n) right) in
  exists s, subsequence s known /\ subsequence s found /\ (ascending known -> ascending found -> forall x, In x known -> In x found -> In x s) /\
    diffres known (zlen known) right n plus minus = Ok (plus + (n - zlen s), minus + (zlen known - zlen s)).
Proof.
  intros BL N BN P M found. unfold diffres.
  destruct (diff_loop_ok known right n ltac:(lia) N ltac:(lia) (S (Z.to_nat (zlen known + n))) 0 0 plus minus) as (s & S1 & S2 & S3 & S4);
    try (pose proof (zlen_nonneg known); lia).
  change (Z.to_nat 0) with 0%nat in S1, S2, S3. cbn [skipn] in S1, S2, S3. exists s. split; [exact S1|]. split; [exact S2|]. split; [exact S3|].
  rewrite S4. pose proof (subsequence_len _ _ S1). pose proof (subsequence_len _ _ S2) as Q. rewrite zlen_map in Q.
  assert (zlen (firstn (Z.to_nat n) right) <= n) by (unfold zlen; rewrite firstn_length; lia). pose proof (zlen_nonneg s).
  rewrite !wrap_small by lia. do 2 f_equal; ring.
Qed.

(** ** readres *)
Lemma tokens_len l : 1 <= zlen (tokens l) <= zlen l + 1.
Proof.
  induction l as [|c l IH]; [cbn; lia|]. cbn [tokens]. rewrite zlen_cons. destruct (c =? 32); [rewrite zlen_cons; lia|].
  destruct (tokens l) as [|t ts]; rewrite ?zlen_cons in *; change (zlen (@nil (list Z))) with 0 in *; lia.
Qed.
Lemma read_tokens_ok al : forall ts blk acc w w0 bs fs, holds w w0 (opt_list blk ++ bs) fs -> (blk = None -> ts <> []) ->
  exists r w', read_tokens al ts blk acc w = Ok (r, w') /\
  match r with
  | Some (b, vs) => holds w' w0 (b :: bs) fs /\ exists us, vs = acc ++ us /\ Forall2 (fun t v => strtoull_of t = Some v) ts us
  | None => holds w' w0 bs fs /\ ((exists t, In t ts /\ strtoull_of t = None) \/ exists n, al n = false)
  end.
Proof.
  induction ts as [|t ts IH]; intros blk acc w w0 bs fs H NB.
  - destruct blk as [b|]; [|elim NB; reflexivity]. cbn. eexists _, _. split; [reflexivity|]. split; [exact H|]. exists []. rewrite app_nil_r. auto.
  - cbn [read_tokens]. destruct blk as [b|].
    + cbn [opt_list app] in H. destruct (holds_realloc al b w w0 bs fs H) as (r & w1 & -> & H1). cbn [bind]. destruct r as [b1|].
      * destruct (strtoull_of t) as [v|] eqn:SV.
        -- destruct (IH (Some b1) (acc ++ [v]) w1 w0 bs fs H1 ltac:(discriminate)) as (r & w2 & EQ & H2). exists r, w2. split; [exact EQ|].
           destruct r as [[b2 vs]|]; [|split; [apply H2|]; destruct H2 as (_ & [(t' & I & Q)|Q]); [left; exists t'; split; [right; exact I|exact Q]|right; exact Q]]. destruct H2 as (H2 & us & -> & F). split; [exact H2|]. exists (v :: us). rewrite <- app_assoc. split; [reflexivity|]. constructor; assumption.
        -- destruct (holds_free _ _ _ _ _ H1) as (w2 & -> & H2). cbn [bind]. eexists _, _. split; [reflexivity|]. split; [exact H2|]. left. exists t. split; [left; reflexivity|exact SV].
      * destruct H1 as (H1 & AF). cbn [free_opt]. destruct (holds_free _ _ _ _ _ H1) as (w2 & -> & H2). cbn [bind]. eexists _, _. split; [reflexivity|]. split; [exact H2|right; exact AF].
    + cbn [opt_list app] in H. pose proof (holds_alloc al w w0 bs fs H) as A. destruct (alloc al w) as [[b1|] w1]; cbn [bind].
      * destruct (strtoull_of t) as [v|] eqn:SV.
        -- destruct (IH (Some b1) (acc ++ [v]) w1 w0 bs fs A ltac:(discriminate)) as (r & w2 & EQ & H2). exists r, w2. split; [exact EQ|].
           destruct r as [[b2 vs]|]; [|split; [apply H2|]; destruct H2 as (_ & [(t' & I & Q)|Q]); [left; exists t'; split; [right; exact I|exact Q]|right; exact Q]]. destruct H2 as (H2 & us & -> & F). split; [exact H2|]. exists (v :: us). rewrite <- app_assoc. split; [reflexivity|]. constructor; assumption.
        -- destruct (holds_free _ _ _ _ _ A) as (w2 & -> & H2). cbn [bind]. eexists _, _. split; [reflexivity|]. split; [exact H2|]. left. exists t. split; [left; reflexivity|exact SV].
      * cbn [free_opt bind]. eexists _, _. split; [reflexivity|]. destruct A as (A & AF). split; [exact A|right; eauto].
Qed.
Lemma readres_ok al line w w0 bs fs : holds w w0 bs fs -> exists r w', readres al line w = Ok (r, w') /\
  match r with
  | Some (b, vs) => holds w' w0 (b :: bs) fs /\ Forall2 (fun t v => strtoull_of t = Some v) (tokens line) vs
  | None => holds w' w0 bs fs /\ ((exists t, In t (tokens line) /\ strtoull_of t = None) \/ exists n, al n = false)
  end.
Proof.
  intros H. destruct (read_tokens_ok al (tokens line) None [] w w0 bs fs H) as (r & w' & EQ & P).
  { intros _ Q. pose proof (tokens_len line) as T. rewrite Q in T. change (zlen []) with 0 in T. lia. }
  exists r, w'. split; [exact EQ|]. destruct r as [[b vs]|]; [|exact P]. destruct P as (P & us & -> & F). split; assumption.
Qed.

(** ** One method *)
Lemma error_text_ok e : known_code e -> exists msg, error_text e = Ok msg /\ resdet_error_str e = Ok msg.
Proof.
  intros K. destruct (error_message e K) as (m & Q & N). unfold error_text. rewrite Q. cbn [bind]. destruct m; (elim N; reflexivity) || eauto.
Qed.
Lemma add_time t dt : proper_time dt -> proper_time t ->
  let usec := tv_usec t + tv_usec dt in
  let t' := mkTime (tv_sec t + (tv_sec dt + usec / 1000000)) (usec mod 1000000) in
  proper_time t' /\ micros t' = micros t + micros dt.
Proof.
  unfold proper_time, micros. cbn [tv_sec tv_usec]. intros D T.
  pose proof (Z.div_mod (tv_usec t + tv_usec dt) 1000000 ltac:(lia)). pose proof (Z.mod_pos_bound (tv_usec t + tv_usec dt) 1000000 ltac:(lia)). lia.
Qed.
Lemma reported_len E m w h p imgs Ds len l : client_ok E w h p -> countable imgs -> reported E m w h p imgs Ds len l ->
  exists l', l = l' ++ [own_size len] /\ 0 <= zlen l' < 2^31.
Proof.
  intros HC CT R. destruct (reaches_nonempty_reported _ _ _ _ _ _ _ _ _ HC CT R) as (_ & G & _ & _).
  destruct (seen_lines _ _ _ _ _ _ _ _ _ HC CT R) as (_ & _ & _ & HL). destruct G as [_ (l' & -> & P & _)]. exists l'. split; [reflexivity|]. split; [apply zlen_nonneg|].
  apply Permutation_length in P. unfold pairs, found in P. rewrite !map_length in P. unfold zlen. rewrite <- P.
  assert (L : forall (f : Z -> bool) q, (length (filter f q) <= length q)%nat).
  { intros f q. induction q as [|a q IH]; cbn; [lia|]. destruct (f a); cbn; lia. }
  match goal with |- Z.of_nat (length (filter ?f ?q)) < _ => specialize (L f q) end.
  unfold window in *. unfold zrange in L at 2. rewrite length_zseq in L. pose proof (used_range_pos E w h m p HC). unfold INT_MAX in HL. lia.
Qed.
Lemma frames_of_concat size : 0 <= size -> forall fs, Forall (fun f => zlen f = size) fs -> frames_of (length fs) size (concat fs) = fs.
Proof.
  intros S0. induction 1 as [|f fs F _ IH]; [reflexivity|]. cbn [length frames_of concat]. f_equal.
  - rewrite firstn_app, firstn_all2, (proj2 (Nat.sub_0_le _ _)) by (unfold zlen in F; lia). cbn. apply app_nil_r.
  - rewrite skipn_app, skipn_all2, (proj2 (Nat.sub_0_le _ _)) by (unfold zlen in F; lia). exact IH.
Qed.

Lemma leak_app E a b : leak_ok E a -> leak_ok E b -> leak_ok E (a ++ b).
Proof. intros [->|A] B; [exact B|right; exact A]. Qed.

Lemma removelast_own l len : removelast (l ++ [own_size len]) = l.
Proof. apply removelast_last. Qed.
Lemma diff_reported E m w h imgs Ds len l known plus minus : client_ok E w h None -> countable imgs -> reported E m w h None imgs Ds len l ->
  zlen known < 2^62 -> 0 <= plus < 2^63 -> 0 <= minus < 2^63 ->
  exists s, in_common s known (sizes_of l) /\
    diffres known (zlen known) l (wrap (zlen l - 1)) plus minus = Ok (plus + (zlen (sizes_of l) - zlen s), minus + (zlen known - zlen s)).
Proof.
  intros HC CT R B P M. destruct (reported_len _ _ _ _ _ _ _ _ _ HC CT R) as (l' & EL & LN). unfold sizes_of. rewrite EL, removelast_own.
  assert (ZL : zlen (l' ++ [own_size len]) = zlen l' + 1). { rewrite zlen_app, zlen_cons. change (zlen (@nil rdres)) with 0. lia. }
  rewrite ZL. replace (zlen l' + 1 - 1) with (zlen l') by ring. rewrite wrap_small by lia.
  destruct (diffres_ok known (l' ++ [own_size len]) (zlen l') plus minus B ltac:(lia) ltac:(lia) P M) as (s & S1 & S2 & S3 & S4).
  assert (FN : firstn (Z.to_nat (zlen l')) (l' ++ [own_size len]) = l').
  { unfold zlen. rewrite Nat2Z.id. rewrite firstn_app, firstn_all, Nat.sub_diag. cbn. apply app_nil_r. }
  rewrite FN in *. exists s. split; [split; [exact S1|split; assumption]|]. rewrite S4, zlen_map. reflexivity.
Qed.

Lemma profile_method_ok E clock fs d width height kw kh m t n w w0 bs fls :
  client_ok E width height None -> Forall (fun f => zlen f = width * height) fs -> d = zlen fs -> 1 <= width -> 1 <= height ->
  zlen (concat fs) = width * height * d -> zlen (concat fs) < 2^62 -> zlen kw < 2^62 -> zlen kh < 2^62 -> holds w w0 bs fls ->
  exists out t' ret n' w' leak, profile_method E clock (concat fs) d width height kw kh m t n w = Ok (out, t', ret, n', w') /\
    holds w' w0 (leak ++ bs) fls /\ leak_ok E leak /\ measured E clock fs width height kw kh m out /\
    ((ret = 1 /\ failed_detection out = true /\ t' = t) \/
     (ret = 0 /\ failed_detection out = false /\ exists dt plus minus, out = Diff m dt plus minus /\ adds t dt plus minus t')).
Proof.
  intros HC FL DL W1 H1 CL B BW BH HW. assert (D0 : 0 <= d) by (rewrite DL; apply zlen_nonneg).
  unfold profile_method, getrusage. cbn [bind].
  assert (FR : frames_of (Z.to_nat d) (width * height) (concat fs) = fs). { rewrite DL. unfold zlen. rewrite Nat2Z.id. apply frames_of_concat; [nia|exact FL]. }
  destruct (Z.eq_dec d 0) as [Z0|NZ].
  { pose proof (resdetect_by_hand E (concat fs) d width height (mkWants true true true true) (Some m) None (mkOuts None 0 None 0) w HC D0 B ltac:(nia)) as RB. rewrite Z0 in RB. cbn [bad_wants want_rw want_cw want_rh want_ch andb orb negb Z.eqb] in RB. rewrite Z0, RB. cbn [negb Z.eqb bind clear_outs want_rw want_rh o_rw o_rh RDENOIMG].
    destruct (error_text_ok RDENOIMG ltac:(apply known_const; reflexivity)) as (msg & ET & ES). rewrite ET. cbn [bind free_opt option_map].
    eexists _, _, _, _, _, []. split; [reflexivity|]. split; [exact HW|]. split; [left; reflexivity|].
    split; [left; exists RDENOIMG, msg; split; [reflexivity|split; [discriminate|split; [exact ES|]]]; rewrite <- DL, Z0; eexists _, _, _; exact RB|]. left. auto. }
  destruct (resdetect_outcome_claim E (concat fs) d width height (mkWants true true true true) (Some m) None (mkOuts None 0 None 0) w HC ltac:(lia) ltac:(exact B) ltac:(unfold zlen in *; nia) eq_refl)
    as (e & o' & wd & EQ & OK & ER). rewrite FR in OK, ER. rewrite EQ. cbn [bind].
  destruct (Z.eq_dec e RDEOK) as [E0|NE].
  - destruct (OK E0) as (_ & OW & RW & RH). destruct (RW eq_refl) as (bx & rw & OX & CX & RX). destruct (RH eq_refl) as (by_ & rh & OY & CY & RY).
    rewrite E0. cbn [Z.eqb RDEOK negb]. rewrite OX, OY, CX, CY.
    assert (CT : countable fs). { unfold countable. unfold zlen in *. nia. }
    assert (NF : fs <> []). { intros ->. change (zlen []) with 0 in DL. lia. }
    destruct (diff_reported _ _ _ _ _ _ _ _ kw 0 0 HC CT RX BW ltac:(lia) ltac:(lia)) as (sw & SW & DW). fold (zlen rw). rewrite DW. cbn [bind].
    destruct (reported_len _ _ _ _ _ _ _ _ _ HC CT RX) as (lw & LW & LW1). destruct (reported_len _ _ _ _ _ _ _ _ _ HC CT RY) as (lh & LH & LH1).
    assert (SWL : 0 <= zlen sw <= zlen kw /\ zlen sw <= zlen (sizes_of rw)). { destruct SW as (A1 & A2 & _). split; [split; [apply zlen_nonneg|exact (subsequence_len _ _ A1)]|exact (subsequence_len _ _ A2)]. }
    assert (LSW : zlen (sizes_of rw) = zlen lw). { unfold sizes_of. rewrite zlen_map, LW, removelast_own. reflexivity. }
    destruct (diff_reported _ _ _ _ _ _ _ _ kh (0 + (zlen (sizes_of rw) - zlen sw)) (0 + (zlen kw - zlen sw)) HC CT RY BH ltac:(lia) ltac:(lia)) as (sh & SH & DH). fold (zlen rh). rewrite DH. cbn [bind].
    assert (HO : holds wd w0 ([bx; by_] ++ bs) fls).
    { unfold out_blocks in OW. cbn [want_rw want_rh] in OW. rewrite OX, OY in OW. exact (holds_owns _ _ _ _ _ _ OW HW). }
    cbn [option_map fst free_opt]. destruct (holds_free _ _ _ _ _ HO) as (w1 & -> & HO1). cbn [bind]. destruct (holds_free _ _ _ _ _ HO1) as (w2 & -> & HO2). cbn [bind].
    eexists _, _, _, _, _, []. split; [reflexivity|]. split; [exact HO2|]. split; [left; reflexivity|]. split.
    + right. exists n, rw, rh, sw, sh. split; [exact NF|]. split; [exact CT|]. split; [exact RX|]. split; [exact RY|]. split; [exact SW|]. split; [exact SH|].
      rewrite !Z.add_0_l. reflexivity.
    + right. split; [reflexivity|]. split; [reflexivity|]. eexists _, _, _. split; [reflexivity|]. split; [|split; reflexivity].
      cbn [to_time]. intros PD PT. apply (add_time _ _ PD PT).
  - destruct (ER NE) as (-> & HO & IE & _). cbn [Z.eqb]. destruct (Z.eqb_spec e 0) as [F|_]; [contradiction|]. cbn [negb].
    assert (KC : known_code e) by (destruct IE as [<-|[<-|[<-|[<-|[]]]]]; apply known_const; reflexivity).
    destruct (error_text_ok e KC) as (msg & ET & ES). rewrite ET. cbn [bind clear_outs want_rw want_rh o_rw o_rh option_map free_opt].
    assert (ME : measured E clock fs width height kw kh m (DetectError msg)). { left. exists e, msg. split; [reflexivity|]. split; [exact NE|]. split; [exact ES|]. rewrite <- DL. eexists _, _, _. exact EQ. }
    destruct HO as [HO|((KB & _ & AF) & lb & HO)].
    + eexists _, _, _, _, _, []. split; [reflexivity|]. split; [exact (holds_owns _ _ _ _ _ _ HO HW)|]. split; [left; reflexivity|]. split; [exact ME|]. left. auto.
    + eexists _, _, _, _, _, [lb]. split; [reflexivity|]. split; [exact (holds_owns _ _ _ _ _ _ HO HW)|]. split; [right; eauto|]. split; [exact ME|]. left. auto.
Qed.

(** ** Totals *)
Lemma summed_app f m a b : summed f m (a ++ b) = summed f m a + summed f m b.
Proof. induction a as [|r a IH]; [reflexivity|]. destruct r; cbn; rewrite ?IH; lia. Qed.
Lemma accounts_none m outs t : (forall f, summed f m outs = 0) -> accounts m outs t t.
Proof.
  intros Z. split; [|split; intros; unfold added, lacking; rewrite Z, Z.add_0_r, wrap_small by assumption; reflexivity].
  intros _ P. split; [exact P|]. unfold spent. rewrite Z. lia.
Qed.
Lemma accounts_app m a b t t1 t2 : accounts m a t t1 -> accounts m b t1 t2 -> accounts m (a ++ b) t t2.
Proof.
  intros (A1 & A2 & A3) (B1 & B2 & B3). split; [|split].
  - intros F P. apply Forall_app in F. destruct F as (F1 & F2). destruct (A1 F1 P) as (P1 & Q1). destruct (B1 F2 P1) as (P2 & Q2). split; [exact P2|].
    unfold spent in *. rewrite summed_app. lia.
  - intros P. specialize (A2 P). rewrite B2 by (rewrite A2; apply wrap_range). rewrite A2, wrap_wrap. f_equal. unfold added. rewrite summed_app. lia.
  - intros P. specialize (A3 P). rewrite B3 by (rewrite A3; apply wrap_range). rewrite A3, wrap_wrap. f_equal. unfold lacking. rewrite summed_app. lia.
Qed.
Lemma method_eqb_refl m : method_eqb m m = true.
Proof. destruct m; reflexivity. Qed.
Lemma method_eqb_neq a b : a <> b -> method_eqb a b = false.
Proof. destruct a, b; cbn; congruence. Qed.
Lemma accounts_one m dt plus minus t t' : adds t dt plus minus t' -> accounts m [Diff m dt plus minus] t t'.
Proof.
  intros (A1 & A2 & A3). unfold accounts, spent, added, lacking. cbn [summed]. rewrite method_eqb_refl, !Z.add_0_r. split; [|auto].
  intros F P. inversion F; subst. auto.
Qed.
Lemma measured_other E clock fs width height kw kh ms rs m : Forall2 (measured E clock fs width height kw kh) ms rs -> ~ In m ms -> forall f, summed f m rs = 0.
Proof.
  intros F. induction F as [|m' r ms rs M F IH]; intros NI f; [reflexivity|].
  destruct M as [(e & msg & -> & _)|(n & rw & rh & sw & sh & _ & _ & _ & _ & _ & _ & ->)]; cbn [summed].
  - apply IH. intros I. apply NI. right. exact I.
  - rewrite method_eqb_neq by (intros ->; apply NI; left; reflexivity). rewrite IH; [reflexivity|]. intros I. apply NI. right. exact I.
Qed.
Definition running (outs : list notice) (a b : method * total) : Prop := fst a = fst b /\ accounts (fst a) outs (snd a) (snd b).
Lemma running_app o1 o2 a b c : Forall2 (running o1) a b -> Forall2 (running o2) b c -> Forall2 (running (o1 ++ o2)) a c.
Proof.
  intros F. revert c. induction F as [|x y a b (Q & A) F IH]; intros c G; inversion G as [|? z ? c' (Q' & A') G']; subst; constructor; [|apply IH; assumption].
  split; [congruence|]. rewrite Q in *. eapply accounts_app; eassumption.
Qed.
Lemma running_fst outs a b : Forall2 (running outs) a b -> map fst b = map fst a.
Proof. induction 1 as [|x y a b (Q & _) F IH]; [reflexivity|]. cbn. congruence. Qed.
Lemma running_none outs ms : (forall m f, summed f m outs = 0) -> Forall2 (running outs) ms ms.
Proof. intros Z. induction ms as [|x ms IH]; constructor; [split; [reflexivity|apply accounts_none; intros; apply Z]|exact IH]. Qed.

(** ** All methods *)
Lemma profile_methods_ok E clock fs d width height kw kh :
  client_ok E width height None -> Forall (fun f => zlen f = width * height) fs -> d = zlen fs -> 1 <= width -> 1 <= height ->
  zlen (concat fs) = width * height * d -> zlen (concat fs) < 2^62 -> zlen kw < 2^62 -> zlen kh < 2^62 ->
  forall ms n ret w w0 bs fls, NoDup (map fst ms) -> (ret = 0 \/ ret = 1) -> holds w w0 bs fls ->
  exists outs ms' ret' n' w' leak, profile_methods E clock (concat fs) d width height kw kh ms n ret w = Ok (outs, ms', ret', n', w') /\
    holds w' w0 (leak ++ bs) fls /\ leak_ok E leak /\ Forall2 (measured E clock fs width height kw kh) (map fst ms) outs /\
    (ret' = 0 \/ ret' = 1) /\ (ret' = 0 <-> ret = 0 /\ existsb failed_detection outs = false) /\ Forall2 (running outs) ms ms'.
Proof.
  intros HC FL DL W1 H1 CL B BW BH. induction ms as [|[m t] ms IH]; intros n ret w w0 bs fls ND RT HW.
  - cbn. eexists _, _, _, _, _, []. split; [reflexivity|]. split; [exact HW|]. split; [left; reflexivity|]. split; [constructor|]. split; [exact RT|]. split; [tauto|constructor].
  - cbn [profile_methods]. cbn [map fst] in ND. inversion ND as [|? ? NI ND']; subst.
    destruct (profile_method_ok E clock fs (zlen fs) width height kw kh m t n w w0 bs fls HC FL eq_refl W1 H1 CL B BW BH HW) as (out & t' & r & n1 & w1 & leak1 & EQ & HW1 & LK1 & ME & RR).
    rewrite EQ. cbn [bind].
    set (ret1 := if r =? 0 then ret else r). assert (RT1 : ret1 = 0 \/ ret1 = 1) by (unfold ret1; destruct RR as [(-> & _)|(-> & _)]; cbn; auto).
    destruct (IH n1 ret1 w1 w0 (leak1 ++ bs) fls ND' RT1 HW1) as (outs & ms' & ret' & n' & w' & leak & EQ2 & HW2 & LK2 & F & RT2 & RQ & RN).
    rewrite EQ2. cbn [bind]. eexists _, _, _, _, _, (leak ++ leak1). split; [reflexivity|]. split; [rewrite <- app_assoc; exact HW2|]. split; [apply leak_app; assumption|].
    split; [constructor; assumption|]. split; [exact RT2|]. split.
    + cbn [existsb]. rewrite RQ. unfold ret1. destruct RR as [(-> & -> & _)|(-> & -> & _)]; cbn [Z.eqb orb]; [|reflexivity]. split; [intros (X & _); discriminate|intros (_ & X); discriminate].
    + constructor.
      * split; [reflexivity|]. cbn [fst snd]. change (out :: outs) with ([out] ++ outs). eapply accounts_app; [|apply accounts_none; exact (measured_other _ _ _ _ _ _ _ _ _ _ F NI)].
        destruct RR as [(_ & FD & ->)|(_ & _ & dt & plus & minus & -> & AD)]; [|apply accounts_one; exact AD].
        apply accounts_none. intros f. destruct ME as [(e & msg & -> & _)|(n2 & rw & rh & sw & sh & _ & _ & _ & _ & _ & _ & ->)]; [reflexivity|discriminate FD].
      * assert (NX : forall x, In x ms -> fst x <> m). { intros x I Q. apply NI. rewrite <- Q. apply in_map. exact I. }
        assert (SO : forall m' f, m' <> m -> summed f m' (out :: outs) = summed f m' outs).
        { intros m' f N. destruct ME as [(e & msg & -> & _)|(n2 & rw & rh & sw & sh & _ & _ & _ & _ & _ & _ & ->)]; cbn [summed]; [reflexivity|]. rewrite method_eqb_neq by exact N. lia. }
        clear -RN NX SO. induction RN as [|x y ms ms' (Q & A) RN IH]; constructor; [|apply IH; intros; apply NX; right; assumption].
        split; [exact Q|]. specialize (NX x (or_introl eq_refl)). destruct A as (A1 & A2 & A3). unfold accounts, spent, added, lacking in *. rewrite !SO by exact NX.
        split; [|split; assumption]. intros F. apply A1. inversion F; assumption.
Qed.

(** ** The dictionary *)
Lemma frames_exact Y im fs er im' : frames Y im fs er im' -> Forall (fun f => zlen f = im_width im * im_height im) fs.
Proof.
  induction 1 as [|im f im1 fs e im' G F IH]; [constructor|].
  destruct (G (repeat None (Z.to_nat (im_width im * im_height im)))) as (u & EE & _ & FT).
  { rewrite repeat_length. lia. } destruct (FT eq_refl) as (LF & _).
  unfold resdet_read_image_frame in EE. apply bind_ok in EE. destruct EE as ([[[b2 e2] u2] c2] & _ & EE). inversion EE; subst. cbn in IH.
  constructor; [unfold zlen; lia|exact IH].
Qed.
Lemma frames_code Y im fs er im' : codes_ok Y -> frames Y im fs er im' -> known_code er.
Proof.
  intros C. induction 1 as [im e f im' G|]; [|assumption].
  destruct (G (repeat None (Z.to_nat (im_width im * im_height im)))) as (u & EE & _ & _); [rewrite repeat_length; lia|]. eapply read_code; eassumption.
Qed.
Lemma numbers_len line vs : numbers line vs -> zlen vs <= zlen line + 1.
Proof. intros F. pose proof (tokens_len line). apply Forall2_length in F. unfold zlen in *. lia. Qed.
Lemma chop_len l : zlen (chop l) <= zlen l.
Proof.
  unfold chop, cstring. assert (T : forall f (q : list Z), zlen (take_while f q) <= zlen q).
  { intros f q. induction q as [|c q IH]; cbn [take_while]; [lia|]. destruct (f c); rewrite ?zlen_cons; [lia|]. change (zlen (@nil Z)) with 0. pose proof (zlen_nonneg q). lia. }
  eapply Z.le_trans; [apply T|]. destruct l as [|c l]; [cbn; lia|]. rewrite removelast_firstn_len. unfold zlen. rewrite firstn_length. lia.
Qed.

Lemma profile_loop_ok R E Y clock : env_ok E -> system_ok Y -> relaxed Y -> codes_ok Y -> forall fuel lines ms n w w0 bs fls,
  (length lines < fuel)%nat -> Forall (fun l => zlen l < 2^61) lines -> map fst ms = resdet_methods -> holds w w0 bs fls ->
  exists outs ms' ret w' leak, profile_loop fuel R E Y clock lines ms n w = Ok (outs, ms', ret, w') /\
    holds w' w0 (leak ++ bs) fls /\ leak_ok E leak /\ printed_run R E Y clock lines outs ret /\ Forall2 (running outs) ms ms'.
Proof.
  intros EO SO RX CO. induction fuel as [|fuel IH]; intros lines ms n w w0 bs fls LF LB MM HW; [lia|].
  cbn [profile_loop]. destruct lines as [|line lines].
  { eexists _, _, _, _, []. split; [reflexivity|]. split; [exact HW|]. split; [left; reflexivity|]. split; [|apply running_none; reflexivity].
    exists [], [], [], [], []. split; [reflexivity|]. split; [constructor|]. split; [constructor|]. split; [reflexivity|]. left. auto. }
  inversion LB as [|? ? LB1 LB2]; subst. cbn [length] in LF. destruct (Z.eqb_spec (hd 0 line) 10) as [BL|NB].
  { destruct (IH lines ms n w w0 bs fls ltac:(lia) LB2 MM HW) as (outs & ms' & ret & w' & leak & EQ & HW' & LK & RO & RN).
    exists outs, ms', ret, w', leak. split; [exact EQ|]. split; [exact HW'|]. split; [exact LK|]. split; [|exact RN].
    destruct RO as (done & rest & es & outss & last & -> & D & F & O & K). exists (line :: done), rest, es, outss, last. split; [reflexivity|]. split; [apply dict_blank; assumption|]. auto. }
  assert (NBL : ~ blank_line line) by exact NB. set (name := chop line).
  destruct (read_image_ok R E Y (Some (string_of name)) None true w (eo_config _ EO) SO RX) as (im & width & height & ob & e0 & w1 & EO1 & buf & d & e & w2 & ER & CASES).
  rewrite ER. cbn [bind].
  assert (KC : known_code e).
  { pose proof (open_by_code Y CO R E (Some (string_of name)) (ByType None) true true w) as K0. cbn [open_by] in K0. rewrite EO1 in K0. cbn in K0.
    destruct CASES as [(_ & -> & _)|(i & fs & er & i' & _ & _ & _ & _ & FR & [(-> & _)|(_ & _ & _ & [(-> & _)|[(-> & _)|(-> & _)]])])]; try (apply known_const; reflexivity); [exact K0|].
    eapply frames_code; eassumption. }
  assert (HW2 : match buf with Some (b, _) => holds w2 w0 (b :: bs) fls | None => holds w2 w0 bs fls end).
  { assert (TR : forall xs, holds w2 w xs [] -> holds w2 w0 (xs ++ bs) fls).
    { intros xs (P & F). destruct HW as (P' & F'). split.
      - eapply Permutation_trans; [exact P|]. rewrite <- app_assoc. apply Permutation_app_head. exact P'.
      - cbn in F. eapply Permutation_trans; [exact F|exact F']. }
    destruct CASES as [(_ & _ & _ & -> & _ & H2)|(i & fs & er & i' & _ & _ & _ & _ & FR & [(_ & _ & _ & _ & b & tail & -> & _ & _ & H2)|(_ & -> & H2 & _)])]; exact (TR _ H2). }
  destruct (Z.eqb_spec e 0) as [E0|NE]; cbn [negb].
  2: { destruct (error_text_ok e KC) as (msg & -> & ES). cbn [bind].
       assert (BN : buf = None) by (destruct CASES as [(_ & _ & _ & -> & _)|(i & fs & er & i' & _ & _ & _ & _ & FR & [(F & _)|(_ & -> & _)])]; [reflexivity|contradiction|reflexivity]).
       rewrite BN in HW2.
       assert (CR : cannot_read R E Y (string_of name) e) by (split; [exact NE|]; rewrite BN in ER; eexists _, _, _, _, _; exact ER).
       assert (STOP : (length lines < 2)%nat -> exists outs ms' ret w' leak, Ok ([Name name; ReadError name msg], ms, 1, w2) = Ok (outs, ms', ret, w') /\
          holds w' w0 (leak ++ bs) fls /\ leak_ok E leak /\ printed_run R E Y clock (line :: lines) outs ret /\ Forall2 (running outs) ms ms').
       { intros LL. eexists _, _, _, _, []. split; [reflexivity|]. split; [exact HW2|]. split; [left; reflexivity|]. split; [|apply running_none; reflexivity].
         exists [], (line :: lines), [], [], [Name name; ReadError name msg]. split; [reflexivity|]. split; [constructor|]. split; [constructor|]. split; [reflexivity|]. right. right.
         split; [reflexivity|]. split; [reflexivity|]. split; [exists line, lines; auto|]. exists line. split; [reflexivity|]. right. eauto. }
       destruct lines as [|la [|lb lines]]; [apply STOP; cbn; lia|apply STOP; cbn; lia|]. clear STOP.
       inversion LB2 as [|? ? _ LB3]; subst. inversion LB3 as [|? ? _ LB4]; subst. cbn [length] in LF.
       destruct (IH lines ms n w2 w0 bs fls ltac:(lia) LB4 MM HW2) as (outs & ms' & ret & w' & leak & EQ & HW' & LK & RO & RN). rewrite EQ. cbn [bind].
       eexists _, _, _, _, leak. split; [reflexivity|]. split; [exact HW'|]. split; [exact LK|]. split.
       - destruct RO as (done & rest & es & outss & last & -> & D & F & -> & K). exists (line :: la :: lb :: done), rest, ((line, la, lb) :: es), ([Name name; ReadError name msg] :: outss), last.
         split; [reflexivity|]. split; [apply dict_entry; assumption|]. split; [constructor; [eapply entry_unread; eassumption|exact F]|]. split; [reflexivity|exact K].
       - change (Name name :: ReadError name msg :: outs) with ([Name name; ReadError name msg] ++ outs). eapply running_app; [apply running_none; reflexivity|exact RN]. }
  destruct CASES as [(_ & _ & F & _)|(i & fs & er & i' & -> & -> & WP & HP & FR & [(_ & -> & DN & WI & b & tail & -> & CL & TL & _)|(F & _)])]; try contradiction.
  assert (DIM : im_width i = width /\ im_height i = height).
  { destruct (ext_sizes Y SO) as (sz & X). destruct (open_by_ok sz R E Y (Some (string_of name)) (ByType None) true true w w [] [] (eo_config _ EO) SO RX X (holds_refl w)) as ([[[[[im2 width2] height2] ob2] e2] w3] & EQ2 & O).
    cbn [open_by] in EQ2. rewrite EO1 in EQ2. inversion EQ2; subst. destruct O as [(_ & i2 & Q & W & H & _)|(F & _)]; [inversion Q; subst; auto|contradiction F; reflexivity]. }
  destruct DIM as (DW & DH). pose proof (frames_exact _ _ _ _ _ FR) as FX. rewrite DW, DH in FX. unfold within, SIZE_MAX in WI.
  assert (HC : client_ok E width height None). { split; [exact EO|]. assert (D0 : 0 <= d) by (rewrite DN; apply zlen_nonneg). split; [nia|]. split; [nia|]. left. reflexivity. }
  assert (D0 : 0 <= d) by (rewrite DN; apply zlen_nonneg). assert (CB : zlen (concat fs) < 2^62) by nia.
  assert (STOP : forall more, lines = more ++ skipn (length more) lines -> ((length lines < 2)%nat \/ (exists a, In a (firstn 2 lines) /\ unreadable (chop a)) \/ exists n, e_alloc E n = false) ->
     forall ow oh wz, holds wz w0 (opt_list ow ++ opt_list oh ++ b :: bs) fls -> exists outs ms' ret w' leak,
     (w <- free_opt ow wz ;; w <- free_opt oh w ;; w <- free_block b w ;; Ok ([Name name], ms, 1, w)) = Ok (outs, ms', ret, w') /\
     holds w' w0 (leak ++ bs) fls /\ leak_ok E leak /\ printed_run R E Y clock (line :: lines) outs ret /\ Forall2 (running outs) ms ms').
  { intros _ _ BR ow oh wz HZ. destruct (holds_free_opt _ _ _ _ _ HZ) as (wa & -> & HA). cbn [bind]. destruct (holds_free_opt _ _ _ _ _ HA) as (wb & -> & HB). cbn [bind].
    destruct (holds_free _ _ _ _ _ HB) as (wc & -> & HCC). cbn [bind]. eexists _, _, _, _, []. split; [reflexivity|]. split; [exact HCC|]. split; [left; reflexivity|].
    split; [|apply running_none; reflexivity]. exists [], (line :: lines), [], [], [Name name]. split; [reflexivity|]. split; [constructor|]. split; [constructor|]. split; [reflexivity|]. right. right.
    split; [reflexivity|]. split; [reflexivity|]. split; [exists line, lines; auto|]. exists line. split; [reflexivity|]. left. reflexivity. }
  destruct lines as [|la lines]; [apply (STOP []); [reflexivity|left; cbn; lia|exact HW2]|].
  destruct (readres_ok (e_alloc E) (chop la) w2 w0 (b :: bs) fls HW2) as (kw & w3 & -> & HK). cbn [bind].
  destruct kw as [[bw kw]|].
  2: { destruct HK as (HK & BR). apply (STOP []); [reflexivity| |exact HK]. right. destruct BR as [BR|BR]; [left|right; exact BR]. exists la. split; [left; reflexivity|exact BR]. }
  destruct HK as (HK & NW). destruct lines as [|lb lines]; [apply (STOP [la]); [reflexivity|left; cbn; lia|exact HK]|].
  destruct (readres_ok (e_alloc E) (chop lb) w3 w0 (bw :: b :: bs) fls HK) as (kh & w4 & -> & HK2). cbn [bind].
  destruct kh as [[bh kh]|].
  2: { destruct HK2 as (HK2 & BR). apply (STOP [la; lb]); [reflexivity| |exact HK2]. right. destruct BR as [BR|BR]; [left|right; exact BR]. exists lb. split; [right; left; reflexivity|exact BR]. }
  destruct HK2 as (HK2 & NH). clear STOP.
  inversion LB2 as [|? ? LA LB3]; subst. inversion LB3 as [|? ? LBB LB4]; subst. cbn [length] in LF.
  assert (FI : filled (firstn (Z.to_nat (zlen fs * im_width i * im_height i)) (map Some (concat fs) ++ tail)) = Ok (concat fs)).
  { rewrite firstn_map_app by (unfold zlen in *; nia). apply filled_some. }
  rewrite FI. cbn [bind].
  pose proof (numbers_len _ _ NW) as KL. pose proof (chop_len la). pose proof (numbers_len _ _ NH) as KL2. pose proof (chop_len lb).
  assert (NDM : NoDup (map fst ms)). { rewrite MM. repeat constructor; cbn; intuition discriminate. }
  destruct (profile_methods_ok E clock fs (zlen fs) (im_width i) (im_height i) kw kh HC FX eq_refl WP HP CL CB ltac:(lia) ltac:(lia) ms n 0 w4 w0 (bh :: bw :: b :: bs) fls NDM ltac:(auto) HK2)
    as (outs & ms' & ret & n' & w5 & leak & EQ & HW5 & LK & MF & RT & RQ & RN). rewrite EQ. cbn [bind].
  assert (P5 : holds w5 w0 (bw :: bh :: b :: leak ++ bs) fls).
  { eapply holds_perm; [exact HW5|]. change (bh :: bw :: b :: bs) with ([bh; bw; b] ++ bs). rewrite app_assoc. change (bw :: bh :: b :: leak ++ bs) with (([bw; bh; b] ++ leak) ++ bs).
    apply Permutation_app_tail. eapply Permutation_trans; [apply Permutation_app_comm|]. apply Permutation_app_tail. apply perm_swap. }
  destruct (holds_free _ _ _ _ _ P5) as (w6 & -> & P6). cbn [bind]. destruct (holds_free _ _ _ _ _ P6) as (w7 & -> & P7). cbn [bind]. destruct (holds_free _ _ _ _ _ P7) as (w8 & -> & P8). cbn [bind].
  assert (ENT : entry_report R E Y clock (line, la, lb) (Name name :: outs)).
  { eapply entry_measured; [|exact HC|exact NW|exact NH|rewrite <- MM; exact MF]. exists w, i, ob, w1, i'. split; [exact EO1|exact FR]. }
  assert (RN1 : Forall2 (running (Name name :: outs)) ms ms').
  { change (Name name :: outs) with ([Name name] ++ outs). eapply running_app; [apply running_none; reflexivity|exact RN]. }
  destruct (Z.eqb_spec ret 0) as [R0|RN0]; cbn [negb].
  - destruct (IH lines ms' n' w8 w0 (leak ++ bs) fls ltac:(lia) LB4 ltac:(rewrite (running_fst _ _ _ RN); exact MM) P8) as (outs2 & ms2 & ret2 & w9 & leak2 & EQ2 & HW9 & LK2 & RO & RN2).
    rewrite EQ2. cbn [bind]. eexists _, _, _, _, (leak2 ++ leak). split; [reflexivity|]. split; [rewrite <- app_assoc; exact HW9|]. split; [apply leak_app; assumption|]. split.
    + destruct RO as (done & rest & es & outss & last & -> & D & F & -> & K). exists (line :: la :: lb :: done), rest, ((line, la, lb) :: es), ((Name name :: outs) :: outss), last.
      split; [reflexivity|]. split; [apply dict_entry; assumption|]. split; [constructor; assumption|]. split; [cbn [concat app]; rewrite <- app_assoc; reflexivity|].
      cbn [existsb failed_detection orb]. rewrite existsb_app. rewrite (proj2 (proj1 RQ R0)). cbn [orb]. exact K.
    + change (Name name :: outs ++ outs2) with ((Name name :: outs) ++ outs2). eapply running_app; eassumption.
  - eexists _, _, _, _, leak. split; [reflexivity|]. split; [exact P8|]. split; [exact LK|]. split; [|exact RN1].
    exists [line; la; lb], lines, [(line, la, lb)], [Name name :: outs], []. split; [reflexivity|]. split; [apply dict_entry; [assumption|constructor]|]. split; [constructor; [exact ENT|constructor]|].
    split; [cbn [concat]; rewrite !app_nil_r; reflexivity|]. right. left. destruct RT as [RT|RT]; [contradiction|]. split; [exact RT|]. split; [|reflexivity].
    cbn [existsb failed_detection orb]. destruct (existsb failed_detection outs) eqn:X; [reflexivity|]. elim RN0. apply RQ. auto.
Qed.
