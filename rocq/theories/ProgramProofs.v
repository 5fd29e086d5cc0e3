(** Whole client programs: safety, heap accounting, and resdetect as the sequential API. *)
From Coq Require Import Reals Permutation Sorted Lra.
From Flocq Require Import Core IEEE754.Binary.
From Verif Require Import Base Flt Util Methods Analysis Resdetect History Spec SpecAnalysis SpecUtil SpecReport.
From Verif Require Import BaseProofs FltProofs MethodsProofs WorldProofs AnalysisProofs UtilProofs ResultsProofs ClientProofs.
Open Scope list_scope.
Open Scope Z_scope.

Lemma leaks_leaky E w h wd : create_leaks E w h wd -> leaky_failure E w h wd.
Proof.
  unfold create_leaks, plan_leak, leaky_failure. destruct (c_backend (e_cfg E)); [|discriminate].
  cbn [w_count]. intros H. apply andb_true_iff in H. destruct H as (H1 & H2).
  apply andb_true_iff in H1. destruct H1 as (H1 & _).
  split; [reflexivity|]. split; [lia|]. apply negb_true_iff in H2.
  replace (w_count wd + 8)%nat with (S (S (w_count wd)) + 6)%nat by lia. exact H2.
Qed.

Lemma filled_blocks q o o' lx ly bs : filled q o o' lx ly bs -> out_blocks q o' = bs.
Proof.
  intros (bx & by_ & F1 & _ & F3 & _ & F5). unfold out_blocks.
  destruct (want_rw q); destruct (want_rh q); try rewrite F1; try rewrite F3; subst bs; reflexivity.
Qed.

Lemma clear_blocks q o : out_blocks q (clear_outs q o) = [].
Proof. unfold out_blocks, clear_outs. cbn. destruct (want_rw q), (want_rh q); reflexivity. Qed.

Lemma do_calls_ok E m w h P cs : env_ok E -> params_ok P -> Forall (call_ok w h) cs ->
  forall a xs ys n wd w0 bs, an_state E a m w h P xs ys n -> 0 <= n -> n + zlen cs <= SIZE_MAX ->
  owns wd w0 (an_blocks a ++ bs) ->
  exists rs a' wd', do_calls E cs (Some a) wd = Ok (rs, Some a', wd') /\
    Forall2 reply_ok cs rs /\ owns wd' w0 (an_blocks a' ++ reply_blocks cs rs ++ bs).
Proof.
  intros HE HP. induction cs as [|c cs IH]; intros FC a xs ys n wd w0 bs S Hn HN O.
  - exists [], a, wd. split; [reflexivity|]. split; [constructor|]. exact O.
  - inversion FC as [|? ? Hc FC']; subst. rewrite zlen_cons in HN. pose proof (zlen_nonneg cs).
    destruct c as [image|q o]; cbn [do_calls do_call].
    + destruct (analyze_ok E a m w h P xs ys n image wd HE S Hc ltac:(lia)) as (e & a' & wd' & EQ & AB & L1 & L2 & L3 & H').
      rewrite EQ. cbn [bind].
      assert (O' : owns wd' w0 (an_blocks a' ++ bs)).
      { rewrite AB. destruct O as (O1 & O2 & O3). split; [rewrite L1; exact O1|]. split; congruence. }
      assert (HS : In e [RDEOK; RDEINVAL; RDENOMEM] /\ exists xs' ys' n', an_state E a' m w h P xs' ys' n' /\ 0 <= n' <= n + 1).
      { destruct (forallb ffinite (firstn (Z.to_nat (w * h)) image)).
        - destruct H' as [(-> & S')|(-> & _ & _ & [S'|S'])].
          + split; [simpl; auto|]. do 3 eexists. split; [exact S'|lia].
          + split; [simpl; auto|]. do 3 eexists. split; [exact S'|lia].
          + split; [simpl; auto|]. do 3 eexists. split; [exact S'|lia].
        - destruct H' as (-> & S'). split; [simpl; auto|]. do 3 eexists. split; [exact S'|lia]. }
      destruct HS as (He & xs' & ys' & n' & S' & Hn').
      destruct (IH FC' a' xs' ys' n' wd' w0 bs S' ltac:(lia) ltac:(lia) O') as (rs & a'' & wd'' & EQ2 & FR & O'').
      rewrite EQ2. cbn [bind]. do 3 eexists. split; [reflexivity|]. split; [|exact O''].
      constructor; [exact He|exact FR].
    + destruct (results_ok E a m w h P xs ys n HE S (po_filter _ HP) ltac:(lia) q o wd) as (e & o' & wd' & EQ & H').
      rewrite EQ. cbn [bind].
      assert (HB : In e [RDEOK; RDEPARAM; RDENOIMG; RDENOMEM] /\ owns wd' wd (out_blocks q o')).
      { destruct H' as [(-> & _ & -> & ->)|[(-> & _ & _ & -> & ->)|[(-> & _ & _ & -> & O' & _)|(-> & _ & _ & bs' & F & O')]]].
        - split; [simpl; auto|]. rewrite clear_blocks. apply owns_refl.
        - split; [simpl; auto|]. rewrite clear_blocks. apply owns_refl.
        - split; [simpl; auto|]. rewrite clear_blocks. exact O'.
        - split; [simpl; auto|]. rewrite (filled_blocks _ _ _ _ _ _ F). exact O'. }
      destruct HB as (He & OB).
      assert (O' : owns wd' w0 (an_blocks a ++ out_blocks q o' ++ bs)).
      { eapply owns_perm; [eapply owns_trans; [exact OB|exact O]|].
        rewrite !app_assoc. apply Permutation_app_tail. apply Permutation_app_comm. }
      destruct (IH FC' a xs ys n wd' w0 _ S Hn ltac:(lia) O') as (rs & a'' & wd'' & EQ2 & FR & O'').
      rewrite EQ2. cbn [bind]. do 3 eexists. split; [reflexivity|]. split.
      * constructor; [exact He|exact FR].
      * cbn [reply_blocks]. eapply owns_perm; [exact O''|]. apply Permutation_app_head.
        rewrite !app_assoc. apply Permutation_app_tail. apply Permutation_app_comm.
Qed.

Lemma program_ok E m w h p cs wd : client_ok E w h p -> Forall (call_ok w h) cs -> countable cs ->
  exists e rs wd', program E m w h p cs wd = Ok (e, rs, wd') /\
    In e [RDEOK; RDEINVAL; RDETOOBIG; RDENOMEM; RDEINTERNAL] /\
    (e = RDEOK -> Forall2 reply_ok cs rs /\ owns wd' wd (reply_blocks cs rs)) /\
    (e <> RDEOK -> rs = [] /\ holds_only E w h wd wd' []).
Proof.
  intros HC FC HN. apply (proj1 (countable_zlen _)) in HN. destruct (client_sizes _ _ _ _ HC) as (Hw & Hh).
  unfold program. pose proof (client_valid _ _ _ _ HC) as V.
  destruct (create_ok E m w h p wd (eo_config _ (proj1 HC)) Hw Hh V) as (ao & e & wd1 & EQ & H).
  rewrite EQ. cbn [bind]. destruct ao as [a|].
  - destruct H as (-> & _ & S & O).
    destruct (effective_ok (e_cfg E) (the_method m) p (eo_config _ (proj1 HC)) V) as (PO & _).
    destruct (do_calls_ok E (the_method m) w h _ cs (proj1 HC) PO FC a _ _ _ wd1 wd [] S ltac:(lia) ltac:(lia)) as (rs & a' & wd2 & EQ2 & FR & O2).
    { rewrite app_nil_r. exact O. }
    rewrite EQ2. cbn [bind]. destruct (destroy_ok _ _ _ _ O2) as (wd3 & EQ3 & O3 & _). rewrite EQ3. cbn [bind].
    do 3 eexists. split; [reflexivity|]. split; [simpl; auto|]. split; [|intros X; contradiction X; reflexivity].
    intros _. split; [exact FR|]. rewrite app_nil_r in O3. exact O3.
  - destruct H as (CE & leak & O & HL).
    do 3 eexists. split; [reflexivity|]. split.
    { destruct CE as [(-> & _)|[(-> & _)|[(-> & _)|(-> & _)]]]; simpl; auto 10. }
    split.
    { intros ->. exfalso. destruct CE as [(X & _)|[(X & _)|[(X & _)|(X & _)]]]; discriminate X. }
    intros _. split; [reflexivity|]. destruct HL as [->|((b & ->) & L)].
    + left. exact O.
    + right. split; [apply leaks_leaky, L|]. exists b. exact O.
Qed.

(** ** resdetect *)

Lemma get_firstn {A} (l : list A) n i : i < Z.of_nat n -> get (firstn n l) i = get l i.
Proof.
  intros H. unfold get, in_range. destruct (Z.leb_spec 0 i); [|reflexivity]. cbn [andb].
  assert (X : nth_error (firstn n l) (Z.to_nat i) = nth_error l (Z.to_nat i)).
  { assert (K : (Z.to_nat i < n)%nat) by lia. revert K. generalize (Z.to_nat i). clear. revert n.
    induction l as [|a l IH]; intros [|n] [|k] K; try lia; try reflexivity. cbn. apply IH. lia. }
  rewrite X. unfold zlen. rewrite firstn_length.
  destruct (Z.ltb_spec i (Z.of_nat (Init.Nat.min n (List.length l)))), (Z.ltb_spec i (Z.of_nat (List.length l))); try lia; reflexivity.
Qed.

Lemma copy_samples_firstn image N : forall n i f, i + Z.of_nat n <= Z.of_nat N ->
  copy_samples n i (firstn N image) f = copy_samples n i image f.
Proof.
  induction n as [|n IH]; intros i f H; [reflexivity|]. cbn [copy_samples]. rewrite get_firstn by lia.
  destruct (get image i) as [v|]; [|reflexivity]. cbn [bind]. destruct (negb (ffinite v)); [reflexivity|].
  destruct (set f i (Some v)); [|reflexivity]. cbn [bind]. apply IH. lia.
Qed.

Lemma analyze_firstn E a image wd : 0 <= an_width a * an_height a < 2^64 ->
  resdet_analyze_image E (Some a) (Some (firstn (Z.to_nat (an_width a * an_height a)) image)) wd =
  resdet_analyze_image E (Some a) (Some image) wd.
Proof.
  intros H. unfold resdet_analyze_image. destruct (an_f a) as [[fb f]|]; [|reflexivity].
  rewrite (wrap_small (an_width a * an_height a)) by exact H.
  rewrite copy_samples_firstn by lia. reflexivity.
Qed.

Lemma analyze_dims E a im wd e a' wd' : resdet_analyze_image E (Some a) (Some im) wd = Ok (e, a', wd') ->
  exists b, a' = Some b /\ an_width b = an_width a /\ an_height b = an_height a.
Proof.
  unfold resdet_analyze_image. destruct (an_f a) as [[fb f]|]; [|discriminate].
  destruct (copy_samples _ _ _ _) as [[fin f']|]; [|discriminate]. cbn [bind].
  destruct (negb fin).
  { intros X. inversion X. eexists. split; [reflexivity|]. auto. }
  destruct (all_init f') as [v|]; [|discriminate]. cbn [bind].
  destruct (analyze_dimension E a _ (an_width a) _ _ _ _ _ _) as [[[[e1 xr] xb] w1]|]; [|discriminate]. cbn [bind].
  destruct (negb (e1 =? 0)).
  { intros X. inversion X. eexists. split; [reflexivity|]. auto. }
  destruct (analyze_dimension E a _ (an_height a) _ _ _ _ _ _) as [[[[e2 yr] yb] w2]|]; [|discriminate]. cbn [bind].
  destruct (negb (e2 =? 0)); intros X; inversion X; (eexists; split; [reflexivity|]; auto).
Qed.

Lemma skipn_skipn' {A} (l : list A) a b : skipn a (skipn b l) = skipn (b + a) l.
Proof.
  revert l. induction b as [|b IH]; intros l; [reflexivity|]. destruct l as [|x l]; [destruct a; reflexivity|].
  cbn [skipn Nat.add]. apply IH.
Qed.

Lemma loop_frames E image w h : 0 <= w * h -> zlen image < 2^62 -> forall n i a wd,
  0 <= i -> (i + Z.of_nat n) * (w * h) <= zlen image -> an_width a = w -> an_height a = h -> w * h < 2^62 ->
  resdetect_loop E n i (Some a) image w h wd =
  analyze_frames E (frames_of n (w * h) (skipn (Z.to_nat (i * (w * h))) image)) (Some a) wd.
Proof.
  intros HS HL. induction n as [|n IH]; intros i a wd Hi HI AW AH HB; [reflexivity|].
  cbn [resdetect_loop frames_of analyze_frames].
  replace (i * w * h) with (i * (w * h)) by ring.
  assert (B1 : 0 <= i * (w * h)) by nia. assert (B2 : i * (w * h) <= zlen image) by nia.
  rewrite wrap_small by lia. unfold ptr_add.
  destruct (Z.leb_spec 0 (i * (w * h))); [|lia]. destruct (Z.leb_spec (i * (w * h)) (zlen image)); [|lia]. cbn [andb bind].
  rewrite <- (analyze_firstn E a (skipn _ image)) by (rewrite AW, AH; lia). rewrite AW, AH.
  destruct (resdet_analyze_image E (Some a) _ wd) as [[[e a'] wd']|u] eqn:EQ; [|reflexivity]. cbn [bind].
  destruct (negb (e =? 0)); [reflexivity|].
  apply analyze_dims in EQ. destruct EQ as (b & -> & W & H').
  rewrite IH by (try lia; congruence).
  rewrite skipn_skipn'. do 3 f_equal. f_equal. lia.
Qed.

Lemma results_clear E a q o wd :
  resdet_analysis_results E a q (clear_outs q o) wd = resdet_analysis_results E a q o wd.
Proof.
  unfold resdet_analysis_results.
  replace (clear_outs q (clear_outs q o)) with (clear_outs q o); [reflexivity|].
  unfold clear_outs. cbn. destruct (want_rw q), (want_cw q), (want_rh q), (want_ch q); reflexivity.
Qed.

Lemma resdetect_by_hand E image n w h q m p o wd :
  client_ok E w h p -> 0 <= n -> zlen image < 2^62 -> n * (w * h) <= zlen image ->
  resdetect E (Some image) n w h q m p o wd =
  if bad_wants q then Ok (RDEPARAM, clear_outs q o, wd)
  else if n =? 0 then Ok (RDENOIMG, clear_outs q o, wd)
  else by_hand E (frames_of (Z.to_nat n) (w * h) image) w h q m p o wd.
Proof.
  intros HC Hn HL HI. unfold resdetect. destruct (bad_wants q); [reflexivity|].
  destruct (Z.eqb_spec n 0); [reflexivity|]. unfold by_hand.
  destruct (client_sizes _ _ _ _ HC) as (Hw & Hh).
  destruct (create_ok E m w h p wd (eo_config _ (proj1 HC)) Hw Hh (client_valid _ _ _ _ HC)) as (ao & e & wd1 & EQ & H).
  rewrite EQ. cbn [bind]. destruct ao as [a|]; [|reflexivity].
  destruct H as (_ & _ & S & _). unfold is_size in *.
  rewrite (loop_frames E image w h) by (try (rewrite (as_width _ _ _ _ _ _ _ _ _ S)); try (rewrite (as_height _ _ _ _ _ _ _ _ _ S)); nia).
  replace (0 * (w * h)) with 0 by ring. change (skipn (Z.to_nat 0) image) with image.
  destruct (analyze_frames _ _ _ _) as [[[e2 a2] wd2]|]; [|reflexivity]. cbn [bind].
  rewrite results_clear. reflexivity.
Qed.

Lemma frames_len n size : forall buf, length (frames_of n size buf) = n.
Proof. induction n as [|n IH]; intros buf; [reflexivity|]. cbn. f_equal. apply IH. Qed.

Lemma frames_big size : 0 <= size -> forall n buf, Z.of_nat n * size <= zlen buf ->
  Forall (fun f => size <= zlen f) (frames_of n size buf).
Proof.
  intros HS. induction n as [|n IH]; intros buf H; [constructor|]. cbn [frames_of]. constructor.
  - unfold zlen in *. rewrite firstn_length. nia.
  - apply IH. unfold zlen in *. rewrite skipn_length. nia.
Qed.

(** analysing frames until one fails *)
Lemma analyze_frames_ok E m w h p frames : client_ok E w h p ->
  Forall (fun f => w * h <= zlen f) frames ->
  forall imgs a wd, reaches E m w h p imgs a -> zlen imgs + zlen frames < SIZE_MAX ->
  exists e a' wd', analyze_frames E frames (Some a) wd = Ok (e, Some a', wd') /\
    owns wd' wd [] /\ an_blocks a' = an_blocks a /\
    ((e = RDEOK /\ reaches E m w h p (imgs ++ frames) a' /\ Forall (valid_image w h) frames) \/
     (e = RDENOMEM /\ used_method m = Morig /\ exists k, e_alloc E k = false) \/
     (e = RDEINVAL /\ ~ Forall (valid_image w h) frames)).
Proof.
  intros HC. induction frames as [|f fs IH]; intros FB imgs a wd R HN.
  - exists RDEOK, a, wd. cbn. split; [reflexivity|]. split; [apply owns_refl|]. split; [reflexivity|].
    left. rewrite app_nil_r. auto.
  - inversion FB as [|? ? Bf FB']; subst. rewrite zlen_cons in HN. pose proof (zlen_nonneg fs). pose proof (zlen_nonneg imgs).
    destruct (analyze_step E m w h p imgs a f wd HC R ltac:(apply countable_zlen; lia) Bf) as (e & a1 & wd1 & EQ & O1 & AB & H').
    cbn [analyze_frames]. rewrite EQ. cbn [bind].
    destruct H' as [(V & -> & R1)|[(V & -> & M & K)|(V & -> & R1)]].
    + unfold RDEOK at 1. cbn [Z.eqb negb].
      destruct (IH FB' (imgs ++ [f]) a1 wd1 R1 ltac:(rewrite zlen_app; change (zlen [f]) with 1; lia)) as (e & a2 & wd2 & EQ2 & O2 & AB2 & H').
      exists e, a2, wd2. split; [exact EQ2|]. split; [apply (owns_trans _ _ _ [] [] O2 O1)|]. split; [congruence|].
      destruct H' as [(-> & R2 & V2)|[(-> & M & K)|(-> & NV)]].
      * left. rewrite <- app_assoc in R2. auto.
      * right; left. auto.
      * right; right. split; [reflexivity|]. intros X. apply NV. inversion X; assumption.
    + unfold RDENOMEM at 1. cbn [Z.eqb negb]. do 3 eexists. split; [reflexivity|]. split; [exact O1|]. split; [exact AB|].
      right; left. auto.
    + unfold RDEINVAL at 1. cbn [Z.eqb negb]. do 3 eexists. split; [reflexivity|]. split; [exact O1|]. split; [exact AB|].
      right; right. split; [reflexivity|]. intros X. apply V. inversion X; assumption.
Qed.

Lemma by_hand_ok E m w h p frames q o wd : client_ok E w h p ->
  Forall (fun f => w * h <= zlen f) frames -> countable frames -> frames <> [] -> bad_wants q = false ->
  exists e o' wd', by_hand E frames w h q m p o wd = Ok (e, o', wd') /\
    ((e = RDEOK /\ Forall (valid_image w h) frames /\ owns wd' wd (out_blocks q o') /\
        exists a wda wdb, reaches E m w h p frames a /\
          resdet_analysis_results E (Some a) q o wda = Ok (RDEOK, o', wdb)) \/
     (e <> RDEOK /\ o' = clear_outs q o /\ holds_only E w h wd wd' [] /\
       (e = RDEINVAL -> w = 0 \/ h = 0 \/ ~ Forall (valid_image w h) frames) /\
       In e [RDEINVAL; RDETOOBIG; RDENOMEM; RDEINTERNAL])).
Proof.
  intros HC FB HN NE BW. apply (proj1 (countable_zlen _)) in HN. destruct (client_sizes _ _ _ _ HC) as (Hw & Hh).
  unfold by_hand.
  destruct (create_ok E m w h p wd (eo_config _ (proj1 HC)) Hw Hh (client_valid _ _ _ _ HC)) as (ao & e & wd1 & EQ & H).
  rewrite EQ. cbn [bind]. destruct ao as [a|].
  - destruct H as (-> & _ & S & O).
    assert (R0 : reaches E m w h p [] a) by (econstructor; exact EQ).
    destruct (analyze_frames_ok E m w h p frames HC FB [] a wd1 R0) as (e & a1 & wd2 & EQ1 & O1 & AB & H').
    { change (zlen []) with 0. lia. }
    rewrite EQ1. cbn [bind]. rewrite <- AB in O.
    assert (O2 : owns wd2 wd (an_blocks a1)) by exact (owns_trans _ _ _ [] _ O1 O).
    destruct H' as [(-> & R1 & V)|H'].
    + unfold RDEOK at 1. cbn [Z.eqb]. cbn [app] in R1.
      destruct (history_results E m w h p frames a1 q o wd2 HC R1 HN) as (e & o' & wd3 & EQ3 & H').
      rewrite EQ3. cbn [bind].
      assert (HB : owns wd3 wd2 (out_blocks q o')).
      { destruct H' as [(-> & _ & -> & ->)|[(-> & _ & _ & -> & ->)|[(-> & _ & _ & -> & O' & _)|(-> & _ & _ & bs' & F & O')]]].
        - rewrite clear_blocks. apply owns_refl.
        - rewrite clear_blocks. apply owns_refl.
        - rewrite clear_blocks. exact O'.
        - rewrite (filled_blocks _ _ _ _ _ _ F). exact O'. }
      assert (O3 : owns wd3 wd (an_blocks a1 ++ out_blocks q o')).
      { eapply owns_perm; [eapply owns_trans; [exact HB|exact O2]|]. apply Permutation_app_comm. }
      destruct (destroy_ok _ _ _ _ O3) as (wd4 & EQ4 & O4 & _). rewrite EQ4. cbn [bind].
      do 3 eexists. split; [reflexivity|].
      destruct H' as [(-> & X & _)|[(-> & _ & X & _)|[(-> & _ & _ & -> & _)|(-> & _ & _ & _)]]].
      * congruence.
      * congruence.
      * right. split; [discriminate|]. split; [reflexivity|]. split; [|split; [discriminate|simpl; auto]].
        left. rewrite clear_blocks in O4. exact O4.
      * left. split; [reflexivity|]. split; [exact V|]. split; [exact O4|]. exists a1, wd2, wd3. auto.
    + assert (NZ : (e =? 0) = false) by (destruct H' as [(-> & _)|(-> & _)]; reflexivity). rewrite NZ. cbn [bind].
      destruct (destroy_ok a1 wd2 wd [] ltac:(rewrite app_nil_r; exact O2)) as (wd4 & EQ4 & O4 & _). rewrite EQ4. cbn [bind].
      do 3 eexists. split; [reflexivity|]. right.
      split; [apply Z.eqb_neq in NZ; exact NZ|]. split; [reflexivity|]. split; [left; exact O4|].
      destruct H' as [(-> & _)|(-> & V)]; split; try discriminate; simpl; auto.
  - destruct H as (CE & leak & O & HL). do 3 eexists. split; [reflexivity|]. right.
    split; [intros ->; destruct CE as [(X & _)|[(X & _)|[(X & _)|(X & _)]]]; discriminate X|].
    split; [reflexivity|]. split.
    { destruct HL as [->|((b & ->) & L)].
      + left. exact O.
      + right. split; [apply leaks_leaky, L|]. exists b. exact O. }
    destruct CE as [(-> & _)|[(-> & _)|[(-> & X)|(-> & _)]]]; (split; [try discriminate; tauto|simpl; auto]).
Qed.
