(** The JavaScript bindings. *)
From Coq Require Import Permutation String.
From Flocq Require Import IEEE754.Binary.
From Verif Require Import Base BaseProofs Flt Util Methods Analysis Resdetect History Spec SpecAnalysis SpecUtil SpecReport WorldProofs UtilProofs AnalysisProofs ResultsProofs ClientProofs ProgramProofs
  Stdio Pgm Pfm Y4m Image ImageHistory SpecImage ImageSafe FrameProofs ImageApi FileProofs SelectProofs Cli SpecCli CodeProofs CliProofs CliFilm CliRun AnalysisClaims Tools SpecTools StatProofs ProfileProofs StatRun
  Bindings SpecBindings BindingProofs BindingRun.
Open Scope string_scope.
Open Scope list_scope.
Open Scope Z_scope.

Lemma throw_ok {A} e w : known_code e -> e <> RDEOK -> exists x, js_rderror (A := A) e w = Ok (JsThrow x, w) /\ js_reflects e x.
Proof.
  intros K NE. destruct (exception_ok e K NE) as (x & _ & msg & Q & NM & _). unfold js_rderror. rewrite Q. cbn [bind]. eexists. split; [reflexivity|]. exists msg. auto.
Qed.

(** ** Parameters *)
Lemma value_of {A} (pick : setting -> option A) dflt l v : last_value pick dflt l v ->
  (exists s, In s l /\ documented s /\ pick s = Some v) \/ (v = dflt /\ forall s, In s l -> documented s -> pick s = None).
Proof.
  intros LV. induction LV as [|l s v P D|l s v ND LV IH].
  - right. split; [reflexivity|]. intros s [].
  - left. exists s. split; [apply in_or_app; right; left; reflexivity|auto].
  - destruct IH as [(s' & I & D & P)|(-> & H)]; [left; exists s'; split; [apply in_or_app; auto|auto]|right].
    split; [reflexivity|]. intros s' I D. apply in_app_or in I. destruct I as [I|[<-|[]]]; [apply H; assumption|]. destruct ND as [ND|ND]; [exact ND|contradiction].
Qed.
Lemma js_parameters_ok E o wd : Forall typed (js_settings o) ->
  (jp_other o = false /\ js_settings o = [] /\ js_parameters E o wd = Ok (JsReturn None, wd)) \/
  (jp_other o = true /\ js_parameters E o wd = Ok (JsThrow PlainError, wd)) \/
  (jp_other o = false /\ exists before last wd', js_settings o = before ++ [last] /\
    ((e_alloc E (w_count wd) = false /\ js_parameters E o wd = Ok (JsThrow OutOfMemoryError, wd') /\ holds wd' wd [] []) \/
     (e_alloc E (w_count wd) = true /\ exists b, holds wd' wd [b] [] /\
       ((documented last /\ exists p, js_parameters E o wd = Ok (JsReturn (Some (b, p)), wd') /\ client_params (e_cfg E) (Some p) /\
           js_in_effect range_of (c_default_range (e_cfg E)) o (p_range p) /\
           js_in_effect threshold_of (f32_of_Z (-1)) o (p_threshold p) /\
           js_in_effect filter_of 0 o (p_filter p)) \/
        (~ documented last /\ exists x, js_parameters E o wd = Ok (JsThrow x, wd') /\ js_reflects RDEPARAM x))))).
Proof.
  intros TY. destruct (jp_other o) eqn:OT.
  { right; left. split; [reflexivity|]. unfold js_parameters. rewrite OT. destruct (jp_range o), (jp_threshold o), (jp_filter o); reflexivity. }
  destruct (js_settings o) as [|s0 l0] eqn:JS.
  { left. split; [reflexivity|]. split; [reflexivity|]. unfold js_settings in JS. unfold js_parameters. rewrite OT.
    destruct (jp_range o), (jp_threshold o), (jp_filter o); cbn in JS; try discriminate JS. reflexivity. }
  right; right. split; [reflexivity|].
  destruct (exists_last (l := s0 :: l0) ltac:(discriminate)) as (before & last & EL).
  pose proof (holds_alloc (e_alloc E) wd wd [] [] (holds_refl wd)) as HA.
  assert (GO : js_parameters E o wd =
    let '(r, w) := resdet_alloc_default_parameters (e_cfg E) (e_alloc E) wd in
      match r with
      | None => Ok (JsThrow OutOfMemoryError, w)
      | Some (b, p) => 
          let '(e, p') := set_param (snd (set_all (Some p) before)) last in
          if negb (e =? 0) then js_rderror e w else Ok (JsReturn (option_map (fun p => (b, p)) p'), w)
      end).
  { unfold js_settings in JS. rewrite EL in JS. unfold js_parameters. rewrite OT.
    clear TY EL HA OT. destruct (jp_range o) as [v1|], (jp_threshold o) as [v2|], (jp_filter o) as [v3|]; cbn [app] in JS;
      try (exfalso; exact (app_cons_not_nil _ _ _ JS));
      match type of JS with
      | [?a; ?b; ?c] = _ => apply (app_inj_tail [a; b] before c last) in JS
      | [?a; ?b] = _ => apply (app_inj_tail [a] before b last) in JS
      | [?a] = _ => apply (app_inj_tail [] before a last) in JS
      end; destruct JS as (<- & <-);
      destruct (resdet_alloc_default_parameters (e_cfg E) (e_alloc E) wd) as [[[b p]|] w]; try reflexivity; cbn [js_set option_map set_all set_param snd];
      try (destruct (resdet_parameters_set_range _ v1) as [? ?]; cbn [snd]); try (destruct (resdet_parameters_set_threshold _ _) as [? ?]; cbn [snd]);
      try (destruct (resdet_parameters_set_compression_filter _ v3) as [? ?]; cbn [snd]); reflexivity. }
  rewrite EL in TY. exists before, last. unfold resdet_alloc_default_parameters in GO.
  assert (AT : match alloc (e_alloc E) wd with (Some _, _) => e_alloc E (w_count wd) = true | (None, _) => e_alloc E (w_count wd) = false end) by (unfold alloc; destruct (e_alloc E (w_count wd)); reflexivity).
  destruct (alloc (e_alloc E) wd) as [[b|] w1]; exists w1; (split; [exact EL|]).
  2: { left. split; [exact AT|]. split; [exact GO|apply HA]. }
  right. split; [exact AT|]. exists b. split; [exact HA|].
  pose proof TY as TY'. apply Forall_app in TY'. destruct TY' as (TB & TL). inversion TL as [|? ? TL' _]; subst.
  destruct (set_history_ok (default_params (e_cfg E)) before TB) as (es0 & p0 & Q0 & _).
  destruct (set_history_ok (default_params (e_cfg E)) (before ++ [last]) TY) as (es & p & Q & _ & V1 & V2 & V3).
  rewrite Q0 in GO. cbn [snd] in GO. pose proof Q as Q'. rewrite CliProofs.set_all_app, Q0 in Q'. cbn [set_all] in Q'.
  destruct (set_param_ok p0 last TL') as (D1 & D2).
  assert (DEC : documented last \/ ~ documented last) by apply Classical_Prop.classic.
  destruct DEC as [D|ND].
  - left. split; [exact D|]. exists p. rewrite (D1 D) in GO, Q'. cbn in GO. assert (EP : Some (match last with Range v => mkParams v (p_threshold p0) (p_filter p0) | Threshold t => mkParams (p_range p0) t (p_filter p0) | Filter v => mkParams (p_range p0) (p_threshold p0) v end) = Some p) by congruence.
    assert (GO' : js_parameters E o wd = Ok (JsReturn (Some (b, p)), w1)) by congruence. clear EP. split; [exact GO'|]. split; [right; exists (before ++ [last]), es; auto|].
    unfold js_in_effect. rewrite JS, EL. split; [exact (value_of _ _ _ _ V1)|]. split; [exact (value_of _ _ _ _ V2)|exact (value_of _ _ _ _ V3)].
  - right. split; [exact ND|]. rewrite (D2 ND) in GO. cbn in GO.
    destruct (throw_ok (A := option (nat * params)) RDEPARAM w1) as (x & XQ & XR); [apply known_in_list; cbn; auto 8|discriminate|].
    exists x. split; [|exact XR]. rewrite GO. exact XQ.
Qed.
Lemma js_returned E o wd p wd1 : Forall typed (js_settings o) -> js_parameters E o wd = Ok (JsReturn p, wd1) ->
  client_params (e_cfg E) (option_map snd p) /\ holds wd1 wd (opt_list (option_map fst p)) [].
Proof.
  intros TY Q. destruct (js_parameters_ok E o wd TY) as [(_ & _ & P)|[(_ & P)|(_ & b & l & wd' & _ & [(_ & P & _)|(_ & blk & H & [(_ & q & P & C & _)|(_ & x & P & _)])])]]; rewrite P in Q; inversion Q; subst; cbn.
  - split; [left; reflexivity|apply holds_refl].
  - split; [exact C|exact H].
Qed.

(** ** The binding's own memory *)
Lemma pointers_ok E wd w0 bs : holds wd w0 bs [] -> 
  match js_pointers E wd with
  | (Some ps, wd') => exists a b c d, ps = [a; b; c; d] /\ holds wd' w0 (ps ++ bs) []
  | (None, wd') => (exists k, e_alloc E k = false) /\ exists more, holds wd' w0 (more ++ bs) []
  end.
Proof.
  intros H. unfold js_pointers.
  assert (ST : forall w xs, holds w w0 (xs ++ bs) [] -> match alloc (e_alloc E) w with (Some x, w') => holds w' w0 ((x :: xs) ++ bs) [] | (None, w') => holds w' w0 (xs ++ bs) [] /\ e_alloc E (w_count w) = false end).
  { intros w xs Hw. pose proof (holds_alloc (e_alloc E) w w0 _ _ Hw) as HA. destruct (alloc (e_alloc E) w) as [[x|] w']; exact HA. }
  pose proof (ST wd [] H) as H1. destruct (alloc (e_alloc E) wd) as [[a|] w1]; [|destruct H1 as (H1 & A1)];
    (pose proof (ST _ _ H1) as H2; destruct (alloc (e_alloc E) w1) as [[b|] w2]; [|destruct H2 as (H2 & A2)]);
    (pose proof (ST _ _ H2) as H3; destruct (alloc (e_alloc E) w2) as [[c|] w3]; [|destruct H3 as (H3 & A3)]);
    (pose proof (ST _ _ H3) as H4; destruct (alloc (e_alloc E) w3) as [[d|] w4]; [|destruct H4 as (H4 & A4)]).
  { exists a, b, c, d. split; [reflexivity|]. eapply holds_perm; [exact H4|]. apply Permutation_app_tail. change [a; b; c; d] with (rev [d; c; b; a]). apply Permutation_rev. }
  all: split; [eauto|eexists; eassumption].
Qed.
Lemma free_pointers_ok a b c d wd w0 bs : holds wd w0 ([a; b; c; d] ++ bs) [] -> exists wd', js_free_pointers [a; b; c; d] wd = Ok wd' /\ holds wd' w0 bs [].
Proof.
  intros H. unfold js_free_pointers. 
  destruct (holds_free wd w0 c ([d; a; b] ++ bs) []) as (w1 & -> & H1).
  { eapply holds_perm; [exact H|]. change (c :: [d; a; b] ++ bs) with ([c; d; a; b] ++ bs). apply Permutation_app_tail. apply (Permutation_app_comm [a; b] [c; d]). } cbn [bind].
  destruct (holds_free w1 w0 d ([a; b] ++ bs) [] H1) as (w2 & -> & H2). cbn [bind].
  destruct (holds_free w2 w0 a ([b] ++ bs) [] H2) as (w3 & -> & H3). cbn [bind]. destruct (holds_free w3 w0 b bs [] H3) as (w4 & -> & H4). eauto.
Qed.
Lemma js_collect_fail e o ps wd w0 bs : known_code e -> e <> RDEOK -> (exists a b c d, ps = [a; b; c; d]) -> holds wd w0 (ps ++ bs) [] ->
  exists x wd', js_collect e o ps wd = Ok (JsThrow x, wd') /\ js_reflects e x /\ holds wd' w0 bs [].
Proof.
  intros K NE (a & b & c & d & ->) H. unfold js_collect. assert (Z0 : e =? 0 = false) by (apply Z.eqb_neq; exact NE). rewrite Z0. cbn [negb].
  destruct (free_pointers_ok _ _ _ _ _ _ _ H) as (w1 & -> & H1). cbn [bind]. destruct (throw_ok (A := both) e w1 K NE) as (x & -> & R). eauto 6.
Qed.
Lemma js_collect_ok o ps bw rw bh rh wd w0 bs : o_rw o = Some (bw, rw) -> o_rh o = Some (bh, rh) -> o_cw o = zlen rw -> o_ch o = zlen rh ->
  (exists a b c d, ps = [a; b; c; d]) -> holds wd w0 ([bw; bh] ++ ps ++ bs) [] ->
  exists wd', js_collect RDEOK o ps wd = Ok (JsReturn (rw, rh), wd') /\ holds wd' w0 bs [].
Proof.
  intros A1 A2 A3 A4 (a & b & c & d & ->) H. unfold js_collect. cbn [Z.eqb RDEOK negb]. rewrite A1, A2, A3, A4, !copy_list_ok. cbn [bind option_map fst free_opt].
  destruct (holds_free _ _ _ _ _ H) as (w1 & -> & H1). cbn [bind]. destruct (holds_free _ _ _ _ _ H1) as (w2 & -> & H2). cbn [bind].
  destruct (free_pointers_ok _ _ _ _ _ _ _ H2) as (w3 & -> & H3). cbn [bind]. eauto.
Qed.

(** ** resDetect *)
Lemma js_detect_ok E image n w h m o wd p wd1 : env_ok E -> Forall typed (js_settings o) -> 0 <= w < 2^64 -> 0 <= h < 2^64 -> 0 <= n < 2^64 ->
  Z.of_nat (length image) < 2^62 -> n * (w * h) <= Z.of_nat (length image) -> js_parameters E o wd = Ok (JsReturn p, wd1) ->
  let fs := frames_of (Z.to_nat n) (w * h) image in
  exists r wd' held, js_resdetect E image n w h m o wd = Ok (r, wd') /\ holds wd' wd held [] /\
   ((exists lists, r = JsReturn lists /\ 1 <= n /\ held = [] /\ detected E m w h (option_map snd p) fs lists) \/
    (exists e x, r = JsThrow x /\ js_reflects e x /\ leak_ok E held /\ (e = RDENOIMG <-> n = 0) /\ In e [RDEINVAL; RDETOOBIG; RDENOMEM; RDEINTERNAL; RDENOIMG] /\
       (e = RDEINVAL -> w = 0 \/ h = 0 \/ ~ Forall (valid_image w h) fs)) \/
    (r = JsThrow OutOfMemoryError /\ exists k, e_alloc E k = false)).
Proof.
  intros EO TY Hw Hh Hn HL HI PQ fs. destruct (js_returned E o wd p wd1 TY PQ) as (CP & HP).
  unfold js_resdetect. rewrite PQ. cbn [bind]. change all_wanted with everything. change null_outs with no_outs.
  assert (HC : client_ok E w h (option_map snd p)) by (split; [exact EO|]; auto).
  pose proof (holds_alloc (e_alloc E) wd1 wd _ _ HP) as HB. destruct (alloc (e_alloc E) wd1) as [[buf|] wd2].
  2: { eexists _, _, _. split; [reflexivity|]. split; [apply HB|]. right; right. split; [reflexivity|]. exists (w_count wd1). apply HB. }
  pose proof (pointers_ok E wd2 wd _ HB) as HQ. destruct (js_pointers E wd2) as [[ps|] wd3].
  2: { destruct HQ as (AF & more & HQ). eexists _, _, _. split; [reflexivity|]. split; [exact HQ|]. right; right. auto. }
  destruct HQ as (a & b & c & d & EP & H3). assert (EP' : exists a b c d, ps = [a; b; c; d]) by eauto 6. clear a b c d EP.
  assert (FR : forall wd4 xs, owns wd4 wd3 xs -> exists wd5 wd6, free_opt (option_map fst p) wd4 = Ok wd5 /\ free_block buf wd5 = Ok wd6 /\ holds wd6 wd (xs ++ ps) []).
  { intros wd4 xs O. pose proof (holds_owns _ _ _ _ _ _ O H3) as H4.
    destruct (holds_free_opt wd4 wd (option_map fst p) (buf :: xs ++ ps) []) as (wd5 & -> & H5).
    { eapply holds_perm; [exact H4|]. set (q := opt_list (option_map fst p)).
      eapply Permutation_trans; [|apply Permutation_app_comm]. cbn [app]. rewrite app_assoc. apply Permutation_sym. eapply Permutation_trans; [|apply Permutation_middle]. apply perm_skip. rewrite <- app_assoc. reflexivity. }
    destruct (holds_free _ _ _ _ _ H5) as (wd6 & Q6 & H6). eauto 6. }
  destruct (Z.eq_dec n 0) as [N0|N1].
  { rewrite (resdetect_by_hand E image n w h everything m _ no_outs wd3 HC ltac:(lia) HL HI). subst n. cbn [bad_wants everything Z.eqb bind want_rw want_cw want_rh want_ch orb andb negb xorb].
    destruct (FR wd3 [] (owns_refl _)) as (wd5 & wd6 & -> & Q6 & H6). cbn [bind]. rewrite Q6. cbn [bind app] in *.
    destruct (js_collect_fail RDENOIMG no_outs ps wd6 wd []) as (x & wd7 & Q7 & RF & H7); [apply known_in_list; cbn; auto 8|discriminate|exact EP'|rewrite app_nil_r; exact H6|].
    eexists _, _, []. split; [exact Q7|]. split; [exact H7|]. right; left. exists RDENOIMG, x. split; [reflexivity|]. split; [exact RF|]. split; [left; reflexivity|]. split; [split; reflexivity|]. split; [cbn; auto 8|discriminate]. }
  destruct (resdetect_outcome_claim E image n w h everything m (option_map snd p) no_outs wd3 HC ltac:(lia) HL HI eq_refl) as (e & oo & wd4 & Q & OKC & ERC).
  fold fs in OKC, ERC. rewrite Q. cbn [bind]. destruct (Z.eq_dec e RDEOK) as [->|NE].
  - destruct (OKC eq_refl) as (V & O & XW & XH). destruct (XW eq_refl) as (bw & rw & A1 & A2 & RW). destruct (XH eq_refl) as (bh & rh & A3 & A4 & RH). clear XW XH OKC ERC.
    unfold out_blocks in O. cbn [everything want_rw want_rh] in O. rewrite A1, A3 in O. cbn [app] in O.
    destruct (FR _ _ O) as (wd5 & wd6 & -> & Q6 & H6). cbn [bind]. rewrite Q6. cbn [bind].
    destruct (js_collect_ok oo ps bw rw bh rh wd6 wd [] A1 A3 A2 A4 EP') as (wd7 & Q7 & H7); [rewrite app_nil_r; exact H6|].
    eexists _, _, []. split; [exact Q7|]. split; [exact H7|]. left. exists (rw, rh). split; [reflexivity|]. split; [lia|]. split; [reflexivity|]. split; [exact V|]. split; [exact RW|exact RH].
  - destruct (ERC NE) as (-> & HO & IE & IV). destruct (leak_holds _ _ _ _ _ HO) as (leak & O & LK).
    destruct (FR _ _ O) as (wd5 & wd6 & -> & Q6 & H6). cbn [bind]. rewrite Q6. cbn [bind].
    destruct (js_collect_fail e (clear_outs everything no_outs) ps wd6 wd leak) as (x & wd7 & Q7 & RF & H7); [apply known_in_list; cbn in *; intuition auto|exact NE|exact EP'|eapply holds_perm; [exact H6|apply Permutation_app_comm]|].
    eexists _, _, leak. split; [exact Q7|]. split; [exact H7|]. right; left. exists e, x. split; [reflexivity|]. split; [exact RF|]. split; [exact LK|].
    split; [split; [intros ->|intros ->; contradiction]; cbn in IE; intuition discriminate|]. split; [cbn in *; intuition auto|exact IV].
Qed.

(** ** Analysis *)
Lemma js_new_ok E w h m o wd p wd1 : env_ok E -> Forall typed (js_settings o) -> 0 <= w < 2^64 -> 0 <= h < 2^64 -> js_parameters E o wd = Ok (JsReturn p, wd1) ->
  client_ok E w h (option_map snd p) /\
  exists r wd' held, js_new_analysis E w h m o wd = Ok (r, wd') /\ holds wd' wd held [] /\
    ((exists a, r = JsReturn a /\ reaches E m w h (option_map snd p) [] a /\ held = an_blocks a) \/
     (exists e x, r = JsThrow x /\ js_reflects e x /\ In e [RDEINVAL; RDETOOBIG; RDENOMEM; RDEINTERNAL] /\ leak_ok E held) \/
     (r = JsThrow OutOfMemoryError /\ exists k, e_alloc E k = false)).
Proof.
  intros EO TY Hw Hh PQ. destruct (js_returned E o wd p wd1 TY PQ) as (CP & HP).
  assert (HC : client_ok E w h (option_map snd p)) by (split; [exact EO|]; auto). split; [exact HC|].
  unfold js_new_analysis. rewrite PQ. cbn [bind]. destruct (client_sizes _ _ _ _ HC) as (Sw & Sh).
  pose proof (holds_alloc (e_alloc E) wd1 wd _ _ HP) as HB. destruct (alloc (e_alloc E) wd1) as [[buf|] wd2].
  2: { eexists _, _, _. split; [reflexivity|]. split; [apply HB|]. right; right. split; [reflexivity|]. exists (w_count wd1). apply HB. }
  destruct (create_ok E m w h (option_map snd p) wd2 (eo_config _ EO) Sw Sh (client_valid _ _ _ _ HC)) as (ao & e & wd3 & EC & HCR). rewrite EC. cbn [bind].
  assert (FR : forall xs, owns wd3 wd2 xs -> exists wd4 wd5, free_opt (option_map fst p) wd3 = Ok wd4 /\ free_block buf wd4 = Ok wd5 /\ holds wd5 wd xs []).
  { intros xs O. pose proof (holds_owns _ _ _ _ _ _ O HB) as H4.
    destruct (holds_free_opt wd3 wd (option_map fst p) (buf :: xs) []) as (wd5 & -> & H5).
    { eapply holds_perm; [exact H4|]. apply Permutation_sym. eapply Permutation_trans; [apply Permutation_app_comm|]. cbn [app]. apply Permutation_middle. }
    destruct (holds_free _ _ _ _ _ H5) as (wd6 & Q6 & H6). eauto 6. }
  destruct ao as [a|].
  - destruct HCR as (-> & _ & _ & O). destruct (FR _ O) as (wd4 & wd5 & -> & Q5 & H5). cbn [bind]. rewrite Q5. cbn [bind Z.eqb RDEOK negb].
    eexists _, _, _. split; [reflexivity|]. split; [exact H5|]. left. exists a. split; [reflexivity|]. split; [econstructor; exact EC|reflexivity].
  - destruct HCR as (CE & leak & O & HL). destruct (FR _ O) as (wd4 & wd5 & -> & Q5 & H5). cbn [bind]. rewrite Q5. cbn [bind].
    assert (KC : In e [RDEINVAL; RDETOOBIG; RDENOMEM; RDEINTERNAL]). { destruct CE as [(-> & _)|[(-> & _)|[(-> & _)|(-> & _)]]]; cbn; auto 8. }
    assert (NE : e <> RDEOK) by (intros ->; cbn in KC; intuition discriminate).
    assert (Z0 : e =? 0 = false) by (apply Z.eqb_neq; exact NE). rewrite Z0. cbn [negb].
    destruct (throw_ok (A := analysis) e wd5) as (x & -> & RF); [apply known_in_list; cbn in *; intuition auto|exact NE|].
    eexists _, _, leak. split; [reflexivity|]. split; [exact H5|]. right; left. exists e, x. split; [reflexivity|]. split; [exact RF|]. split; [exact KC|].
    destruct HL as [->|(_ & L)]; [left; reflexivity|right]. apply leaks_leaky in L. destruct L as (L1 & _ & L2). eauto.
Qed.
Lemma js_analyze_ok E m w h p imgs a image wd : client_ok E w h p -> reaches E m w h p imgs a -> countable imgs -> w * h <= Z.of_nat (length image) ->
  exists r a' wd', js_analyze E (Some a) image wd = Ok (r, Some a', wd') /\ holds wd' wd [] [] /\ an_blocks a' = an_blocks a /\
    ((valid_image w h image /\ r = JsReturn tt /\ reaches E m w h p (imgs ++ [image]) a') \/
     (~ valid_image w h image /\ (exists x, r = JsThrow x /\ js_reflects RDEINVAL x) /\ reaches E m w h p imgs a') \/
     ((exists k, e_alloc E k = false) /\ used_method m = Morig /\ exists x, r = JsThrow x /\ js_reflects RDENOMEM x) \/
     ((exists k, e_alloc E k = false) /\ r = JsThrow OutOfMemoryError /\ a' = a)).
Proof.
  intros HC R CN HI. unfold js_analyze. pose proof (holds_alloc (e_alloc E) wd wd [] [] (holds_refl wd)) as HB.
  destruct (alloc (e_alloc E) wd) as [[buf|] wd1].
  2: { eexists _, a, _. split; [reflexivity|]. split; [apply HB|]. split; [reflexivity|]. right; right; right. split; [exists (w_count wd); apply HB|auto]. }
  destruct (analyze_step E m w h p imgs a image wd1 HC R CN HI) as (e & a' & wd2 & Q & O & AB & CS). rewrite Q. cbn [bind].
  pose proof (holds_owns _ _ _ _ _ _ O HB) as H2. destruct (holds_free _ _ _ _ _ H2) as (wd3 & -> & H3). cbn [bind].
  destruct CS as [(V & -> & R')|[(V & -> & UM & AF)|(NV & -> & R')]]; cbn [Z.eqb RDEOK RDENOMEM RDEINVAL negb].
  - cbn [bind]. eexists _, _, _. split; [reflexivity|]. auto 8.
  - destruct (throw_ok (A := unit) RDENOMEM wd3) as (x & QX & RF); [apply known_in_list; cbn; auto 8|discriminate|]. rewrite QX. cbn [bind].
    eexists _, _, _. split; [reflexivity|]. split; [exact H3|]. split; [exact AB|]. right; right; left. eauto.
  - destruct (throw_ok (A := unit) RDEINVAL wd3) as (x & QX & RF); [apply known_in_list; cbn; auto 8|discriminate|]. rewrite QX. cbn [bind].
    eexists _, _, _. split; [reflexivity|]. split; [exact H3|]. split; [exact AB|]. right; left. eauto.
Qed.
Lemma js_results_ok E m w h p imgs a wd : client_ok E w h p -> reaches E m w h p imgs a -> countable imgs ->
  exists r wd' held, js_results E (Some a) wd = Ok (r, wd') /\ holds wd' wd held [] /\
    ((exists lists, r = JsReturn lists /\ held = [] /\ imgs <> [] /\ reported E m w h p imgs (seen_x E w h imgs) w (fst lists) /\ reported E m w h p imgs (seen_y E w h imgs) h (snd lists)) \/
     (imgs = [] /\ held = [] /\ exists x, r = JsThrow x /\ js_reflects RDENOIMG x) \/
     ((exists k, e_alloc E k = false) /\ held = [] /\ exists x, r = JsThrow x /\ js_reflects RDENOMEM x) \/
     ((exists k, e_alloc E k = false) /\ r = JsThrow OutOfMemoryError)).
Proof.
  intros HC R CN. unfold js_results. pose proof (pointers_ok E wd wd [] (holds_refl wd)) as HQ. destruct (js_pointers E wd) as [[ps|] wd1].
  2: { destruct HQ as (AF & more & HQ). eexists _, _, _. split; [reflexivity|]. split; [exact HQ|]. right; right; right. auto. }
  destruct HQ as (a1 & b1 & c1 & d1 & EP & H1). assert (EP' : exists a b c d, ps = [a; b; c; d]) by eauto 6. clear a1 b1 c1 d1 EP.
  apply (proj1 (countable_zlen _)) in CN. destruct (history_results E m w h p imgs a everything no_outs wd1 HC R CN) as (e & o & wd2 & EQ & CS).
  change all_wanted with everything. change null_outs with no_outs. rewrite EQ. cbn [bind].
  destruct CS as [(_ & BW & _)|[(-> & _ & -> & _ & ->)|[(-> & _ & NE & _ & O & AF)|(-> & _ & NE & bl & F & O)]]].
  - discriminate BW.
  - destruct (js_collect_fail RDENOIMG o ps wd1 wd []) as (x & wd3 & Q3 & RF & H3); [apply known_in_list; cbn; auto 8|discriminate|exact EP'|exact H1|].
    eexists _, _, []. split; [exact Q3|]. split; [exact H3|]. right; left. eauto.
  - pose proof (holds_owns _ _ _ _ _ _ O H1) as H2.
    destruct (js_collect_fail RDENOMEM o ps wd2 wd []) as (x & wd3 & Q3 & RF & H3); [apply known_in_list; cbn; auto 8|discriminate|exact EP'|exact H2|].
    eexists _, _, []. split; [exact Q3|]. split; [exact H3|]. right; right; left. eauto.
  - pose proof (holds_owns _ _ _ _ _ _ O H1) as H2. destruct F as (bx & by_ & A1 & A2 & A3 & A4 & A5). cbn [everything want_rw want_rh want_cw want_ch] in A1, A2, A3, A4, A5.
    subst bl. destruct (js_collect_ok o ps _ _ _ _ wd2 wd [] A1 A3 A2 A4 EP') as (wd3 & Q3 & H3); [exact H2|].
    eexists _, _, []. split; [exact Q3|]. split; [exact H3|]. left. eexists. split; [reflexivity|]. split; [reflexivity|]. split; [exact NE|]. cbn [fst snd].
    split; [econstructor; [exact R| |exact EQ|exact A1]; reflexivity|eapply reported_height; [exact R| |exact EQ|exact A3]; reflexivity].
Qed.
