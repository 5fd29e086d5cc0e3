(** Lemmas about Util.v: methods, parameters, messages. *)
From Coq Require Import Reals Lra.
From Flocq Require Import Core IEEE754.BinarySingleNaN IEEE754.Binary IEEE754.Bits.
From Verif Require Import Base Flt Util Methods Analysis Spec SpecAnalysis History SpecUtil
  BaseProofs FltProofs MethodsProofs WorldProofs AnalysisProofs.
Open Scope string_scope.
Open Scope list_scope.
Open Scope Z_scope.

Lemma get_method_ok name m :
  resdet_get_method (Some name) = Some m <-> method_name m = name.
Proof.
  unfold resdet_get_method, resdet_methods. cbn [find].
  split.
  - repeat (match goal with |- context [String.eqb ?a name] => destruct (String.eqb_spec a name) end;
      [intros H; inversion H; subst m; assumption|]). discriminate.
  - intros <-. destruct m; reflexivity.
Qed.

Lemma get_method_null : resdet_get_method None = Some Msign /\ nth_error resdet_methods 0 = Some Msign.
Proof. split; reflexivity. Qed.

Lemma get_method_other name :
  (forall m, In m resdet_methods -> method_name m <> name) -> resdet_get_method (Some name) = None.
Proof.
  intros H. destruct (resdet_get_method (Some name)) as [m|] eqn:E; [|reflexivity].
  apply get_method_ok in E. exfalso. apply (H m); [|exact E]. destruct m; simpl; auto.
Qed.

Lemma threshold_rejects t :
  fisnan t || flt t (f32_of_Z 0) || fgt t (f32_of_Z 1) = false <-> unit_number t.
Proof.
  unfold unit_number. fold (ffinite t).
  destruct (f32_of_Z_exact 0 ltac:(lia)) as (F0 & _ & V0). destruct (f32_of_Z_exact 1 ltac:(lia)) as (F1 & _ & V1).
  destruct (ffinite t) eqn:F.
  - assert (N : fisnan t = false) by (destruct t; try reflexivity; discriminate).
    rewrite N, fgt_flt. cbn [orb]. rewrite orb_false_iff.
    split.
    + intros (A & B). split; [reflexivity|].
      assert (~ (rf t < 0)%R). { intros C. rewrite <- V0 in C. apply flt_spec in C; [congruence|assumption..]. }
      assert (~ (1 < rf t)%R). { intros C. rewrite <- V1 in C. apply flt_spec in C; [congruence|assumption..]. }
      lra.
    + intros (_ & A & B). split.
      * destruct (flt t (f32_of_Z 0)) eqn:C; [|reflexivity]. apply flt_spec in C; [|assumption..]. rewrite V0 in C. lra.
      * destruct (flt (f32_of_Z 1) t) eqn:C; [|reflexivity]. apply flt_spec in C; [|assumption..]. rewrite V1 in C. lra.
  - split; [|intros (A & _); discriminate]. destruct t as [s|s|s pl H|s mm e H]; try discriminate.
    destruct s; vm_compute; discriminate.
Qed.

Lemma set_param_ok p s : typed s -> 
  (documented s ->
     set_param (Some p) s = (RDEOK, Some (match s with
       | Range v => mkParams v (p_threshold p) (p_filter p)
       | Threshold t => mkParams (p_range p) t (p_filter p)
       | Filter v => mkParams (p_range p) (p_threshold p) v end))) /\
  (~ documented s -> set_param (Some p) s = (RDEPARAM, Some p)).
Proof.
  destruct s as [v|t|v]; cbn [set_param documented typed]; intros HT.
  - unfold resdet_parameters_set_range. destruct (Z.eqb_spec v 0); split; intros; try reflexivity; lia.
  - unfold resdet_parameters_set_threshold. pose proof (threshold_rejects t) as R.
    destruct (fisnan t || flt t (f32_of_Z 0) || fgt t (f32_of_Z 1)); split; intros H; try reflexivity.
    + exfalso. apply R in H. discriminate.
    + exfalso. apply H, R. reflexivity.
  - unfold resdet_parameters_set_compression_filter. rewrite Z.gtb_ltb.
    destruct (Z.ltb_spec (4 * 8 - 1) v); split; intros; try reflexivity; lia.
Qed.

Lemma set_null s : set_param None s = (RDEPARAM, None).
Proof. destruct s; reflexivity. Qed.

Lemma documented_dec s : documented s \/ ~ documented s.
Proof.
  destruct s as [v|t|v]; cbn [documented]; try lia.
  pose proof (threshold_rejects t) as R.
  destruct (fisnan t || flt t (f32_of_Z 0) || fgt t (f32_of_Z 1)); [right|left; tauto].
  intros H. apply R in H. discriminate.
Qed.

Lemma set_all_app p l1 l2 :
  set_all p (l1 ++ l2) = let '(e1, p1) := set_all p l1 in let '(e2, p2) := set_all p1 l2 in (e1 ++ e2, p2).
Proof.
  revert p; induction l1 as [|s l1 IH]; intros p; cbn [set_all app].
  - destruct (set_all p l2). reflexivity.
  - destruct (set_param p s) as [e p1]. rewrite IH. destruct (set_all p1 l1) as [e1 p2].
    destruct (set_all p2 l2). reflexivity.
Qed.

Lemma set_history_ok p0 l : Forall typed l ->
  exists es p, set_all (Some p0) l = (es, Some p) /\
    Forall2 (fun s e => (documented s /\ e = RDEOK) \/ (~ documented s /\ e = RDEPARAM)) l es /\
    last_value range_of (p_range p0) l (p_range p) /\
    last_value threshold_of (p_threshold p0) l (p_threshold p) /\
    last_value filter_of (p_filter p0) l (p_filter p).
Proof.
  induction l as [|s l IH] using rev_ind; intros HT.
  - exists [], p0. cbn. repeat split; constructor.
  - apply Forall_app in HT. destruct HT as (HT & Hs). inversion Hs; subst.
    destruct (IH HT) as (es & p & E & F & L1 & L2 & L3).
    rewrite set_all_app, E. cbn [set_all].
    destruct (set_param_ok p s) as (A & B); [assumption|].
    destruct (documented_dec s) as [D|D].
    + rewrite (A D). do 2 eexists. split; [reflexivity|]. split.
      { apply Forall2_app; [exact F|]. constructor; [left; auto|constructor]. }
      destruct s; cbn [p_range p_threshold p_filter]; repeat split;
        first [apply last_this; [reflexivity|exact D] | apply last_skip; [left; reflexivity|assumption]].
    + rewrite (B D). do 2 eexists. split; [reflexivity|]. split.
      { apply Forall2_app; [exact F|]. constructor; [right; auto|constructor]. }
      repeat split; (apply last_skip; [right; exact D|assumption]).
Qed.

(** parameters a client can obtain *)
Lemma set_params_ok c l es p : config_ok c = true -> Forall typed l ->
  set_all (Some (default_params c)) l = (es, Some p) -> params_ok p.
Proof.
  intros HC. revert es p. induction l as [|s l IH] using rev_ind; intros es p HT H.
  - cbn in H. inversion H. apply default_params_ok. exact HC.
  - apply Forall_app in HT. destruct HT as (HT & Hs). inversion Hs; subst.
    rewrite set_all_app in H. destruct (set_all (Some (default_params c)) l) as [e1 [p1|]] eqn:E.
    2:{ destruct (set_history_ok (default_params c) l HT) as (? & ? & E' & _). congruence. }
    specialize (IH _ _ HT eq_refl). cbn [set_all] in H.
    destruct (set_param_ok p1 s) as (A & B); [assumption|].
    destruct (documented_dec s) as [D|D].
    + rewrite (A D) in H. inversion H; subst. destruct IH as [R F T].
      destruct s as [v|t|v]; cbn in *; constructor; cbn; auto; unfold SIZE_MAX; try lia.
      split; [apply D|left; apply D].
    + rewrite (B D) in H. inversion H; subst. exact IH.
Qed.

Lemma error_str_ok e : - 2^31 < e < 2^31 ->
  exists msg, resdet_error_str e = Ok msg /\
  match msg with
  | SysMsg n => e < 0 /\ n = - e
  | Msg s => 0 <= e <= resdet_get_max_error /\ nth_error RDErrStr (Z.to_nat e) = Some s
  | NoMsg => e > resdet_get_max_error
  end.
Proof.
  intros H. unfold resdet_error_str. destruct (Z.ltb_spec e 0).
  - replace (e =? - 2^31) with false by lia. eexists. split; [reflexivity|]. simpl. lia.
  - rewrite Z.gtb_ltb. destruct (Z.ltb_spec resdet_get_max_error e).
    + eexists. split; [reflexivity|]. simpl. lia.
    + unfold get, in_range. assert (e < zlen RDErrStr) by (unfold resdet_get_max_error in *; lia).
      replace ((0 <=? e) && (e <? zlen RDErrStr)) with true by lia.
      destruct (nth_error RDErrStr (Z.to_nat e)) eqn:N.
      * eexists. split; [reflexivity|]. split; [lia|reflexivity].
      * apply nth_error_None in N. unfold zlen in *. lia.
Qed.

Lemma dims_limit_ok c width height n t :
  0 <= width -> 0 <= height -> 0 <= n -> 0 < t -> 0 <= c_pixel_max c ->
  exists b, dims_exceed_limit c width height n t = Ok b /\
  (b = false <-> 1 <= width /\ 1 <= height /\ 1 <= n /\
     width * height * n <= c_pixel_max c /\ width * height * n * t <= SIZE_MAX).
Proof.
  intros. rewrite dims_ok by assumption. eexists. split; [reflexivity|].
  rewrite negb_false_iff, !andb_true_iff. lia.
Qed.
