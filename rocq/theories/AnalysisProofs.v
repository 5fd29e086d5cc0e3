(** The analysis functions of Analysis.v against SpecAnalysis.v. *)
From Coq Require Import Reals Lra Permutation Sorted.
From Flocq Require Import Core IEEE754.BinarySingleNaN IEEE754.Binary IEEE754.Bits.
From Verif Require Import Base Flt Util Methods Analysis Resdetect Spec SpecAnalysis History SpecUtil SpecReport
  BaseProofs FltProofs MethodsProofs WorldProofs.
Open Scope list_scope.
Open Scope Z_scope.

(** ** Size limits *)
Lemma div_nonzero a b : 0 <= a -> 0 < b -> (a / b =? 0) = (a <? b).
Proof.
  intros Ha Hb. destruct (Z.ltb_spec a b) as [L|L].
  - rewrite Z.div_small by lia. reflexivity.
  - apply Z.eqb_neq. assert (1 <= a / b); [|lia]. apply Z.div_le_lower_bound; lia.
Qed.

Lemma dims_ok c width height n t :
  0 <= width -> 0 <= height -> 0 <= n -> 0 < t -> 0 <= c_pixel_max c ->
  dims_exceed_limit c width height n t =
  Ok (negb ((1 <=? width) && (1 <=? height) && (1 <=? n) &&
            (width * height * n <=? c_pixel_max c) && (width * height * n * t <=? SIZE_MAX))).
Proof.
  intros Hw Hh Hn Ht Hp. unfold dims_exceed_limit.
  destruct (Z.eqb_spec width 0) as [->|W]; [reflexivity|].
  destruct (Z.eqb_spec height 0) as [->|H].
  { cbn [negb andb]. rewrite !andb_false_r. reflexivity. }
  destruct (Z.eqb_spec n 0) as [->|N].
  { cbn [negb andb]. replace (1 <=? 0) with false by lia. rewrite !andb_false_r. reflexivity. }
  cbn [negb andb]. unfold udiv.
  replace (width =? 0) with false by lia. replace (height =? 0) with false by lia.
  replace (n =? 0) with false by lia. replace (t =? 0) with false by lia. cbn [bind].
  replace (1 <=? width) with true by lia. replace (1 <=? height) with true by lia.
  replace (1 <=? n) with true by lia. cbn [andb].
  rewrite !Z.div_div by nia. rewrite !div_nonzero by (try (unfold SIZE_MAX; lia); nia).
  destruct (Z.ltb_spec (c_pixel_max c) (width * (height * n))) as [L|L]; cbn [negb].
  - replace (width * height * n <=? c_pixel_max c) with false by nia. reflexivity.
  - replace (width * height * n <=? c_pixel_max c) with true by nia. cbn [andb].
    replace (width * (height * n * t)) with (width * height * n * t) by ring.
    f_equal. destruct (Z.leb_spec (width * height * n * t) SIZE_MAX); destruct (Z.ltb_spec SIZE_MAX (width * (height * n) * t)); simpl; nia.
Qed.

(** ** Totals over frames *)
Definition dims_fit (n range : Z) : Prop := 0 < n <= 2^31 /\ 0 < range <= 2^31.

Lemma total_val c Ds range x :
  (forall D, In D Ds -> 0 < d_lines D <= 2^31) -> 0 < range <= 2^31 ->
  exists r, dval (total c Ds range x) r /\ (0 <= r <= IZR (Z.min (zlen Ds) (2^53)))%R.
Proof.
  intros HD Hr. unfold total.
  assert (G : forall Ds s k r, (forall D, In D Ds -> 0 < d_lines D <= 2^31) -> 0 <= k ->
     dval s r -> (0 <= r <= IZR (Z.min k (2^53)))%R ->
     exists r', dval (fold_left (fun s D => dadd s (ratio c D range x)) Ds s) r' /\
       (0 <= r' <= IZR (Z.min (k + zlen Ds) (2^53)))%R).
  { clear Ds HD. induction Ds as [|D Ds IH]; intros s k r HD Hk Hs Hb.
    - exists r. replace (k + zlen (@nil dim)) with k by (unfold zlen; simpl; lia). auto.
    - cbn [fold_left]. destruct (ratio_val c D range x) as (q & Hq & Hq').
      + specialize (HD D (or_introl eq_refl)). lia.
      + lia.
      + specialize (HD D (or_introl eq_refl)). nia.
      + assert (B53 : (IZR (Z.min k (2^53)) <= IZR (2^53))%R) by (apply IZR_le; lia).
        assert (V : dval (dadd s (ratio c D range x)) (rnd64 (r + q))).
        { apply dadd_val; try assumption. apply (bpow_big _ _ 54); [|lia].
          change (2^54) with (2^53 + 2^53). rewrite plus_IZR.
          assert (1 <= IZR (2^53))%R by (apply (IZR_le 1); lia). lra. }
        destruct (IH _ (k + 1) _ (fun D' H' => HD D' (or_intror H')) ltac:(lia) V) as (r' & V' & B').
        * split; [eapply dval_nonneg; exact V|].
          destruct (Z.ltb_spec k (2^53)) as [L|L].
          -- rewrite <- (rnd64_Z (Z.min (k + 1) (2^53))) by lia. apply rnd64_le.
             replace (Z.min (k + 1) (2^53)) with (k + 1) by lia. rewrite Z.min_l in Hb by lia.
             rewrite plus_IZR. lra.
          -- replace (Z.min (k + 1) (2^53)) with (2^53) by lia.
             replace (Z.min k (2^53)) with (2^53) in * by lia.
             apply Rle_trans with (rnd64 (IZR (2^53 + 1))).
             ++ apply rnd64_le. rewrite plus_IZR. lra.
             ++ destruct (f64_of_Z_val (2^53 + 1) ltac:(lia)) as (_ & _ & E1).
                rewrite <- E1. rewrite <- FF2R_B2FF.
                replace (B2FF 53 1024 (f64_of_Z (2^53 + 1))) with (B2FF 53 1024 (f64_of_Z (2^53)))
                  by (vm_compute; reflexivity).
                rewrite FF2R_B2FF.
                destruct (f64_of_Z_exact (2^53) ltac:(lia)) as (_ & _ & E2). rewrite E2. lra.
        * exists r'. split; [exact V'|]. rewrite zlen_cons.
          replace (k + (zlen Ds + 1)) with (k + 1 + zlen Ds) by lia. exact B'. }
  destruct (G Ds d0 0 0%R HD ltac:(lia) d0_val) as (r & V & B).
  - rewrite Z.min_l by lia. lra.
  - exists r. rewrite Z.add_0_l in B. auto.
Qed.

(** ** Analysis states *)

(** accumulated results of one dimension, [Ds] being the analysed planes seen
    along that dimension *)
Definition dim_state (c : config) (m : method) (len range : Z) (Ds : list dim)
    (result : option (nat * list f64)) (bound : option (Z * Z)) : Prop :=
  if 2 * range <? len then
    exists b r, result = Some (b, r) /\ bound = Some (range, len - range) /\
      zlen r = len - 2 * range /\
      forall i, 0 <= i < zlen r -> at_ d0 r i = total (criterion_of c m) Ds range (range + i)
  else result = None.

Record params_ok (p : params) : Prop := {
  po_range : 1 <= p_range p <= SIZE_MAX;
  po_filter : 0 <= p_filter p <= 31;
  po_threshold : ffinite (p_threshold p) = true /\
     ((0 <= rf (p_threshold p) <= 1)%R \/ p_threshold p = f32_of_Z (-1))
}.

(** [a] is an analysis of w x h images with method m and parameters p, whose width
    results come from the planes [xs], height results from [ys], divided by [n] *)
Record an_state (E : env) (a : analysis) (m : method) (w h : Z) (p : params)
    (xs ys : list (list f32)) (n : Z) : Prop := {
  as_w : 1 <= w <= INT_MAX;
  as_h : 1 <= h <= INT_MAX;
  as_area : w * h <= c_pixel_max (e_cfg E);
  as_bytes : w * h * 4 <= SIZE_MAX;
  as_method : an_method a = m;
  as_width : an_width a = w;
  as_height : an_height a = h;
  as_params : an_params a = p;
  as_range : 1 <= p_range p <= SIZE_MAX;
  as_zerox : m = Mzerox -> p_range p = 1;
  as_f : exists fb f, an_f a = Some (fb, f) /\ zlen f = w * h;
  as_x : dim_state (e_cfg E) m w (p_range p) (map (dim_x w h) xs) (an_xresult a) (an_xbound a);
  as_y : dim_state (e_cfg E) m h (p_range p) (map (dim_y w h) ys) (an_yresult a) (an_ybound a);
  as_n : an_nimages a = n
}.

Lemma method_name_zerox m : String.eqb (method_name m) "zerox" = true <-> m = Mzerox.
Proof. destruct m; simpl; split; intros; try reflexivity; discriminate. Qed.

Lemma effective_range c m p : m = Mzerox -> p_range (effective_params c m p) = 1.
Proof.
  intros ->. unfold effective_params. reflexivity.
Qed.

Lemma default_params_ok c : config_ok c = true -> params_ok (default_params c).
Proof.
  intros H. unfold config_ok in H. constructor; simpl.
  - lia.
  - lia.
  - split; [reflexivity|right; reflexivity].
Qed.

Lemma method_threshold_ok m : ffinite (method_threshold m) = true /\ (0 <= rf (method_threshold m) <= 1)%R.
Proof.
  assert (G : forall a b, 0 <= a <= b -> 1 <= b <= 2^53 ->
     ffinite (f32_of_f64 (dlit a b)) = true /\ (0 <= rf (f32_of_f64 (dlit a b)) <= 1)%R).
  { intros a b Ha Hb. unfold dlit.
    destruct (quotient_val a b Ha ltac:(lia) (f64_of_Z b)) as (V & U).
    - apply f64_of_Z_val. lia.
    - apply Z.le_trans with (2^53); [lia|]. apply Z.pow_le_mono_r; lia.
    - lia.
    - destruct (f32_of_f64_val _ _ V) as (F & S & E).
      + apply (bpow_big _ _ 0); [exact U|lia].
      + split; [exact F|]. rewrite E. split.
        * apply rnd32_nonneg. eapply dval_nonneg. exact V.
        * rewrite <- rnd32_1. apply rnd32_le. exact U. }
  destruct m; apply G; lia.
Qed.

(** after creation the threshold is a number in [0,1] *)
Lemma effective_ok c m p : config_ok c = true ->
  (match p with Some p => params_ok p | None => True end) ->
  params_ok (effective_params c m p) /\
  (0 <= rf (p_threshold (effective_params c m p)) <= 1)%R.
Proof.
  intros Hc Hp.
  assert (P : params_ok (match p with Some p => p | None => default_params c end)).
  { destruct p; [exact Hp|apply default_params_ok; exact Hc]. }
  unfold effective_params.
  set (q := match p with Some p => p | None => default_params c end) in *.
  set (q1 := if flt (p_threshold q) (f32_of_Z 0) then mkParams (p_range q) (method_threshold m) (p_filter q) else q).
  assert (P1 : params_ok q1 /\ (0 <= rf (p_threshold q1) <= 1)%R).
  { unfold q1. destruct (method_threshold_ok m) as (MF & MB). destruct P as [PR PF (PT1 & PT2)].
    destruct (flt (p_threshold q) (f32_of_Z 0)) eqn:L.
    - split; [|exact MB]. constructor; simpl; try assumption. split; [exact MF|left; exact MB].
    - destruct PT2 as [PT2|PT2].
      + split; [|exact PT2]. constructor; try assumption. split; [exact PT1|left; exact PT2].
      + rewrite PT2 in L. vm_compute in L. discriminate. }
  destruct P1 as (P1 & P1').
  destruct (String.eqb (method_name m) "zerox"); [|split; assumption].
  destruct P1 as [PR PF PT]. split; [|exact P1'].
  constructor; simpl; try assumption. unfold SIZE_MAX. lia.
Qed.

Definition the_method (m : option method) : method :=
  match m with Some m => m | None => Msign end.

Lemma setup_ok al len range w w0 bs c m :
  1 <= len <= INT_MAX -> 1 <= range <= SIZE_MAX -> owns w w0 bs ->
  match setup_dimension al len range w with
  | (e, r, b, w') =>
      (e = RDEOK /\ dim_state c m len range [] r b /\ owns w' w0 (opt_list (option_map fst r) ++ bs)) \/
      (e = RDENOMEM /\ r = None /\ owns w' w0 bs /\ al (w_count w) = false)
  end.
Proof.
  intros Hl Hr H. unfold setup_dimension, dim_state, INT_MAX, SIZE_MAX in *.
  rewrite (wrap_small (len + 1)) by lia.
  destruct (Z.ltb_spec range ((len + 1) / 2)) as [L|L].
  - assert (range * 2 < len) by (Z.to_euclidean_division_equations; lia).
    rewrite wrap_small by lia. replace (len - range * 2 =? 0) with false by lia.
    replace (2 * range <? len) with true by lia.
    pose proof (owns_alloc al w w0 bs H) as A. destruct (alloc al w) as [[b|] w'].
    + left. split; [reflexivity|]. split; [|apply A].
      do 2 eexists. split; [reflexivity|]. rewrite wrap_small by lia. split; [reflexivity|].
      rewrite zlen_repeat. split; [lia|]. intros i Hi. rewrite at_repeat. reflexivity.
    + right. split; [reflexivity|]. split; [reflexivity|]. split; apply A.
  - assert (len <= 2 * range) by (Z.to_euclidean_division_equations; lia).
    cbn [Z.eqb]. replace (2 * range <? len) with false by lia. left.
    split; [reflexivity|]. split; [reflexivity|exact H].
Qed.

(** When creation fails without a leak, or with the one KISS leak. *)
Definition create_leaks (E : env) (width height : Z) (w : world) : Prop :=
  plan_leak E width height (mkWorld (S (S (w_count w))) [] 0 []) = true.

Lemma plan_leak_count E a b w w' : w_count w = w_count w' -> plan_leak E a b w = plan_leak E a b w'.
Proof. intros H. unfold plan_leak. rewrite H. reflexivity. Qed.

Definition plan_fits (E : env) (width height : Z) : Prop :=
  1 <= width <= plan_limit (e_cfg E) /\ 1 <= height <= plan_limit (e_cfg E) /\
  width * height <= c_pixel_max (e_cfg E) /\ width * height * 4 <= SIZE_MAX.

Lemma plan_limit_int c : plan_limit c <= INT_MAX.
Proof. unfold plan_limit. destruct (c_backend c); vm_compute; discriminate. Qed.

(** why a creation failed *)
Definition create_error (E : env) (width height e : Z) : Prop :=
  (e = RDENOMEM /\ exists k, e_alloc E k = false) \/
  (e = RDEINTERNAL /\ c_backend (e_cfg E) = FFTW /\ exists k, e_alloc E k = false) \/
  (e = RDEINVAL /\ (width = 0 \/ height = 0)) \/
  (e = RDETOOBIG /\ width <> 0 /\ height <> 0 /\ ~ plan_fits E width height).

Lemma create_ok E m width height p w :
  config_ok (e_cfg E) = true -> is_size width -> is_size height ->
  (match p with Some p => params_ok p | None => True end) ->
  let M := the_method m in
  let P := effective_params (e_cfg E) M p in
  exists ao e w', resdet_create_analysis E m width height p w = Ok (ao, e, w') /\
  match ao with
  | Some a => e = RDEOK /\ plan_fits E width height /\
      an_state E a M width height P [] [] 0 /\ owns w' w (an_blocks a)
  | None => create_error E width height e /\
      (exists leak, owns w' w leak /\ (leak = [] \/ ((exists b, leak = [b]) /\ create_leaks E width height w)))
  end.
Proof.
  intros HC Hw Hh HP M P. unfold resdet_create_analysis.
  pose proof (owns_alloc (e_alloc E) w w [] (owns_refl w)) as A0.
  destruct (alloc (e_alloc E) w) as [[blk|] w1].
  2:{ destruct A0 as (O & C & T). cbn. do 3 eexists. split; [reflexivity|]. split.
      - left. split; [reflexivity|eexists; exact T].
      - exists []. split; [exact O|left; reflexivity]. }
  destruct A0 as (O1 & C1 & T1 & B1).
  replace (match m with Some m0 => Some m0 | None => resdet_get_method None end) with (Some M)
    by (destruct m; reflexivity).
  fold P. cbn [an_params an_f].
  destruct (effective_ok (e_cfg E) M p HC HP) as (HPok & _). fold P in HPok.
  destruct ((width =? 0) || (height =? 0)) eqn:Z0.
  { destruct (destroy_ok (mkAn blk M width height 0 P None None None None None None) w1 w []) as (w2 & E2 & O2 & C2);
      [simpl; exact O1|].
    rewrite E2. cbn [bind]. do 3 eexists. split; [reflexivity|]. split.
    { right; right; left. split; [reflexivity|lia]. }
    exists []. split; [exact O2|left; reflexivity]. }
  rewrite dims_ok by (unfold is_size, config_ok in *; lia). cbn [bind].
  set (fits := (1 <=? width) && (1 <=? height) && (1 <=? 1) &&
      (width * height * 1 <=? c_pixel_max (e_cfg E)) && (width * height * 1 * 4 <=? SIZE_MAX)).
  destruct fits eqn:Fits; cbn [negb].
  2:{ destruct (destroy_ok (mkAn blk M width height 0 P None None None None None None) w1 w []) as (w2 & E2 & O2 & C2);
      [simpl; exact O1|].
    rewrite E2. cbn [bind]. do 3 eexists. split; [reflexivity|]. split.
    - right; right; right. split; [reflexivity|]. unfold plan_fits. unfold fits in Fits. lia.
    - exists []. split; [exact O2|left; reflexivity]. }
  assert (SZ : 1 <= width /\ 1 <= height /\ width * height <= c_pixel_max (e_cfg E) /\ width * height * 4 <= SIZE_MAX)
    by (unfold fits in Fits; lia). clear fits Fits.
  destruct SZ as (SW & SH & SA & SB).
  pose proof (owns_alloc (e_alloc E) w1 w _ O1) as A2.
  destruct (alloc (e_alloc E) w1) as [[fb|] w2].
  2:{ destruct A2 as (O2 & C2 & T2).
    destruct (destroy_ok (mkAn blk M width height 0 P None None None None None None) w2 w []) as (w3 & E3 & O3 & C3);
      [simpl; exact O2|].
    rewrite E3. cbn [bind]. do 3 eexists. split; [reflexivity|]. split; [left; split; [reflexivity|eexists; exact T2]|].
    exists []. split; [exact O3|left; reflexivity]. }
  destruct A2 as (O2 & C2 & T2 & B2).
  set (f := repeat (@None f32) (Z.to_nat (wrap (4 * width * height) / 4))).
  assert (Lf : zlen f = width * height).
  { unfold f. rewrite zlen_repeat, wrap_small by (unfold SIZE_MAX in SB; lia).
    replace (4 * width * height) with (width * height * 4) by ring. rewrite Z.div_mul by lia. nia. }
  destruct (create_plan_ok E width height w2 w _ O2) as (pl & e & w3 & EP & CP). rewrite EP. cbn [bind].
  destruct CP as [(-> & Hpl & O3 & WI & HI)|[(-> & -> & O3 & Hbig)|(He & -> & (k & Tk) & leak & O3 & Hleak)]].
  2:{ destruct (destroy_ok (mkAn blk M width height 0 P (Some (fb, f)) None None None None None) w3 w []) as (w4 & E4 & O4 & C4);
      [simpl; exact O3|].
    cbn [Z.eqb negb RDETOOBIG]. unfold RDETOOBIG. cbn [Z.eqb negb]. rewrite E4. cbn [bind]. do 3 eexists. split; [reflexivity|]. split.
    - right; right; right. split; [reflexivity|]. unfold plan_fits. lia.
    - exists []. split; [exact O4|left; reflexivity]. }
  2:{ destruct (destroy_ok (mkAn blk M width height 0 P (Some (fb, f)) None None None None None) w3 w leak) as (w4 & E4 & O4 & C4).
      { eapply owns_perm; [exact O3|]. simpl. apply Permutation_sym.
        change (fb :: blk :: leak) with ([fb; blk] ++ leak)%list. apply Permutation_app_comm. }
    assert (NE : negb (e =? 0) = true) by (destruct He as [->|(-> & _)]; reflexivity).
    rewrite NE, E4. cbn [bind]. do 3 eexists. split; [reflexivity|]. split.
    - destruct He as [->|(-> & He)]; [left|right; left]; eauto.
    - exists leak. split; [exact O4|].
      assert (PL : plan_leak E width height w2 = plan_leak E width height (mkWorld (S (S (w_count w))) [] 0 [])).
      { apply plan_leak_count. simpl. congruence. }
      unfold create_leaks. rewrite <- PL. destruct (plan_leak E width height w2); [right; split; [exact Hleak|reflexivity]|left; exact Hleak]. }
  cbn [negb Z.eqb]. unfold RDEOK at 1. cbn [negb Z.eqb].
  destruct HPok as [HPr HPf HPt]. pose proof (plan_limit_int (e_cfg E)) as PL.
  pose proof (setup_ok (e_alloc E) width (p_range P) w3 w _ (e_cfg E) M ltac:(lia) HPr O3) as SX.
  destruct (setup_dimension (e_alloc E) width (p_range P) w3) as [[[e1 xr] xb] w4].
  destruct SX as [(-> & SX & O4)|(-> & -> & O4 & TA)].
  2:{ destruct (destroy_ok (mkAn blk M width height 0 P (Some (fb, f)) pl None None xb None) w4 w []) as (w5 & E5 & O5 & C5).
      { unfold an_blocks. cbn [an_xresult an_yresult an_p an_f an_blk option_map opt_list fst app]. rewrite app_nil_r. exact O4. }
    unfold RDENOMEM. cbn [negb Z.eqb]. rewrite E5. cbn [bind]. do 3 eexists. split; [reflexivity|].
    split; [left; split; [reflexivity|eexists; exact TA]|].
    exists []. split; [exact O5|left; reflexivity]. }
  unfold RDEOK at 1. cbn [negb Z.eqb].
  pose proof (setup_ok (e_alloc E) height (p_range P) w4 w _ (e_cfg E) M ltac:(lia) HPr O4) as SY.
  destruct (setup_dimension (e_alloc E) height (p_range P) w4) as [[[e2 yr] yb] w5].
  destruct SY as [(-> & SY & O5)|(-> & -> & O5 & TA)].
  2:{ destruct (destroy_ok (mkAn blk M width height 0 P (Some (fb, f)) pl xr None xb yb) w5 w []) as (w6 & E6 & O6 & C6).
      { unfold an_blocks. cbn [an_xresult an_yresult an_p an_f an_blk option_map opt_list fst app]. rewrite app_nil_r. exact O5. }
    unfold RDENOMEM. cbn [negb Z.eqb]. rewrite E6. cbn [bind]. do 3 eexists. split; [reflexivity|].
    split; [left; split; [reflexivity|eexists; exact TA]|].
    exists []. split; [exact O6|left; reflexivity]. }
  unfold RDEOK. cbn [negb Z.eqb]. do 3 eexists. split; [reflexivity|]. split; [reflexivity|].
  split; [unfold plan_fits; lia|]. split.
  - constructor; simpl; try assumption; try reflexivity; try lia.
    + intros HM. unfold P. apply effective_range. exact HM.
    + exists fb, f. split; [reflexivity|exact Lf].
  - unfold an_blocks. cbn [an_xresult an_yresult an_p an_f an_blk option_map opt_list fst].
    eapply owns_perm; [exact O5|]. cbn [app].
    rewrite !app_assoc. do 2 apply Permutation_app_tail. apply Permutation_app_comm.
Qed.

(** ** Analysing one image *)

Lemma all_init_some {A} (l : list A) : all_init (map Some l) = Ok l.
Proof. induction l as [|a l IH]; [reflexivity|]. cbn. rewrite IH. reflexivity. Qed.

Lemma skipn_cons {A} (d : A) (l : list A) : forall k, (k < List.length l)%nat ->
  exists v rest, skipn k l = v :: rest /\ rest = skipn (S k) l /\ nth k l d = v.
Proof.
  induction l as [|v l IH]; intros k Hk; cbn [List.length] in Hk; [lia|].
  destruct k as [|k]; [exists v, l; auto|]. destruct (IH k ltac:(lia)) as (v' & r & E1 & E2 & E3).
  exists v', r. cbn. auto.
Qed.

Lemma copy_samples_gen : forall n i image pre f,
  zlen pre = i -> i + Z.of_nat n <= zlen image -> zlen f = Z.of_nat n ->
  let s := firstn n (skipn (Z.to_nat i) image) in
  if forallb ffinite s
  then copy_samples n i image (map Some pre ++ f) = Ok (true, map Some (pre ++ s))
  else exists f', copy_samples n i image (map Some pre ++ f) = Ok (false, f') /\ zlen f' = i + Z.of_nat n.
Proof.
  induction n as [|n IH]; intros i image pre f Hp Hi Hf s.
  - simpl. destruct f; [|unfold zlen in Hf; simpl in Hf; lia]. rewrite !app_nil_r. reflexivity.
  - pose proof (zlen_nonneg pre).
    assert (C : exists v rest, skipn (Z.to_nat i) image = v :: rest /\ rest = skipn (Z.to_nat (i + 1)) image /\ at_ f0 image i = v).
    { replace (Z.to_nat (i + 1)) with (S (Z.to_nat i)) by lia. unfold at_.
      apply skipn_cons. unfold zlen in *; lia. }
    destruct C as (v & rest & C1 & C2 & C3).
    cbn [copy_samples]. rewrite (get_at f0) by lia. rewrite C3. cbn [bind].
    unfold s. rewrite C1. cbn [firstn forallb]. destruct (ffinite v) eqn:F; cbn [negb andb].
    + destruct f as [|x f]; [unfold zlen in Hf; simpl in Hf; lia|].
      rewrite set_upd by (rewrite zlen_app, zlen_map, zlen_cons; pose proof (zlen_nonneg f); lia). cbn [bind].
      replace (upd (map Some pre ++ x :: f) (Z.to_nat i) (Some v)) with (map Some (pre ++ [v]) ++ f).
      2:{ rewrite map_app, <- app_assoc. cbn [map app]. rewrite <- Hp. unfold zlen. rewrite Nat2Z.id.
          clear. induction pre as [|p pre IH]; [reflexivity|]. cbn. f_equal. exact IH. }
      specialize (IH (i + 1) image (pre ++ [v]) f).
      rewrite zlen_app, zlen_cons in IH. replace (zlen (@nil f32)) with 0 in IH by reflexivity.
      rewrite zlen_cons in Hf. specialize (IH ltac:(lia) ltac:(lia) ltac:(lia)). cbn zeta in IH.
      rewrite <- C2 in IH. destruct (forallb ffinite (firstn n rest)).
      * rewrite IH. rewrite <- app_assoc. reflexivity.
      * destruct IH as (f' & E1 & E2). exists f'. split; [exact E1|lia].
    + exists (map Some pre ++ f). split; [reflexivity|]. rewrite zlen_app, zlen_map. lia.
Qed.

Lemma copy_samples_ok image f N : zlen f = N -> N <= zlen image ->
  if forallb ffinite (firstn (Z.to_nat N) image)
  then copy_samples (Z.to_nat N) 0 image f = Ok (true, map Some (firstn (Z.to_nat N) image))
  else exists f', copy_samples (Z.to_nat N) 0 image f = Ok (false, f') /\ zlen f' = N.
Proof.
  intros Hf Hi. pose proof (zlen_nonneg f).
  pose proof (copy_samples_gen (Z.to_nat N) 0 image [] f) as G. cbn zeta in G.
  cbn [Z.to_nat skipn map app] in G. rewrite Z2Nat.id in G by lia.
  specialize (G eq_refl ltac:(lia) Hf).
  destruct (forallb ffinite (firstn (Z.to_nat N) image)); [exact G|].
  destruct G as (f' & E1 & E2). exists f'. split; [exact E1|lia].
Qed.

Lemma geom_x cf w h : 1 <= w -> 1 <= h -> zlen cf = w * h -> w * h < 2^64 ->
  geometry cf h w 1 (dim_x w h cf).
Proof.
  intros Hw Hh L B. constructor; fold (zlen cf); simpl; try lia.
  - intros y x Hy Hx. rewrite L. nia.
  - intros y x Hy Hx. f_equal. lia.
Qed.

Lemma geom_y cf w h : 1 <= w -> 1 <= h -> zlen cf = w * h -> w * h < 2^64 ->
  geometry cf w 1 w (dim_y w h cf).
Proof.
  intros Hw Hh L B. constructor; fold (zlen cf); simpl; try lia.
  - intros x y Hx Hy. rewrite L. nia.
  - intros x y Hx Hy. f_equal. lia.
Qed.

Lemma total_snoc c Ds D range x : total c (Ds ++ [D]) range x = dadd (total c Ds range x) (ratio c D range x).
Proof. unfold total. rewrite fold_left_app. reflexivity. Qed.

Lemma analyze_dimension_ok E a cf len n stride dist D Ds result bound w m :
  config_ok (e_cfg E) = true ->
  geometry cf n stride dist D -> d_len D = len -> d_lines D = n ->
  1 <= len <= INT_MAX -> 1 <= n <= INT_MAX -> n * len <= c_pixel_max (e_cfg E) ->
  (forall D', In D' Ds -> d_lines D' = n) ->
  an_method a = m -> 1 <= p_range (an_params a) <= SIZE_MAX ->
  (m = Mzerox -> p_range (an_params a) = 1) ->
  dim_state (e_cfg E) m len (p_range (an_params a)) Ds result bound ->
  exists e result' bound' w',
    analyze_dimension E a cf len n stride dist result bound w = Ok (e, result', bound', w') /\
    option_map fst result' = option_map fst result /\
    w_live w' = w_live w /\ w_nfile w' = w_nfile w /\ w_files w' = w_files w /\
    ((e = RDEOK /\ dim_state (e_cfg E) m len (p_range (an_params a)) (Ds ++ [D]) result' bound') \/
     (e = RDENOMEM /\ m = Morig /\ (exists k, e_alloc E k = false) /\
      dim_state (e_cfg E) m len (p_range (an_params a)) Ds result' bound')).
Proof.
  intros HC G EL EN HL HN HA HD EM HR HZ HS. unfold analyze_dimension, dim_state in *.
  set (R := p_range (an_params a)) in *.
  destruct (Z.ltb_spec (2 * R) len) as [L|L].
  2:{ subst result. do 4 eexists. split; [reflexivity|]. auto 8. }
  destruct HS as (b & r & -> & -> & Lr & HT). unfold INT_MAX in *.
  rewrite EM. rewrite <- EL.
  assert (SM : n * R < storage_mod (e_cfg E)).
  { unfold storage_mod, config_ok, UINT32_MAX, SIZE_MAX in *.
    destruct (Z.leb_spec (c_pixel_max (e_cfg E)) (2^32 - 1)); nia. }
  destruct (run_method_ok (e_cfg E) (e_alloc E) m cf n stride dist R D r G) with (w := w)
    as (e & r' & w' & EQ & EW & CS); try lia.
  - exact HZ.
  - intros Mo i Hi. rewrite HT by exact Hi.
    destruct (total_val (criterion_of (e_cfg E) m) Ds R (R + i)) as (q & V & _).
    + intros D' HD'. rewrite (HD D' HD'). lia.
    + lia.
    + exists q. exact V.
  - rewrite EQ. cbn [bind]. do 4 eexists. split; [reflexivity|]. split; [reflexivity|].
    assert (W : w_live w' = w_live w /\ w_nfile w' = w_nfile w /\ w_files w' = w_files w).
    { subst w'. destruct m; simpl; auto. }
    destruct W as (W1 & W2 & W3). repeat (split; [assumption|]).
    destruct CS as [(-> & A1 & A2)|(-> & -> & Mo & T)].
    + left. split; [reflexivity|]. exists b, r'. rewrite EL. split; [reflexivity|]. split; [reflexivity|].
      split; [lia|]. intros i Hi. rewrite A2 by lia. rewrite total_snoc, HT by lia. reflexivity.
    + right. split; [reflexivity|]. split; [exact Mo|]. split; [eexists; exact T|].
      exists b, r. rewrite EL. auto.
Qed.

Lemma analyze_ok E a m w h p xs ys n image wd :
  env_ok E -> an_state E a m w h p xs ys n -> w * h <= zlen image -> 0 <= n < SIZE_MAX ->
  exists e a' wd', resdet_analyze_image E (Some a) (Some image) wd = Ok (e, Some a', wd') /\
    an_blocks a' = an_blocks a /\ w_live wd' = w_live wd /\ w_nfile wd' = w_nfile wd /\ w_files wd' = w_files wd /\
    if forallb ffinite (firstn (Z.to_nat (w * h)) image) then
      (e = RDEOK /\ an_state E a' m w h p (xs ++ [plane E w h image]) (ys ++ [plane E w h image]) (n + 1)) \/
      (e = RDENOMEM /\ m = Morig /\ (exists k, e_alloc E k = false) /\
        (an_state E a' m w h p xs ys n \/ an_state E a' m w h p (xs ++ [plane E w h image]) ys n))
    else e = RDEINVAL /\ an_state E a' m w h p xs ys n.
Proof.
  intros HE HS HI Hn. destruct HE as [HC HT _].
  destruct HS as [Sw Sh Sa Sb Sm Swd Shd Sp Sr Sz (fb & f & Sf & Lf) Sx Sy Sn].
  unfold resdet_analyze_image. rewrite Sf, Swd, Shd. unfold SIZE_MAX in *.
  rewrite wrap_small by nia.
  pose proof (copy_samples_ok image f (w * h) Lf HI) as CP.
  destruct (forallb ffinite (firstn (Z.to_nat (w * h)) image)) eqn:FF.
  2:{ destruct CP as (f' & EC & Lf'). rewrite EC. cbn [bind negb].
      do 3 eexists. split; [reflexivity|]. split.
      { unfold an_blocks. simpl. rewrite Sf. reflexivity. }
      do 3 (split; [reflexivity|]). split; [reflexivity|].
      constructor; simpl; try assumption; try reflexivity. exists fb, f'. auto. }
  rewrite CP. cbn [bind negb]. rewrite all_init_some. cbn [bind].
  set (s := firstn (Z.to_nat (w * h)) image) in *.
  assert (Ls : zlen s = w * h).
  { unfold s, zlen in *. rewrite firstn_length. nia. }
  assert (Lc : zlen (e_transform E w h s) = w * h) by (apply HT; exact Ls).
  change (e_transform E w h s) with (plane E w h image) in *.
  set (cf := plane E w h image) in *. subst p.
  destruct (analyze_dimension_ok E a cf w h w 1 (dim_x w h cf) (map (dim_x w h) xs) (an_xresult a) (an_xbound a) wd m)
    as (e & xr & xb & wd1 & EX & BX & W1 & W2 & W3 & CX); auto; try lia.
  { apply geom_x; lia. }
  { intros D' HD'. apply in_map_iff in HD'. destruct HD' as (q & <- & _). reflexivity. }
  rewrite EX. cbn [bind].
  destruct CX as [(-> & CX)|(-> & Mo & T & CX)]; unfold RDEOK, RDENOMEM; cbn [Z.eqb negb].
  2:{ do 3 eexists. split; [reflexivity|]. split.
      { unfold an_blocks. simpl. rewrite Sf, BX. reflexivity. }
      repeat (split; [assumption|]). right. split; [reflexivity|]. split; [exact Mo|]. split; [exact T|].
      left. constructor; simpl; try assumption; try reflexivity.
      exists fb, (map Some cf). rewrite zlen_map. auto. }
  destruct (analyze_dimension_ok E a cf h w 1 w (dim_y w h cf) (map (dim_y w h) ys) (an_yresult a) (an_ybound a) wd1 m)
    as (e & yr & yb & wd2 & EY & BY & W4 & W5 & W6 & CY); auto; try lia.
  { apply geom_y; lia. }
  { intros D' HD'. apply in_map_iff in HD'. destruct HD' as (q & <- & _). reflexivity. }
  rewrite EY. cbn [bind].
  destruct CY as [(-> & CY)|(-> & Mo & T & CY)]; unfold RDEOK, RDENOMEM; cbn [Z.eqb negb].
  2:{ do 3 eexists. split; [reflexivity|]. split.
      { unfold an_blocks. simpl. rewrite Sf, BX, BY. reflexivity. }
      repeat (split; [congruence|]). right. split; [reflexivity|]. split; [exact Mo|]. split; [exact T|].
      right. constructor; simpl; try assumption; try reflexivity.
      - exists fb, (map Some cf). rewrite zlen_map. auto.
      - rewrite map_app. exact CX. }
  do 3 eexists. split; [reflexivity|]. split.
  { unfold an_blocks. simpl. rewrite Sf, BX, BY. reflexivity. }
  repeat (split; [congruence|]). left. split; [reflexivity|].
  constructor; simpl; try assumption; try reflexivity.
  - exists fb, (map Some cf). rewrite zlen_map. auto.
  - rewrite map_app. exact CX.
  - rewrite map_app. exact CY.
  - rewrite wrap_small by lia. lia.
Qed.

(** ** Generating the results of one dimension *)

(** the mean the library forms for position x, and whether it is reported *)
Definition avg (c : criterion) (Ds : list dim) (n range x : Z) : f64 :=
  ddiv (total c Ds range x) (f64_of_Z n).
Definition entries (c : criterion) (Ds : list dim) (n len range : Z) (thr : f32) (keep : Z -> bool) : list rdres :=
  map (fun x => mkRes x (f32_of_f64 (avg c Ds n range x)))
      (filter (fun x => dge (avg c Ds n range x) (f64_of_f32 thr) && keep x) (window len range)).

Lemma filter_map_comm {A B} (f : A -> B) (P : B -> bool) l :
  filter P (map f l) = map f (filter (fun x => P (f x)) l).
Proof.
  induction l as [|a l IH]; [reflexivity|]. cbn. rewrite IH. destruct (P (f a)); reflexivity.
Qed.


Lemma firstn_exact {A} (l : list A) n : (List.length l <= n)%nat -> firstn n l = l.
Proof. apply firstn_all2. Qed.

Lemma upd_app_repeat {A} (l : list (option A)) n k v : k = List.length l -> (0 < n)%nat ->
  upd (l ++ repeat None n) k (Some v) = (l ++ [Some v]) ++ repeat None (n - 1).
Proof.
  intros -> Hn. rewrite <- app_assoc. induction l as [|a l IH]; cbn [List.length app upd].
  - destruct n; [lia|]. cbn. rewrite Nat.sub_0_r. reflexivity.
  - f_equal. exact IH.
Qed.

Section Generate.
Variables (E : env) (a : analysis) (m : method) (len : Z) (Ds : list dim)
          (result : option (nat * list f64)) (bound : option (Z * Z)) (n : Z).
Let range := p_range (an_params a).
Let thr := p_threshold (an_params a).
Let crit := criterion_of (e_cfg E) m.
Hypothesis Hstate : dim_state (e_cfg E) m len range Ds result bound.
Hypothesis Hn : an_nimages a = n.
Hypothesis Hlen : 1 <= len <= INT_MAX.
Hypothesis Hrange : 1 <= range <= SIZE_MAX.
Hypothesis Hfilter : 0 <= p_filter (an_params a) <= 31.

(** the interval computed for this dimension *)
Definition interval (len v : Z) : f32 :=
  if v =? 0 then f32_of_Z 0 else fdiv (f32_of_Z len) (f32_of_Z (2^v)).
Definition keeps (p : params) (len : Z) (x : Z) : bool :=
  filter_keeps (interval len (p_filter p)) len (x - p_range p).

Let list0 := mkRes len (f32_of_Z (-1)) :: entries crit Ds n len range thr (keeps (an_params a) len).

Lemma interval_ok : filter_interval len (p_filter (an_params a)) = Ok (interval len (p_filter (an_params a))).
Proof.
  unfold filter_interval, interval. destruct (_ =? 0); [reflexivity|].
  replace (p_filter (an_params a) <? 32) with true by lia. reflexivity.
Qed.

Lemma generate_ok wd :
  generate_dimension_results E a len bound result wd =
  match alloc (e_alloc E) wd with
  | (None, wd') => Ok (RDENOMEM, None, 0, wd')
  | (Some blk, wd') => Ok (RDEOK, Some (blk, e_qsort E sortres list0), zlen list0, wd')
  end.
Proof using All.
  unfold generate_dimension_results. rewrite interval_ok. cbn [bind].
  unfold dim_state in Hstate. unfold INT_MAX, SIZE_MAX in *.
  destruct (Z.ltb_spec (2 * range) len) as [L|L].
  2:{ rewrite Hstate. cbn [bind]. destruct (alloc (e_alloc E) wd) as [[blk|] wd']; [|reflexivity].
      cbn. unfold list0, entries, window. rewrite zrange_empty by lia. cbn. reflexivity. }
  destruct Hstate as (b & r & -> & -> & Lr & HT).
  replace (wrap (len - range - range)) with (len - 2 * range) by (rewrite wrap_small; lia).
  remember (len - 2 * range) as M eqn:HM.
  set (fi := interval len (p_filter (an_params a))).
  set (pass := fun x => dge (avg crit Ds n range x) (f64_of_f32 thr) && keeps (an_params a) len x).
  set (ent := fun x => mkRes x (f32_of_f64 (avg crit Ds n range x))).
  set (hd0 := mkRes len (f32_of_Z (-1))).
  assert (RP : forall i, 0 <= i < M -> result_passes a fi len r i = Ok (pass (range + i))).
  { intros i Hi. unfold result_passes. rewrite (get_at d0) by lia. cbn [bind].
    rewrite HT by lia. unfold pass, avg, keeps. fold crit thr range. rewrite Hn.
    replace (range + i - range) with i by lia. reflexivity. }
  set (pre := fun i => filter pass (zrange range (range + i))).
  assert (PS : forall i, 0 <= i -> pre (i + 1) = pre i ++ (if pass (range + i) then [range + i] else [])).
  { intros i Hi. unfold pre. rewrite Z.add_assoc, zrange_snoc by lia. rewrite filter_app. reflexivity. }
  assert (PL : forall i, 0 <= i -> zlen (pre i) <= i).
  { intros i Hi. unfold pre, zlen. pose proof (length_filter_le pass (zrange range (range + i))) as Q.
    pose proof (zlen_zrange range (range + i) ltac:(lia)) as Q2. unfold zlen in Q2. lia. }
  assert (PM : forall i, 0 <= i <= M -> (List.length (pre i) <= List.length (pre M))%nat).
  { intros i Hi. unfold pre. rewrite (zrange_app range (range + i) (range + M)) by lia.
    rewrite filter_app, app_length. lia. }
  destruct (for_range_inv (fun i k => k = 1 + zlen (pre i)) (fun i n0 => k <- result_passes a fi len r i;; Ok (if k : bool then wrap (n0 + 1) else n0)) 0 M 1)
    as (cnt & EC & HCnt).
  { lia. }
  { unfold pre. replace (range + 0) with range by lia. rewrite zrange_empty by lia. reflexivity. }
  { intros j k Hj ->. rewrite RP by lia. cbn [bind]. eexists. split; [reflexivity|].
    rewrite PS by lia. rewrite zlen_app. specialize (PL j ltac:(lia)). destruct (pass (range + j)).
    - rewrite wrap_small by (pose proof (zlen_nonneg (pre j)); lia). change (zlen [range + j]) with 1. lia.
    - change (zlen (@nil Z)) with 0. lia. }
  rewrite EC. cbn [bind].
  destruct (alloc (e_alloc E) wd) as [[blk|] wd'] eqn:AL; [|reflexivity].
  assert (Lbuf : Z.to_nat (wrap (cnt * 16) / 16) = S (List.length (pre M))).
  { specialize (PL M ltac:(lia)). pose proof (zlen_nonneg (pre M)).
    rewrite wrap_small by lia. rewrite Z.div_mul by lia. subst cnt. unfold zlen. lia. }
  rewrite Lbuf. cbn [repeat]. 
  rewrite set_upd by (rewrite zlen_cons; pose proof (zlen_nonneg (repeat (@None rdres) (List.length (pre M)))); lia).
  cbn [bind Z.to_nat upd].
  destruct (for_range_inv (fun i (bc : list (option rdres) * Z) =>
      fst bc = map Some (hd0 :: map ent (pre i)) ++ repeat None (List.length (pre M) - List.length (pre i)) /\
      snd bc = 1 + zlen (pre i))
    (fun i '(buf, count) =>
               k <- result_passes a fi len r i ;;
               if k : bool then
                 v <- get r i ;;
                 buf <- set buf count
                   (Some (mkRes (wrap (i + range))
                                (f32_of_f64 (ddiv v (f64_of_Z (an_nimages a)))))) ;;
                 Ok (buf, wrap (count + 1))
               else Ok (buf, count)) 0 M (Some hd0 :: repeat None (List.length (pre M)), 1))
    as ([buf count] & EF & HB & HK).
  { lia. }
  { assert (P0 : pre 0 = []) by (unfold pre; rewrite zrange_empty by lia; reflexivity).
    rewrite P0. cbn [fst snd map app List.length]. rewrite Nat.sub_0_r. split; reflexivity. }
  { intros j [buf count] Hj (HB & HK). cbn [fst snd] in *. rewrite RP by lia. cbn [bind].
    specialize (PL j ltac:(lia)). pose proof (PM (j + 1) ltac:(lia)) as PMj.
    rewrite PS in PMj |- * by lia. pose proof (zlen_nonneg (pre j)) as NN.
    destruct (pass (range + j)).
    - rewrite (get_at d0) by lia. cbn [bind].
      rewrite app_length in PMj. cbn [List.length] in PMj.
      rewrite HT by lia. rewrite Hn.
      assert (ZB : zlen buf = 1 + zlen (pre M)).
      { rewrite HB, zlen_app, zlen_map, zlen_cons, zlen_map, zlen_repeat. unfold zlen. lia. }
      rewrite set_upd by (unfold zlen in *; lia). cbn [bind]. eexists. split; [reflexivity|]. cbn [fst snd].
      split.
      + rewrite HB. rewrite upd_app_repeat.
        * replace (List.length (pre M) - List.length (pre j ++ [(range + j)%Z]))%nat
            with (List.length (pre M) - List.length (pre j) - 1)%nat by (rewrite app_length; cbn [List.length]; lia).
          f_equal. rewrite map_app. cbn [map app]. f_equal. rewrite !map_app. cbn [map]. do 3 f_equal.
          unfold ent, avg. fold crit.
          replace (wrap (j + range)) with (range + j) by (rewrite wrap_small; lia). reflexivity.
        * rewrite map_length. cbn [List.length]. rewrite map_length. rewrite HK. unfold zlen. lia.
        * lia.
      + rewrite zlen_app, HK. rewrite wrap_small by lia. change (zlen [range + j]) with 1. lia.
    - eexists. split; [reflexivity|]. cbn [fst snd]. rewrite app_nil_r. auto. }
  rewrite EF. cbn [bind fst snd] in *. subst buf count.
  rewrite Nat.sub_diag. cbn [repeat]. rewrite app_nil_r.
  assert (LL : zlen list0 = 1 + zlen (pre M)).
  { unfold list0, entries, window. rewrite zlen_cons, zlen_map. fold pass.
    replace (len - range) with (range + M) by lia. fold (pre M). lia. }
  assert (EQ : hd0 :: map ent (pre M) = list0).
  { unfold list0, entries, window. replace (len - range) with (range + M) by lia. reflexivity. }
  rewrite EQ. rewrite zlen_map. rewrite LL.
  replace (1 + zlen (pre M) >? 1 + zlen (pre M)) with false by lia.
  rewrite firstn_all2 by (rewrite map_length; unfold zlen in *; lia).
  rewrite all_init_some. cbn [bind]. reflexivity.
Qed.
End Generate.

(** ** Confidences are numbers *)

Lemma rnd64_ge_min n : 1 <= n -> (IZR (Z.min n (2^53)) <= rnd64 (IZR n))%R.
Proof.
  intros H. rewrite <- (rnd64_Z (Z.min n (2^53))) by lia. apply rnd64_le. apply IZR_le. lia.
Qed.

Lemma avg_val c Ds n range x :
  (forall D, In D Ds -> 0 < d_lines D <= 2^31) -> 0 < range <= 2^31 -> 1 <= n <= SIZE_MAX ->
  exists r, dval (avg c Ds n range x) r /\ (0 <= r <= IZR (2^53))%R /\ (zlen Ds <= n -> (r <= 1)%R).
Proof.
  intros HD Hr Hn. unfold SIZE_MAX in Hn.
  destruct (total_val c Ds range x HD Hr) as (t & V & B).
  pose proof (rnd64_ge_min n ltac:(lia)) as P. pose proof (rnd64_pos n ltac:(lia)) as P1.
  assert (T53 : (t <= IZR (2^53))%R).
  { eapply Rle_trans; [apply B|]. apply IZR_le. lia. }
  assert (Q : (t / rnd64 (IZR n) <= IZR (2^53))%R).
  { apply Rmult_le_reg_r with (rnd64 (IZR n)); [lra|]. unfold Rdiv. rewrite Rmult_assoc, Rinv_l, Rmult_1_r by lra.
    assert (0 < IZR (2^53))%R by (apply IZR_lt; lia). nra. }
  assert (V' : dval (avg c Ds n range x) (rnd64 (t / rnd64 (IZR n)))).
  { apply ddiv_val; [exact V|apply f64_of_Z_val; lia|lra|]. apply (bpow_big _ _ 53); [exact Q|lia]. }
  exists (rnd64 (t / rnd64 (IZR n))). split; [exact V'|]. split; [split|].
  - eapply dval_nonneg. exact V'.
  - rewrite <- (rnd64_Z (2^53)) by lia. apply rnd64_le. exact Q.
  - intros HK. rewrite <- rnd64_1. apply rnd64_le.
    apply Rmult_le_reg_r with (rnd64 (IZR n)); [lra|]. unfold Rdiv. rewrite Rmult_assoc, Rinv_l, Rmult_1_r, Rmult_1_l by lra.
    eapply Rle_trans; [apply B|]. eapply Rle_trans; [|exact P]. apply IZR_le. lia.
Qed.

Lemma conf_val c Ds n range x :
  (forall D, In D Ds -> 0 < d_lines D <= 2^31) -> 0 < range <= 2^31 -> 1 <= n <= SIZE_MAX ->
  ffinite (f32_of_f64 (avg c Ds n range x)) = true /\
  (0 <= rf (f32_of_f64 (avg c Ds n range x)))%R /\
  (zlen Ds <= n -> (rf (f32_of_f64 (avg c Ds n range x)) <= 1)%R) /\
  forall thr, ffinite thr = true -> dge (avg c Ds n range x) (f64_of_f32 thr) = true ->
    (rf thr <= rf (f32_of_f64 (avg c Ds n range x)))%R.
Proof.
  intros HD Hr Hn. destruct (avg_val c Ds n range x HD Hr Hn) as (r & V & B & U).
  destruct (f32_of_f64_val _ _ V) as (F & S & Q).
  { apply (bpow_big _ _ 53); [apply B|lia]. }
  split; [exact F|]. rewrite Q. split; [apply rnd32_nonneg; apply B|]. split.
  - intros HK. rewrite <- rnd32_1. apply rnd32_le. apply U, HK.
  - intros thr HT HG. destruct (f64_of_f32_finite thr HT) as (TF & TV & _).
    destruct V as (VF & VS & VR).
    apply dge_spec in HG; [|exact VF|exact TF]. rewrite VR, TV in HG.
    rewrite <- (rnd32_id (rf thr)); [apply rnd32_le; exact HG|]. apply generic_format_B2R.
Qed.

(** ** Sorting *)

Lemma sortres_spec a b : ffinite (r_conf a) = true -> ffinite (r_conf b) = true ->
  (sortres a b <= 0 <-> (rf (r_conf b) <= rf (r_conf a))%R) /\
  (sortres a b < 0 <-> (rf (r_conf b) < rf (r_conf a))%R) /\
  (sortres a b > 0 <-> (rf (r_conf a) < rf (r_conf b))%R).
Proof.
  intros Fa Fb. unfold sortres. rewrite fgt_flt.
  destruct (flt (r_conf a) (r_conf b)) eqn:L.
  - apply flt_spec in L; [|assumption..]. repeat split; intros; try lia; lra.
  - assert (L' : ~ (rf (r_conf a) < rf (r_conf b))%R).
    { intros H. apply flt_spec in H; [|assumption..]. congruence. }
    destruct (flt (r_conf b) (r_conf a)) eqn:G.
    + apply flt_spec in G; [|assumption..]. repeat split; intros; try lia; lra.
    + assert (G' : ~ (rf (r_conf b) < rf (r_conf a))%R).
      { intros H. apply flt_spec in H; [|assumption..]. congruence. }
      repeat split; intros; try lia; try lra.
Qed.

Lemma sortres_consistent l : (forall r, In r l -> ffinite (r_conf r) = true) -> consistent sortres l.
Proof.
  intros H. split; [|split].
  - intros a b Ha Hb. destruct (sortres_spec a b) as (S1 & _ & _); auto.
    destruct (sortres_spec b a) as (S1' & _ & _); auto. rewrite S1, S1'. lra.
  - intros a b Ha Hb. destruct (sortres_spec a b) as (_ & S2 & _); auto.
    destruct (sortres_spec b a) as (_ & _ & S3); auto. rewrite S2, S3. reflexivity.
  - intros a b c Ha Hb Hc. destruct (sortres_spec a b) as (S1 & _ & _); auto.
    destruct (sortres_spec b c) as (S2 & _ & _); auto. destruct (sortres_spec a c) as (S3 & _ & _); auto.
    rewrite S1, S2, S3. lra.
Qed.

Definition descending (l : list rdres) : Prop :=
  StronglySorted (fun a b => (rf (r_conf b) <= rf (r_conf a))%R) l.

Lemma m1_val : ffinite (f32_of_Z (-1)) = true /\ rf (f32_of_Z (-1)) = (-1)%R.
Proof.
  split; [reflexivity|].
  unfold f32_of_Z. pose proof (binary_normalize_correct 24 128 eq_refl eq_refl mode_NE (-1) 0 false) as H.
  cbn zeta in H.
  replace (round radix2 (SpecFloat.fexp 24 128) (round_mode mode_NE) (F2R {| Fnum := -1; Fexp := 0 |})) with (-1)%R in H.
  - rewrite Rlt_bool_true in H; [apply H|].
    rewrite Rabs_left by lra. replace (- -1)%R with 1%R by lra. apply (bpow_lt radix2 0 128). lia.
  - assert (F : generic_format radix2 (SpecFloat.fexp 24 128) (-1)).
    { apply (fmt32_Z (-1)). lia. }
    unfold F2R. cbn [Fnum Fexp bpow]. rewrite Rmult_1_r. symmetry. apply round_generic; [apply valid_rnd_N|exact F].
Qed.

Lemma sorted_entries_ok E len es :
  env_ok E -> (forall r, In r es -> ffinite (r_conf r) = true /\ (0 <= rf (r_conf r))%R) ->
  let l := e_qsort E sortres (mkRes len (f32_of_Z (-1)) :: es) in
  Permutation (mkRes len (f32_of_Z (-1)) :: es) l /\ descending l /\
  exists l', l = l' ++ [mkRes len (f32_of_Z (-1))] /\ Permutation es l'.
Proof.
  intros HE HF l. destruct m1_val as (MF & MV).
  assert (AF : forall r, In r (mkRes len (f32_of_Z (-1)) :: es) -> ffinite (r_conf r) = true).
  { intros r [<-|Hr]; [exact MF|apply HF, Hr]. }
  destruct (eo_qsort E HE sortres _ (sortres_consistent _ AF)) as (P & S). fold l in P, S.
  assert (AFl : forall r, In r l -> ffinite (r_conf r) = true).
  { intros r Hr. apply AF. eapply Permutation_in; [apply Permutation_sym; exact P|exact Hr]. }
  assert (D : descending l).
  { unfold descending. clear P. clearbody l. induction S as [|a l S IH H]; constructor.
    - apply IH. intros r Hr. apply AFl. right. exact Hr.
    - rewrite Forall_forall in *. intros b Hb. specialize (H b Hb).
      apply sortres_spec in H; [exact H| |]; apply AFl; [left; reflexivity|right; exact Hb]. }
  split; [exact P|]. split; [exact D|].
  assert (NZ : forall r, In r l -> r = mkRes len (f32_of_Z (-1)) \/ (0 <= rf (r_conf r))%R).
  { intros r Hr. assert (In r (mkRes len (f32_of_Z (-1)) :: es)) as [<-|H].
    { eapply Permutation_in; [apply Permutation_sym; exact P|exact Hr]. } { left. reflexivity. }
    right. apply HF, H. }
  assert (IL : In (mkRes len (f32_of_Z (-1))) l).
  { eapply Permutation_in; [exact P|left; reflexivity]. }
  destruct (@exists_last _ l) as (l' & z & EL). { intros ->. destruct IL. }
  assert (Z : z = mkRes len (f32_of_Z (-1))).
  { destruct (NZ z) as [->|N]; [rewrite EL; apply in_or_app; right; left; reflexivity|reflexivity|].
    exfalso. rewrite EL in IL, D. apply in_app_or in IL. destruct IL as [IL|[->|[]]].
    - apply in_split in IL. destruct IL as (l1 & l2 & ->).
      unfold descending in D. rewrite <- app_assoc in D. clear -D N MV. induction l1 as [|y l1 IH]; cbn [app] in D.
      + inversion D as [|? ? ? H]; subst. rewrite Forall_forall in H.
        specialize (H z ltac:(apply in_or_app; right; left; reflexivity)). cbn [r_conf] in H. lra.
      + inversion D; subst. apply IH. assumption.
    - cbn [r_conf] in N. lra. }
  subst z. exists l'. split; [exact EL|].
  rewrite EL in P. apply Permutation_sym in P.
  apply Permutation_cons_inv with (a := mkRes len (f32_of_Z (-1))).
  apply Permutation_sym. eapply perm_trans; [|exact P]. apply Permutation_cons_append.
Qed.
