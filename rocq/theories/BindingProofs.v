(** The Python bindings: exceptions, parameters, detection. *)
From Coq Require Import Permutation String.
From Flocq Require Import IEEE754.Binary.
From Verif Require Import Base BaseProofs Flt Util Methods Analysis Resdetect History Spec SpecAnalysis SpecUtil SpecReport WorldProofs UtilProofs AnalysisProofs ResultsProofs ClientProofs ProgramProofs
  Stdio Pgm Pfm Y4m Image ImageHistory SpecImage ImageSafe FrameProofs ImageApi FileProofs SelectProofs Cli SpecCli CodeProofs CliProofs CliFilm CliRun AnalysisClaims Tools SpecTools StatProofs ProfileProofs StatRun
  Bindings SpecBindings.
Open Scope string_scope.
Open Scope list_scope.
Open Scope Z_scope.

Lemma unless_empty_ok t : unless_empty t = type_arg t.
Proof. destruct t as [[|c s]|]; reflexivity. Qed.

Lemma exception_ok e : known_code e -> e <> RDEOK -> exists x, py_exception e = Ok x /\ reflects e x.
Proof.
  intros K NE. destruct (error_message e K) as (m & Q & N). unfold py_exception. rewrite Q. cbn [bind].
  assert (C : e < 0 \/ In e [1; 2; 3; 4; 5; 6; 7]).
  { unfold known_code, RDENOIMG, RDEOK in *. cbn. lia. }
  assert (X : forall c, (e < 0 /\ c = OSError (- e)) \/ (1 <= e /\ nth_error error_classes (Z.to_nat (e - 1)) = Some c) ->
     reflects e (mkExn c (Some m))) by (intros c H; exists m; auto).
  destruct m; try (elim N; reflexivity); (eexists; split; [reflexivity|]; apply X; destruct C as [C|C]; [left|right; repeat (destruct C as [<-|C]; [split; [lia|reflexivity]|]); destruct C]).
  all: split; [exact C|].
  all: do 7 (match goal with |- (if ?b then _ else _) = _ => destruct b eqn:? end; [match goal with H : (_ =? _) = true |- _ => apply Z.eqb_eq in H; rewrite H in C; discriminate C end|]).
  all: match goal with |- (if ?b then _ else _) = _ => destruct b eqn:? end; [reflexivity|match goal with H : (_ <? _) = false |- _ => apply Z.ltb_ge in H; lia end].
Qed.
Lemma raise_ok {A} e w : known_code e -> e <> RDEOK -> exists x, py_raise (A := A) e w = Ok (Raise x, w) /\ reflects e x.
Proof. intros K N. destruct (exception_ok e K N) as (x & Q & R). unfold py_raise. rewrite Q. cbn [bind]. eauto. Qed.

(** ** Parameters *)
Lemma lookup_in k d v : lookup k d = Some v -> In (k, v) d.
Proof.
  unfold lookup. destruct (find _ d) as [[k' v']|] eqn:F; [|discriminate]. cbn. intros Q. inversion Q; subst.
  apply find_some in F. destruct F as (I & F). apply String.eqb_eq in F. cbn in F. subst. exact I.
Qed.
Lemma in_lookup k d v : NoDup (map fst d) -> In (k, v) d -> lookup k d = Some v.
Proof.
  intros N I. unfold lookup. induction d as [|[k' v'] d IH]; [destruct I|]. cbn [map fst] in N. inversion N; subst. cbn [find fst].
  destruct (String.eqb_spec k' k) as [->|NE].
  - destruct I as [I|I]; [inversion I; reflexivity|]. contradict H1. apply in_map_iff. exists (k, v). auto.
  - destruct I as [I|I]; [inversion I; contradiction|]. apply IH; assumption.
Qed.
Definition one {A} (d : dict) (k : string) (conv : pyvalue -> option A) (mk : A -> setting) : option (list setting) :=
  match lookup k d with None => Some [] | Some v => option_map (fun a => [mk a]) (conv v) end.
Lemma py_set_one {A} d k conv setter (mk : A -> setting) p : (forall q a, set_param q (mk a) = setter q a) ->
  py_set d k conv setter p = option_map (fun l => snd (set_all p l)) (one d k conv mk).
Proof.
  intros H. unfold py_set, one. destruct (lookup k d) as [v|]; [|reflexivity]. destruct (conv v) as [a|]; [|reflexivity].
  cbn. rewrite H. destruct (setter p a). reflexivity.
Qed.
Definition ranges d := one d "range" as_size_t Range.
Definition thresholds d := one d "threshold" as_float Threshold.
Definition filters d := one d "compression_filter" as_uint8 Filter.

Lemma one_in {A} d k conv (mk : A -> setting) l s : one d k conv mk = Some l -> In s l -> exists v a, In (k, v) d /\ conv v = Some a /\ s = mk a.
Proof.
  unfold one. destruct (lookup k d) as [v|] eqn:L; [|intros Q; inversion Q; intros []].
  destruct (conv v) as [a|] eqn:C; [|discriminate]. cbn. intros Q. inversion Q. intros [<-|[]]. exists v, a. split; [apply lookup_in, L|auto].
Qed.
Lemma one_none {A} d k conv (mk : A -> setting) : one d k conv mk = None -> exists v, In (k, v) d /\ conv v = None.
Proof.
  unfold one. destruct (lookup k d) as [v|] eqn:L; [|discriminate]. destruct (conv v) as [a|] eqn:C; [discriminate|]. intros _. exists v. split; [apply lookup_in, L|exact C].
Qed.
Lemma one_has {A} d k conv (mk : A -> setting) l v a : NoDup (map fst d) -> one d k conv mk = Some l -> In (k, v) d -> conv v = Some a -> In (mk a) l.
Proof.
  intros N. unfold one. intros Q I C. rewrite (in_lookup _ _ _ N I), C in Q. inversion Q. left. reflexivity.
Qed.
Lemma size_asks z v : as_size_t v = Some z -> asks ("range", v) (Range z) /\ typed (Range z).
Proof. destruct v as [n| |]; try discriminate. cbn. intros Q. inversion Q. split; [constructor|]. apply Z.mod_pos_bound. reflexivity. Qed.
Lemma uint8_asks z v : as_uint8 v = Some z -> asks ("compression_filter", v) (Filter z) /\ typed (Filter z).
Proof. destruct v as [n| |]; try discriminate. cbn. intros Q. inversion Q. split; [constructor|]. apply Z.mod_pos_bound. reflexivity. Qed.
Lemma float_asks t v : as_float v = Some t -> asks ("threshold", v) (Threshold t).
Proof.
  destruct v as [n|x|]; cbn; intros Q; [|inversion Q; constructor|discriminate].
  destruct (is_finite 53 1024 (f64_of_Z n)) eqn:F; [|discriminate]. inversion Q. constructor. exact F.
Qed.
Lemma asks_conv k v s : asks (k, v) s ->
  (k = "range" /\ exists z, s = Range z /\ as_size_t v = Some z) \/ (k = "threshold" /\ exists t, s = Threshold t /\ as_float v = Some t) \/
  (k = "compression_filter" /\ exists z, s = Filter z /\ as_uint8 v = Some z).
Proof.
  inversion 1; subst; [left; split; [reflexivity|]; eexists; split; reflexivity|right; left; split; [reflexivity|]; eexists; split; reflexivity| |right; right; split; [reflexivity|]; eexists; split; reflexivity].
  right; left. split; [reflexivity|]. eexists. split; [reflexivity|]. cbn. match goal with H : is_finite _ _ _ = true |- _ => rewrite H end. reflexivity.
Qed.
Lemma effect_of {A} (pick : setting -> option A) dflt d l v : (forall s, In s l <-> exists kv, In kv d /\ asks kv s) ->
  last_value pick dflt l v -> in_effect pick dflt d v.
Proof.
  intros EQ LV.
  assert (H : (exists s, In s l /\ documented s /\ pick s = Some v) \/ (v = dflt /\ forall s, In s l -> documented s -> pick s = None)).
  { clear EQ. induction LV as [|l s v P D|l s v ND LV IH].
    - right. split; [reflexivity|]. intros s [].
    - left. exists s. split; [apply in_or_app; right; left; reflexivity|auto].
    - destruct IH as [(s' & I & D & P)|(-> & H)]; [left; exists s'; split; [apply in_or_app; auto|auto]|right].
      split; [reflexivity|]. intros s' I D. apply in_app_or in I. destruct I as [I|[<-|[]]]; [apply H; assumption|]. destruct ND as [ND|ND]; [exact ND|contradiction]. }
  destruct H as [(s & I & D & P)|(-> & H)].
  - left. apply EQ in I. destruct I as (kv & I & K). exists kv, s. auto.
  - right. split; [reflexivity|]. intros kv s I K. apply H, EQ. eauto.
Qed.
Lemma known_in k : known_key k = true <-> In k setting_names.
Proof.
  unfold known_key, setting_names. rewrite !orb_true_iff, !String.eqb_eq. cbn. intuition auto.
Qed.

Lemma parameters_ok E d wd : env_ok E -> NoDup (map fst d) ->
  (d = [] /\ py_parameters E d wd = (Return None, wd)) \/
  ((exists kv, In kv d /\ ~ In (fst kv) setting_names) /\ py_parameters E d wd = (Raise (mkExn Exception_ None), wd)) \/
  (d <> [] /\ (forall kv, In kv d -> In (fst kv) setting_names) /\ exists wd',
    (((exists kv, In kv d /\ forall s, ~ asks kv s) /\ py_parameters E d wd = (Raise (mkExn ArgumentError None), wd') /\
        (exists leak, holds wd' wd leak [] /\ (e_alloc E (w_count wd) = true -> exists b, leak = [b]))) \/
     ((forall kv, In kv d -> exists s, asks kv s) /\
        ((e_alloc E (w_count wd) = false /\ py_parameters E d wd = (Return None, wd') /\ holds wd' wd [] []) \/
         (e_alloc E (w_count wd) = true /\ exists b p, py_parameters E d wd = (Return (Some (b, p)), wd') /\ holds wd' wd [b] [] /\ client_params (e_cfg E) (Some p) /\
            in_effect range_of (c_default_range (e_cfg E)) d (p_range p) /\
            in_effect threshold_of (f32_of_Z (-1)) d (p_threshold p) /\
            in_effect filter_of 0 d (p_filter p)))))).
Proof.
  intros EO ND. destruct d as [|kv0 d0]; [left; split; reflexivity|]. right. set (d := kv0 :: d0) in *.
  change (py_parameters E d wd) with (if negb (forallb (fun kv => known_key (fst kv)) d) then (Raise (mkExn Exception_ None), wd) : py (option (nat * params)) * world else
    let '(r, w) := resdet_alloc_default_parameters (e_cfg E) (e_alloc E) wd in
    let refused := (Raise (mkExn ArgumentError None), w) in
    match py_set d "range" as_size_t resdet_parameters_set_range (option_map snd r) with None => refused | Some p =>
    match py_set d "threshold" as_float resdet_parameters_set_threshold p with None => refused | Some p =>
    match py_set d "compression_filter" as_uint8 resdet_parameters_set_compression_filter p with None => refused | Some p =>
      (Return (match r, p with Some (b, _), Some p => Some (b, p) | _, _ => None end), w) end end end).
  destruct (forallb (fun kv => known_key (fst kv)) d) eqn:FK; cbn [negb].
  2: { left. split; [|reflexivity]. apply not_true_iff_false in FK. rewrite forallb_forall in FK.
       assert (X : exists kv, In kv d /\ known_key (fst kv) = false).
       { clear -FK. induction d as [|kv d IH]; [elim FK; intros ? []|]. destruct (known_key (fst kv)) eqn:K; [|exists kv; split; [left; reflexivity|exact K]].
         destruct IH as (kv' & I & K'); [|exists kv'; split; [right; exact I|exact K']]. intros H. apply FK. intros x [<-|I]; [exact K|auto]. }
       destruct X as (kv & I & K). exists kv. split; [exact I|]. rewrite <- known_in, K. discriminate. }
  right. split; [discriminate|]. rewrite forallb_forall in FK. split; [intros kv I; apply known_in, FK, I|].
  pose proof (holds_alloc (e_alloc E) wd wd [] [] (holds_refl wd)) as HA. unfold resdet_alloc_default_parameters. unfold alloc in *.
  set (al := e_alloc E (w_count wd)) in *.
  assert (PS : forall p, py_set d "range" as_size_t resdet_parameters_set_range p = option_map (fun l => snd (set_all p l)) (ranges d)) by (intros; apply py_set_one; reflexivity).
  assert (PT : forall p, py_set d "threshold" as_float resdet_parameters_set_threshold p = option_map (fun l => snd (set_all p l)) (thresholds d)) by (intros; apply py_set_one; reflexivity).
  assert (PF : forall p, py_set d "compression_filter" as_uint8 resdet_parameters_set_compression_filter p = option_map (fun l => snd (set_all p l)) (filters d)) by (intros; apply py_set_one; reflexivity).
  assert (BAD : forall k v, In (k, v) d -> (k = "range" -> as_size_t v = None) -> (k = "threshold" -> as_float v = None) -> (k = "compression_filter" -> as_uint8 v = None) ->
     exists kv, In kv d /\ forall s, ~ asks kv s).
  { intros k v I H1 H2 H3. exists (k, v). split; [exact I|]. intros s A. apply asks_conv in A.
    destruct A as [(K & z & _ & C)|[(K & z & _ & C)|(K & z & _ & C)]]; [rewrite (H1 K) in C|rewrite (H2 K) in C|rewrite (H3 K) in C]; discriminate. }
  assert (LEAK : forall b : bool, al = b -> forall wd', match (if b then Some (w_count wd) else None) with Some x => holds wd' wd [x] [] | None => holds wd' wd [] [] end ->
     exists leak, holds wd' wd leak [] /\ (al = true -> exists x, leak = [x])).
  { intros b -> wd' H. destruct b; [exists [w_count wd]|exists []]; split; try exact H; [eauto|discriminate]. }
  assert (LK : exists wd', snd (if al then (Some (w_count wd), mkWorld (S (w_count wd)) (w_count wd :: w_live wd) (w_nfile wd) (w_files wd)) else (None, mkWorld (S (w_count wd)) (w_live wd) (w_nfile wd) (w_files wd))) = wd' /\
     match (if al then Some (w_count wd) else None) with Some x => holds wd' wd [x] [] | None => holds wd' wd [] [] end).
  { destruct al; eexists; (split; [reflexivity|]); [exact HA|exact (proj1 HA)]. }
  destruct LK as (wd' & EW & HW). exists wd'.
  destruct (ranges d) as [l1|] eqn:L1.
  2: { left. destruct (one_none _ _ _ _ L1) as (v & I & C). split; [apply (BAD _ _ I); [auto|discriminate|discriminate]|]. split; [|apply (LEAK al eq_refl), HW].
       destruct al; cbn in EW; subst wd'; rewrite PS; reflexivity. }
  destruct (thresholds d) as [l2|] eqn:L2.
  2: { left. destruct (one_none _ _ _ _ L2) as (v & I & C). split; [apply (BAD _ _ I); [discriminate|auto|discriminate]|]. split; [|apply (LEAK al eq_refl), HW].
       destruct al; cbn in EW; subst wd'; rewrite PS; cbn [option_map]; rewrite PT; reflexivity. }
  destruct (filters d) as [l3|] eqn:L3.
  2: { left. destruct (one_none _ _ _ _ L3) as (v & I & C). split; [apply (BAD _ _ I); [discriminate|discriminate|auto]|]. split; [|apply (LEAK al eq_refl), HW].
       destruct al; cbn in EW; subst wd'; rewrite PS; cbn [option_map]; rewrite PT; cbn [option_map]; rewrite PF; reflexivity. }
  right.
  assert (LI : forall s, In s (l1 ++ l2 ++ l3) <-> exists kv, In kv d /\ asks kv s).
  { intros s. rewrite !in_app_iff. split.
    - intros [I|[I|I]]; [destruct (one_in _ _ _ _ _ _ L1 I) as (v & a & I' & C & ->)|destruct (one_in _ _ _ _ _ _ L2 I) as (v & a & I' & C & ->)|destruct (one_in _ _ _ _ _ _ L3 I) as (v & a & I' & C & ->)];
        (eexists; split; [exact I'|]); [apply size_asks|apply float_asks|apply uint8_asks]; exact C.
    - intros ([k v] & I & A). apply asks_conv in A. destruct A as [(-> & z & -> & C)|[(-> & z & -> & C)|(-> & z & -> & C)]];
        [left; exact (one_has _ _ _ _ _ _ _ ND L1 I C)|right; left; exact (one_has _ _ _ _ _ _ _ ND L2 I C)|right; right; exact (one_has _ _ _ _ _ _ _ ND L3 I C)]. }
  assert (TY : Forall typed (l1 ++ l2 ++ l3)).
  { apply Forall_forall. intros s I. rewrite !in_app_iff in I.
    destruct I as [I|[I|I]]; [destruct (one_in _ _ _ _ _ _ L1 I) as (v & a & I' & C & ->)|destruct (one_in _ _ _ _ _ _ L2 I) as (v & a & I' & C & ->)|destruct (one_in _ _ _ _ _ _ L3 I) as (v & a & I' & C & ->)];
      [apply (size_asks _ _ C)|exact Logic.I|apply (uint8_asks _ _ C)]. }
  split.
  { intros [k v] I. pose proof (FK _ I) as K. apply known_in in K. cbn [fst] in K.
    destruct K as [<-|[<-|[<-|[]]]].
    - unfold ranges, one in L1. rewrite (in_lookup _ _ _ ND I) in L1. destruct (as_size_t v) as [z|] eqn:C; [|discriminate]. eexists. apply (size_asks _ _ C).
    - unfold thresholds, one in L2. rewrite (in_lookup _ _ _ ND I) in L2. destruct (as_float v) as [z|] eqn:C; [|discriminate]. eexists. apply (float_asks _ _ C).
    - unfold filters, one in L3. rewrite (in_lookup _ _ _ ND I) in L3. destruct (as_uint8 v) as [z|] eqn:C; [|discriminate]. eexists. apply (uint8_asks _ _ C). }
  assert (SA : forall p, snd (set_all (snd (set_all (snd (set_all p l1)) l2)) l3) = snd (set_all p (l1 ++ l2 ++ l3))).
  { intros p. rewrite CliProofs.set_all_app. destruct (set_all p l1) as [e1 p1]. cbn [snd]. rewrite CliProofs.set_all_app. destruct (set_all p1 l2) as [e2 p2]. cbn [snd]. destruct (set_all p2 l3). reflexivity. }
  destruct al.
  - right. split; [reflexivity|]. destruct (set_history_ok (default_params (e_cfg E)) _ TY) as (es & p & Q & _ & V1 & V2 & V3).
    exists (w_count wd), p. cbn in EW. split.
    + rewrite PS. cbn [option_map snd]. rewrite PT. cbn [option_map]. rewrite PF. cbn [option_map]. rewrite SA, Q, EW. reflexivity.
    + split; [exact HW|]. split; [right; exists (l1 ++ l2 ++ l3), es; auto|].
      split; [exact (effect_of _ _ _ _ _ LI V1)|]. split; [exact (effect_of _ _ _ _ _ LI V2)|exact (effect_of _ _ _ _ _ LI V3)].
  - left. split; [reflexivity|]. cbn in EW. split; [|exact HW]. rewrite PS. cbn [option_map snd]. rewrite PT. cbn [option_map]. rewrite PF. cbn [option_map]. rewrite EW. reflexivity.
Qed.

(** what detection needs to know of them *)
Lemma parameters_returned E d wd p wd1 : env_ok E -> NoDup (map fst d) -> py_parameters E d wd = (Return p, wd1) ->
  client_params (e_cfg E) (option_map snd p) /\ holds wd1 wd (opt_list (option_map fst p)) [].
Proof.
  intros EO ND Q. destruct (parameters_ok E d wd EO ND) as [(_ & P)|[(_ & P)|(_ & _ & wd' & [(_ & P & _)|(_ & [(_ & P & H)|(_ & b & q & P & H & C & _)])])]]; rewrite P in Q; inversion Q; subst; cbn.
  - split; [left; reflexivity|apply holds_refl].
  - split; [left; reflexivity|exact H].
  - split; [exact C|exact H].
Qed.
