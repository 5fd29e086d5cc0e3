(** Options of the command line program, and the whole of it. *)
From Coq Require Import Permutation Sorted Reals Lia Ascii String.
From Verif Require Import Base BaseProofs Flt Spec Util Methods Analysis Resdetect History SpecAnalysis SpecUtil SpecReport WorldProofs UtilProofs AnalysisProofs
  ResultsProofs ClientProofs ProgramProofs Stdio StdioProofs Pgm Pfm Y4m Image ImageHistory SpecImage ImageSafe FrameProofs ImageApi FileProofs SelectProofs
  Cli SpecCli CodeProofs CliProofs.
Open Scope list_scope.
Open Scope Z_scope.

(** ** Options *)
Lemma strcaseeq_spec a b : strcaseeq a b = true <-> same_nocase a b.
Proof. unfold strcaseeq, same_nocase. destruct (list_eq_dec Z.eq_dec _ _); split; congruence. Qed.
Lemma named_spec R a : existsb (fun name => strcaseeq name a) (resdet_list_image_readers R) = true <-> reader_named R a.
Proof.
  rewrite existsb_exists. split; intros (n & I & Q); exists n; (split; [exact I|]); apply strcaseeq_spec; exact Q.
Qed.

(** the options taken so far: [o] comes from [evs] *)
Lemma last_arg_app c l l' : last_arg c (l ++ l') = match last_arg c l' with Some a => Some a | None => last_arg c l end.
Proof.
  induction l as [|[d a] l IH]; cbn [last_arg app]; [destruct (last_arg c l'); reflexivity|]. rewrite IH. destruct (last_arg c l'); reflexivity.
Qed.

(** the options of [take_option], one after the other *)
Inductive kind := KV | KM | KT | KR | KX | Kr | KF | KO | KN | KP | KH | KVer | KBad.
Definition kind_of (c : ascii) : kind :=
  match c with
  | "v" => KV | "m" => KM | "t" => KT | "R" => KR | "x" => KX | "r" => Kr | "f" => KF | "o" => KO | "n" => KN | "p" => KP | "h" => KH | "V" => KVer
  | _ => KBad
  end%char.
Definition char_of (k : kind) : ascii :=
  match k with
  | KV => "v" | KM => "m" | KT => "t" | KR => "R" | KX => "x" | Kr => "r" | KF => "f" | KO => "o" | KN => "n" | KP => "p" | KH => "h" | KVer => "V" | KBad => "?"
  end%char.
Lemma kind_char c : (kind_of c = KBad /\ find_option optstring c = None) \/ (kind_of c <> KBad /\ c = char_of (kind_of c)).
Proof. destruct c as [[] [] [] [] [] [] [] []]; (left; split; reflexivity) || (right; split; [discriminate|reflexivity]). Qed.
Definition by_kind (R : readers) (c : config) (self : string) (k : kind) (arg : string) (o : opts) : exit + opts :=
  let '(mkOpts v m t r rg th f off n p found) := o in
  match k with
  | KV => inr (mkOpts (to_int (strtol arg)) m t r rg th f off n p found)
  | KM => inr (mkOpts v (Some arg) t r rg th f off n p found)
  | KT => inr (mkOpts v m (Some arg) r rg th f off n p found)
  | KR =>
      let found := found || existsb (fun name => strcaseeq name arg) (resdet_list_image_readers R) in
      if found then inr (mkOpts v m t (Some arg) rg th f off n p found) else inl (list_readers R arg)
  | KX => inr (mkOpts v m t r rg (Some arg) f off n p found)
  | Kr => inr (mkOpts v m t r (Some arg) th f off n p found)
  | KF => inr (mkOpts v m t r rg th (Some arg) off n p found)
  | KO => match strtoull arg with
          | None => inl (mkExit 1 [] [Str "Invalid offset "; Str arg; Str newline])
          | Some k => inr (mkOpts v m t r rg th f k n p found)
          end
  | KN => match strtoull arg with
          | Some k =>
              if negb (k =? 0) then inr (mkOpts v m t r rg th f off k p found)
              else inl (mkExit 1 [] [Str "Invalid nframes "; Str arg; Str newline])
          | None => inl (mkExit 1 [] [Str "Invalid nframes "; Str arg; Str newline])
          end
  | KP => inr (mkOpts v m t r rg th f off n true found)
  | KH => inl (help c self)
  | KVer => inl (version R)
  | KBad => inl (usage self)
  end.
Lemma take_kind R c self d a o : take_option R c self (Opt d a) o = by_kind R c self (kind_of d) a o.
Proof. destruct o. destruct d as [[] [] [] [] [] [] [] []]; reflexivity. Qed.

Lemma one_option R c self d a evs o o' : last_wins evs o -> take_option R c self (Opt d a) o = inr o' ->
  last_wins (evs ++ [Opt d a]) o' /\ ~ fatal (Opt d a) /\ (d = "R"%char -> o_found o = true \/ reader_named R a) /\
  (o_found o' = true <-> o_found o = true \/ d = "R"%char).
Proof.
  intros LW. rewrite take_kind. destruct (kind_char d) as [(KB & _)|(NB & ->)].
  { rewrite KB. destruct o. discriminate. }
  destruct (kind_of d) eqn:KD; try congruence; clear KD NB d; destruct LW as [V M Ty Rd Rg Th Fi Of Nf Pr];
    destruct o as [v m t r rg th f off n p fnd];
    cbn [by_kind char_of o_verbosity o_method o_type o_reader o_range o_threshold o_filter o_offset o_nframes o_progress o_found] in *.
  all: try discriminate.
  all: try (intros Q; inversion Q; subst o'; split;
    [split; rewrite ?last_arg_app; cbn [last_arg Ascii.eqb Bool.eqb o_verbosity o_method o_type o_reader o_range o_threshold o_filter o_offset o_nframes o_progress]; (assumption || reflexivity)|];
    split; [intros [F|[F|[F|[(F & _)|(F & _)]]]]; discriminate F|]; split; [discriminate|]; cbn [o_found]; split; [auto|]; intros [F|F]; [exact F|discriminate F]).
  - (* R *) destruct (fnd || _) eqn:FD; [|discriminate]. intros Q. inversion Q; subst o'. clear Q. split.
    { split; rewrite ?last_arg_app; cbn [last_arg Ascii.eqb Bool.eqb o_verbosity o_method o_type o_reader o_range o_threshold o_filter o_offset o_nframes o_progress]; (assumption || reflexivity). }
    split; [intros [F|[F|[F|[(F & _)|(F & _)]]]]; discriminate F|]. apply orb_prop in FD. rewrite named_spec in FD. split; [auto|]. cbn [o_found]. tauto.
  - (* o *) destruct (strtoull a) as [k|] eqn:EK; [|discriminate]. intros Q. inversion Q; subst o'. clear Q. split.
    { split; rewrite ?last_arg_app; cbn [last_arg Ascii.eqb Bool.eqb o_verbosity o_method o_type o_reader o_range o_threshold o_filter o_offset o_nframes o_progress]; (assumption || reflexivity). }
    split; [intros [F|[F|[F|[(_ & F)|(F & _)]]]]; try discriminate F; congruence|]. split; [discriminate|]. cbn [o_found]. split; [auto|]. intros [F|F]; [exact F|discriminate F].
  - (* n *) destruct (strtoull a) as [k|] eqn:EK; [|discriminate]. destruct (Z.eqb_spec k 0) as [|NZ]; [discriminate|]. cbn [negb]. intros Q. inversion Q; subst o'. clear Q. split.
    { split; rewrite ?last_arg_app; cbn [last_arg Ascii.eqb Bool.eqb o_verbosity o_method o_type o_reader o_range o_threshold o_filter o_offset o_nframes o_progress]; try (assumption || reflexivity). auto. }
    split; [intros [F|[F|[F|[(F & _)|(_ & [F|F])]]]]; try discriminate F; congruence|]. split; [discriminate|]. cbn [o_found]. split; [auto|]. intros [F|F]; [exact F|discriminate F].
Qed.

(** the readers named: the first one must exist *)
Lemma options_taken R c self : forall evs evs0 o o', last_wins evs0 o -> take_options R c self evs o = inr o' ->
  last_wins (evs0 ++ evs) o' /\ Forall (fun e => ~ fatal e) evs /\
  (forall l a, (exists l', evs = l ++ Opt "R" a :: l') -> (forall b, ~ In (Opt "R" b) l) -> o_found o = true \/ reader_named R a).
Proof.
  induction evs as [|[d a] evs IH]; intros evs0 o o' LW TO; cbn [take_options] in TO.
  - inversion TO; subst. rewrite app_nil_r. split; [exact LW|]. split; [constructor|]. intros l a (l' & Q). destruct l; discriminate Q.
  - destruct (take_option R c self (Opt d a) o) as [x|o1] eqn:T1; [discriminate|]. destruct (one_option _ _ _ _ _ _ _ _ LW T1) as (LW1 & NF & RN & FD).
    destruct (IH _ _ _ LW1 TO) as (LW2 & NFs & RNs). rewrite <- app_assoc in LW2. split; [exact LW2|]. split; [constructor; assumption|].
    intros l b (l' & Q) NI. destruct l as [|e l].
    + inversion Q; subst. apply RN. reflexivity.
    + inversion Q; subst e evs. assert (ND : d <> "R"%char). { intros ->. apply (NI a). left. reflexivity. }
      destruct (RNs l b) as [F|F]; [exists l'; reflexivity|intros b' I; apply (NI b'); right; exact I| |right; exact F].
      apply FD in F. destruct F as [F|F]; [left; exact F|contradiction].
Qed.
Lemma no_options : last_wins [] no_opts.
Proof. split; reflexivity. Qed.

(** conversely, options that are not fatal are taken *)
Lemma options_accepted R c self : forall evs o, Forall (fun e => ~ fatal e) evs ->
  (forall l a, (exists l', evs = l ++ Opt "R" a :: l') -> (forall b, ~ In (Opt "R" b) l) -> o_found o = true \/ reader_named R a) ->
  exists o', take_options R c self evs o = inr o'.
Proof.
  induction evs as [|[d a] evs IH]; intros o NF RN; [eexists; reflexivity|]. cbn [take_options]. inversion NF as [|? ? NF1 NF2]; subst.
  assert (T1 : exists o1, take_option R c self (Opt d a) o = inr o1 /\ (o_found o = true -> o_found o1 = true) /\ (d = "R"%char -> o_found o1 = true)).
  { rewrite take_kind. destruct (kind_char d) as [(_ & KB)|(NB & DC)].
    { elim NF1. right. right. left. exact KB. }
    destruct (kind_of d) eqn:KD; try congruence; rewrite DC in NF1, RN |- *; cbn [char_of] in *; clear KD DC; destruct o as [v m t r rg th f off n p fnd]; cbn [by_kind o_found] in *.
    all: try (eexists; split; [reflexivity|]; split; [auto|discriminate]).
    - assert (Q : fnd || existsb (fun name => strcaseeq name a) (resdet_list_image_readers R) = true).
      { destruct (RN [] a) as [F|F]; [exists evs; reflexivity|intros b []| |].
        - rewrite F. reflexivity.
        - apply named_spec in F. rewrite F. apply orb_true_r. }
      rewrite Q. eexists. split; [reflexivity|]. cbn [o_found]. auto.
    - destruct (strtoull a) as [k|] eqn:EK; [eexists; split; [reflexivity|]; split; [auto|discriminate]|]. elim NF1. cbn. auto 6.
    - destruct (strtoull a) as [k|] eqn:EK; [|elim NF1; cbn; auto 8]. destruct (Z.eqb_spec k 0) as [->|NZ]; [elim NF1; cbn; auto 8|].
      eexists; split; [reflexivity|]; split; [auto|discriminate].
    - elim NF1. cbn. auto.
    - elim NF1. cbn. auto. }
  destruct T1 as (o1 & -> & F1 & F2). apply IH; [exact NF2|]. intros l b (l' & ->) NI.
  destruct (ascii_dec d "R") as [->|ND]; [left; apply F2; reflexivity|].
  destruct (RN (Opt d a :: l) b) as [F|F]; [exists l'; reflexivity|intros b' [Q|I]; [inversion Q; congruence|exact (NI b' I)]|left; auto|right; exact F].
Qed.

(** ** Parameters *)
Lemma set_params_ok p s : exists e p', set_param (Some p) s = (e, Some p') /\ (e <> 0 -> p' = p).
Proof.
  destruct s as [v|v|v]; cbn [set_param]; unfold resdet_parameters_set_range, resdet_parameters_set_threshold, resdet_parameters_set_compression_filter;
    repeat match goal with |- context [if ?b then _ else _] => destruct b end; eexists _, _; (split; [reflexivity|]); (reflexivity || (intros Q; elim Q; reflexivity)).
Qed.
Definition good (l : list setting) (p p' : params) : Prop := set_all (Some p) l = (repeat RDEOK (length l), Some p').
Lemma good_app l l' p p' : good (l ++ l') p p' <-> exists p1, good l p p1 /\ good l' p1 p'.
Proof.
  unfold good. rewrite set_all_app. split.
  - intros Q. destruct (set_all (Some p) l) as [es o1] eqn:E1. destruct (set_all o1 l') as [es' o2] eqn:E2. inversion Q; subst o2.
    assert (LN : forall l p es o, set_all p l = (es, o) -> length es = length l).
    { clear. induction l as [|s l IH]; intros p es o; cbn [set_all]; [intros Q; inversion Q; reflexivity|]. destruct (set_param p s). destruct (set_all _ l) eqn:E. intros Q; inversion Q; subst. cbn. f_equal. eapply IH. exact E. }
    pose proof (LN _ _ _ _ E1) as L1. pose proof (LN _ _ _ _ E2) as L2. rewrite app_length, repeat_app in H0.
    assert (A : es = repeat RDEOK (length l) /\ es' = repeat RDEOK (length l')).
    { revert H0 L1. generalize (repeat_length RDEOK (length l)). generalize (repeat RDEOK (length l)). clear. intros q LQ H L1. 
      assert (L : length es = length q) by congruence. clear - H L. revert q H L. induction es as [|a es IH]; intros [|b q] H L; try discriminate L; cbn in *; [auto|].
      inversion H; subst. destruct (IH q) as (-> & ->); auto. }
    destruct A as (-> & ->). destruct o1 as [p1|]; [eauto|].
    exfalso. revert E1. generalize (repeat RDEOK (length l)). clear. revert p. induction l as [|s l IH]; intros p es; cbn [set_all]; [discriminate|].
    destruct (set_params_ok p s) as (e & p1 & -> & _). destruct (set_all (Some p1) l) as [es1 o] eqn:E. intros Q. inversion Q; subst. eapply IH. exact E.
  - intros (p1 & Q1 & Q2). rewrite Q1, Q2. rewrite app_length, repeat_app. reflexivity.
Qed.
Lemma good_one s p p' : good [s] p p' <-> set_param (Some p) s = (RDEOK, Some p').
Proof. unfold good. cbn [set_all length repeat]. destruct (set_param (Some p) s) as [e o]. split; intros Q; inversion Q; reflexivity. Qed.

Lemma option_params_spec T o p p' : option_params T o p = inr p' <-> exists l, asked_settings T o l /\ good l p p'.
Proof.
  (* each of the three steps *)
  assert (STEP : forall (arg : option string) A (conv : string -> option A) mk set (err : string -> list piece),
    (forall p v, set_param (Some p) (mk v) = set p v) -> forall p p1,
    match arg with
    | None => inr p
    | Some a => match conv a with None => inl (err a) | Some v => match set p v with (0, Some p) => inr p | _ => inl (err a) end end
    end = inr p1 <-> exists l, asked arg conv mk l /\ good l p p1).
  { intros arg A conv mk set err ST q p1. unfold asked. destruct arg as [a|].
    - destruct (conv a) as [v|] eqn:CV.
      + rewrite <- ST. split.
        * intros Q. exists [mk v]. split; [exists v; auto|]. apply good_one. destruct (set_param (Some q) (mk v)) as [[| |] [p2|]]; try discriminate Q. inversion Q; reflexivity.
        * intros (l & (v' & Q & ->) & G). inversion Q; subst v'. apply good_one in G. rewrite G. reflexivity.
      + split; [discriminate|]. intros (l & (v & Q & _) & _). discriminate Q.
    - split; [intros Q; inversion Q; subst; exists []; split; reflexivity|]. intros (l & -> & G). inversion G; reflexivity. }
  unfold option_params, asked_settings.
  set (SX := match o_threshold o with Some _ => _ | None => _ end).
  assert (HX : forall p1, SX = inr p1 <-> exists l, asked (o_threshold o) (t_strtod T) (fun d => Threshold (f32_of_f64 (ddiv d (f64_of_Z 100)))) l /\ good l p p1).
  { intros p1. apply (STEP (o_threshold o) _ (t_strtod T) (fun d => Threshold (f32_of_f64 (ddiv d (f64_of_Z 100)))) (fun p d => resdet_parameters_set_threshold (Some p) (f32_of_f64 (ddiv d (f64_of_Z 100)))) (fun arg => [Str "Invalid threshold value "; Str arg; Str newline])). reflexivity. }
  destruct SX as [x|p1].
  { split; [discriminate|]. intros (l & (lx & lr & lf & -> & AX & _) & G). apply good_app in G. destruct G as (p1 & G & _).
    destruct (HX p1) as (_ & Q). discriminate Q. exists lx. auto. }
  match goal with |- match ?r with inl _ => _ | inr _ => _ end = _ <-> _ => set (SR := r) end.
  assert (HR : forall p2, SR = inr p2 <-> exists l, asked (o_range o) strtoull Range l /\ good l p1 p2).
  { intros p2. apply (STEP (o_range o) _ strtoull Range (fun p v => resdet_parameters_set_range (Some p) v) (fun arg => [Str "Invalid range value "; Str arg; Str newline])). reflexivity. }
  destruct (proj1 (HX p1) eq_refl) as (lx & AX & GX).
  assert (UX : forall lx' q, asked (o_threshold o) (t_strtod T) (fun d => Threshold (f32_of_f64 (ddiv d (f64_of_Z 100)))) lx' -> good lx' p q -> q = p1).
  { intros lx' q A G. destruct (HX q) as (_ & Q). assert (Z : @inr (list piece) params p1 = inr q) by (apply Q; eauto). inversion Z. reflexivity. }
  destruct SR as [x|p2].
  { split; [discriminate|]. intros (l & (lx' & lr & lf & -> & AX' & AR & _) & G). apply good_app in G. destruct G as (q & G & G'). rewrite (UX _ _ AX' G) in G'.
    apply good_app in G'. destruct G' as (q2 & G1 & _). destruct (HR q2) as (_ & Q). discriminate Q. eauto. }
  destruct (proj1 (HR p2) eq_refl) as (lr & AR & GR).
  assert (UR : forall lr' q, asked (o_range o) strtoull Range lr' -> good lr' p1 q -> q = p2).
  { intros lr' q A G. destruct (HR q) as (_ & Q). assert (Z : @inr (list piece) params p2 = inr q) by (apply Q; eauto). inversion Z. reflexivity. }
  match goal with |- ?f = _ <-> _ => set (SF := f) end.
  assert (HF : forall p3, SF = inr p3 <-> exists l, asked (if match o_filter o with Some a => String.eqb a "auto" | None => false end then None else o_filter o) byte_of Filter l /\ good l p2 p3).
  { intros p3. rewrite <- (STEP _ _ byte_of Filter (fun p v => resdet_parameters_set_compression_filter (Some p) v) (fun arg => [Str "Invalid filter value "; Str arg; Str newline])) by reflexivity.
    unfold SF. destruct (o_filter o) as [a|]; [|reflexivity]. destruct (String.eqb a "auto"); [reflexivity|]. unfold byte_of.
    destruct (strtoull a) as [v|]; [|reflexivity]. destruct (Z.gtb_spec v 255), (Z.leb_spec v 255); try lia; reflexivity. }
  rewrite HF. split.
  - intros (lf & AF & GF). exists (lx ++ lr ++ lf). split; [exists lx, lr, lf; auto|]. apply good_app. exists p1. split; [exact GX|]. apply good_app. eauto.
  - intros (l & (lx' & lr' & lf & -> & AX' & AR' & AF) & G). apply good_app in G. destruct G as (q1 & G1 & G). rewrite (UX _ _ AX' G1) in G.
    apply good_app in G. destruct G as (q2 & G2 & G). rewrite (UR _ _ AR' G2) in G. eauto.
Qed.

Lemma asked_typed T o l : asked_settings T o l -> Forall typed l.
Proof.
  intros (lx & lr & lf & -> & AX & AR & AF). rewrite !Forall_app. unfold asked in *. split; [|split].
  - destruct (o_threshold o); [destruct AX as (v & _ & ->); repeat constructor|subst; constructor].
  - destruct (o_range o); [destruct AR as (v & Q & ->)|subst; constructor]. constructor; [|constructor]. cbn. exact (strtoull_range _ _ Q).
  - match type of AF with match ?m with _ => _ end => destruct m end; [destruct AF as (v & Q & ->)|subst; constructor]. constructor; [|constructor].
    unfold byte_of in Q. destruct (strtoull s) as [v'|] eqn:E; [|discriminate]. destruct (Z.leb_spec v' 255); [|discriminate]. inversion Q; subst. cbn.
    apply strtoull_range in E. lia.
Qed.
Lemma client_good c p l p' : client_params c (Some p) -> Forall typed l -> good l p p' -> client_params c (Some p').
Proof.
  intros [Q|(l0 & es & T & Q)] TL G; [discriminate|]. right. exists (l0 ++ l), (es ++ repeat RDEOK (length l)). split; [apply Forall_app; auto|].
  rewrite set_all_app, Q. rewrite G. reflexivity.
Qed.
Lemma auto_params c o input p : client_params c (Some p) -> client_params c (Some (auto_filter o input p)).
Proof.
  intros C. unfold auto_filter. destruct (o_filter o) as [f|]; [|exact C].
  assert (B : client_params c (Some (match after_last dot input with Some e => match snd (resdet_parameters_set_compression_filter (Some p) (auto_factor ("." ++ e))) with Some p => p | None => p end | None => p end))).
  { destruct (after_last dot input) as [e|]; [|exact C]. set (v := auto_factor _).
    assert (V : 0 <= v < 256). { unfold v, auto_factor. repeat match goal with |- context [if ?b then _ else _] => destruct b end; lia. }
    destruct (set_params_ok p (Filter v)) as (e1 & p1 & SP & _). pose proof (client_set c p (Filter v) e1 (Some p1) C V SP) as C1. cbn [set_param] in SP. rewrite SP. exact C1. }
  destruct (string_dec f "auto") as [->|N]; [exact B|].
  match goal with |- client_params _ (Some ?t) => assert (Q : t = p); [|rewrite Q; exact C] end.
  destruct f as [|[[] [] [] [] [] [] [] []] f]; try reflexivity. destruct f as [|[[] [] [] [] [] [] [] []] f]; try reflexivity.
  destruct f as [|[[] [] [] [] [] [] [] []] f]; try reflexivity. destruct f as [|[[] [] [] [] [] [] [] []] f]; try reflexivity.
  destruct f as [|]; [elim N; reflexivity|reflexivity].
Qed.

Lemma after_dot input : after_last dot input = None \/ exists base ext, input = (base ++ "." ++ ext)%string /\ without "."%char ext /\ after_last dot input = Some ext.
Proof.
  destruct (after_last dot input) as [e|] eqn:A; [right|left; reflexivity]. destruct (after_last_split _ _ _ A) as (b & Q & N). exists b, e. split; [exact Q|]. split; [exact N|reflexivity].
Qed.
Lemma auto_factor_ok ext : (forall e v, In (e, v) auto_table -> same_nocase e ext -> auto_factor ext = v) /\
  ((forall e v, In (e, v) auto_table -> ~ same_nocase e ext) -> auto_factor ext = 0).
Proof.
  assert (SY : forall a b, same_nocase a b -> same_nocase b a) by (intros a b Q; symmetry; exact Q).
  assert (F : forall e, strcaseeq ext e = true <-> same_nocase e ext) by (intros e; rewrite strcaseeq_spec; split; apply SY).
  assert (D : forall e e', same_nocase e ext -> strcaseeq e e' = false -> strcaseeq ext e' = false).
  { intros e e' Q N. destruct (strcaseeq ext e') eqn:Q'; [|reflexivity]. apply strcaseeq_spec in Q'. assert (same_nocase e e') by (transitivity (map lower (chars ext)); assumption).
    apply strcaseeq_spec in H. congruence. }
  split.
  - intros e v I S. unfold auto_factor. pose proof (proj2 (F e) S) as T. cbn in I.
    repeat destruct I as [I|I]; try contradiction; inversion I; subst; clear I; rewrite ?T, ?orb_true_r;
    repeat match goal with |- context [strcaseeq ext ?x] => rewrite (D _ x S) by reflexivity end; reflexivity.
  - intros NO. assert (G : forall e v, In (e, v) auto_table -> strcaseeq ext e = false).
    { intros e v I. destruct (strcaseeq ext e) eqn:Q; [|reflexivity]. apply F in Q. elim (NO e v I Q). }
    unfold auto_factor. rewrite (G ".avif" 5), (G ".heic" 5), (G ".webp" 2), (G ".webm" 2), (G ".jpeg" 3), (G ".jpg" 3), (G ".mp4" 3), (G ".mkv" 3) by (cbn; intuition). reflexivity.
Qed.
Lemma auto_filter_other o input p : o_filter o <> Some "auto" -> auto_filter o input p = p.
Proof.
  intros N. unfold auto_filter. destruct (o_filter o) as [f|]; [|reflexivity].
  destruct f as [|[[] [] [] [] [] [] [] []] f]; try reflexivity. destruct f as [|[[] [] [] [] [] [] [] []] f]; try reflexivity.
  destruct f as [|[[] [] [] [] [] [] [] []] f]; try reflexivity. destruct f as [|[[] [] [] [] [] [] [] []] f]; try reflexivity.
  destruct f as [|]; [elim N; reflexivity|reflexivity].
Qed.
Lemma auto_filter_ok o input p :
  (o_filter o <> Some "auto" -> auto_filter o input p = p) /\
  (o_filter o = Some "auto" -> without "."%char input -> auto_filter o input p = p) /\
  (forall base ext, o_filter o = Some "auto" -> input = (base ++ "." ++ ext)%string -> without "."%char ext ->
     p_range (auto_filter o input p) = p_range p /\ p_threshold (auto_filter o input p) = p_threshold p /\
     (forall e v, In (e, v) auto_table -> same_nocase e ("." ++ ext)%string -> p_filter (auto_filter o input p) = v) /\
     ((forall e v, In (e, v) auto_table -> ~ same_nocase e ("." ++ ext)%string) -> p_filter (auto_filter o input p) = 0)).
Proof.
  split; [apply auto_filter_other|]. split.
  - intros F W. unfold auto_filter. rewrite F, (proj2 (after_last_none dot input) W). reflexivity.
  - intros base ext F -> W. unfold auto_filter. rewrite F. change (base ++ "." ++ ext)%string with (base ++ String dot ext)%string.
    rewrite (after_last_some dot base ext W). destruct (auto_factor_ok ("." ++ ext)%string) as (A & B).
    assert (V : auto_factor ("." ++ ext)%string <= 31). { unfold auto_factor. repeat match goal with |- context [if ?b then _ else _] => destruct b end; lia. }
    unfold resdet_parameters_set_compression_filter. destruct (Z.gtb_spec (auto_factor ("." ++ ext)%string) (4 * 8 - 1)); [lia|]. cbn [snd p_range p_threshold p_filter]. auto.
Qed.
