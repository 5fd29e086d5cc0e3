(** Settings, refusals and installed files. *)
From Coq Require Import Ascii String Lia.
From Verif Require Import Base Flt Util Methods Stdio Pgm Y4m Image Precision Build SpecBuild BuildProofs BuildResultProofs.
Import ListNotations.
Open Scope list_scope.
Open Scope Z_scope.

(** ** Values in #if *)
Lemma is_letter_iff c : is_letter c = true <-> 65 <= c <= 90 \/ 97 <= c <= 122 \/ c = 95.
Proof. unfold is_letter. rewrite !Bool.orb_true_iff, !Bool.andb_true_iff, !Z.leb_le, Z.eqb_eq. lia. Qed.
Lemma decimal_value s n : is_decimal s n -> cpp_value s = Some n.
Proof.
  intros (d & ds & C & D & F & ->). unfold cpp_value.
  assert (X : forall t, chars t = [70] \/ chars t = [68] \/ chars t = [76] -> String.eqb s t = false).
  { intros t H. apply String.eqb_neq. intros ->. rewrite C in H. cbn [map] in H.
    destruct H as [H|[H|H]]; apply (f_equal (fun l => nth 0 l 0)) in H; cbn [nth] in H; lia. }
  rewrite !X by (vm_compute; intuition). rewrite C. cbn [map].
  assert (L : is_letter (48 + d) = false). { destruct (is_letter (48 + d)) eqn:E; [|reflexivity]. apply is_letter_iff in E. lia. }
  rewrite L. cbn [andb].
  assert (G : forallb is_digit ((48 + d) :: map (fun d => 48 + d) ds) = true).
  { apply forallb_forall. intros c [<-|I]; unfold is_digit; apply Bool.andb_true_iff; rewrite !Z.leb_le; [lia|].
    apply in_map_iff in I. destruct I as (e & <- & I). rewrite Forall_forall in F. specialize (F e I). lia. }
  rewrite G. cbn [andb]. destruct (Z.eqb_spec (48 + d) 48); [lia|]. cbn [negb orb]. f_equal.
  change ((48 + d) :: map (fun d => 48 + d) ds) with (map (fun d => 48 + d) (d :: ds)).
  unfold digits_value. generalize (d :: ds) at 1 2. generalize 0. clear.
  intros a l. revert a. induction l as [|d l IH]; intros a; [reflexivity|]. cbn [map fold_left]. rewrite IH. f_equal. lia.
Qed.
Lemma other_value s : other_name s -> cpp_value s = Some 0.
Proof.
  intros (N & F & D & L & A). unfold cpp_value.
  apply String.eqb_neq in F, D, L. rewrite F, D, L.
  destruct (chars s) as [|c l] eqn:C.
  - destruct s; [contradiction|]. cbn in C. discriminate.
  - inversion A as [|? ? H1 H2]. subst.
    assert (L1 : is_letter c = true) by (apply is_letter_iff; lia). rewrite L1.
    assert (L2 : forallb (fun c => is_letter c || is_digit c) l = true).
    { apply forallb_forall. intros e I. rewrite Forall_forall in H2. specialize (H2 e I).
      apply Bool.orb_true_iff. left. apply is_letter_iff. lia. }
    rewrite L2. reflexivity.
Qed.

Section Settings.
Context {M : machine} {env : vars} {args : list string} {old : option mak} {k : mak} (rn : run M env args old k).
Notation V := (completed M (rn_args rn) (rn_triple rn)).

Lemma setting_hidden opt x s : setting args env opt x s -> s = ""%string -> env x = ""%string.
Proof. intros [l r a _ _ H|N] E; [apply H, E|exact E]. Qed.
Lemma value_macro x opt s : assigns x opt -> plain opt = true -> initial env x = env x ->
  In x ["DEFAULT_RANGE"; "COEFF_PRECISION"; "INTER_PRECISION"; "PIXEL_MAX"]%string ->
  (line (k:=k) x = if empty (V x) then None else Some (V x)) ->
  setting args env opt x s -> macro (macros env k) x = if empty s then None else Some s.
Proof.
  intros A P I J L S. rewrite (def_var rn x J). unfold ifdef. rewrite mkvar_line, L.
  assert (N : V x = s).
  { apply (set_value rn x opt s A P I); [|exact S]. destruct J as [<-|[<-|[<-|[<-|[]]]]]; not_in. }
  rewrite N. destruct (empty s) eqn:E.
  - apply String.eqb_eq in E. rewrite (setting_hidden _ _ _ S E). reflexivity.
  - rewrite E. reflexivity.
Qed.
Lemma coeff_macro s : setting args env "--coeff-precision" "COEFF_PRECISION" s ->
  macro (macros env k) "COEFF_PRECISION" = (if empty s then None else Some s) /\ V "COEFF_PRECISION"%string = s.
Proof.
  intros S. split.
  - apply (value_macro "COEFF_PRECISION" "--coeff-precision" s); [apply assigns_coeff|reflexivity|reflexivity|cbn; tauto|apply (line_coeff rn)|exact S].
  - apply (set_value rn _ "--coeff-precision"); [apply assigns_coeff|reflexivity|reflexivity|not_in|exact S].
Qed.
Lemma inter_macro s : setting args env "--inter-precision" "INTER_PRECISION" s ->
  macro (macros env k) "INTER_PRECISION" = if empty s then None else Some s.
Proof.
  intros S. apply (value_macro "INTER_PRECISION" "--inter-precision" s); [apply assigns_inter|reflexivity|reflexivity|cbn; tauto|apply (line_inter rn)|exact S].
Qed.
Lemma range_macro s : setting args env "--default-range" "DEFAULT_RANGE" s ->
  macro (macros env k) "DEFAULT_RANGE" = if empty s then None else Some s.
Proof.
  intros S. apply (value_macro "DEFAULT_RANGE" "--default-range" s); [apply assigns_range|reflexivity|reflexivity|cbn; tauto|apply (line_range rn)|exact S].
Qed.
Lemma pixel_macro s : setting args env "--pixel-max" "PIXEL_MAX" s ->
  macro (macros env k) "PIXEL_MAX" = if empty s then None else Some s.
Proof.
  intros S. apply (value_macro "PIXEL_MAX" "--pixel-max" s); [apply assigns_pixel|reflexivity|reflexivity|cbn; tauto|apply (line_pixel rn)|exact S].
Qed.

(** ** Precisions *)
Lemma coeff_value s p : setting args env "--coeff-precision" "COEFF_PRECISION" s -> means_precision PF s p ->
  value_or (macros env k) "COEFF_PRECISION" 1 = Some (precision_code p) /\
  fftw_module (V "COEFF_PRECISION"%string) = fftw_library p /\
  kiss_scalar (macros env k) = Some (match p with PF => PF | PD | PL => PD end).
Proof.
  intros S D. destruct (coeff_macro s S) as [E F]. unfold value_or, kiss_scalar. rewrite E, (def_scalar rn), F.
  destruct D as [[-> ->]|[[-> ->]|[[-> ->]|[-> ->]]]]; repeat split; reflexivity.
Qed.
Lemma inter_value s p : setting args env "--inter-precision" "INTER_PRECISION" s -> means_precision PD s p ->
  value_or (macros env k) "INTER_PRECISION" 2 = Some (precision_code p).
Proof.
  intros S D. unfold value_or. rewrite (inter_macro s S).
  destruct D as [[-> ->]|[[-> ->]|[[-> ->]|[-> ->]]]]; reflexivity.
Qed.
Lemma precisions s t p q : setting args env "--coeff-precision" "COEFF_PRECISION" s -> means_precision PF s p ->
  setting args env "--inter-precision" "INTER_PRECISION" t -> means_precision PD t q ->
  coeff_precision (macros env k) = Some p /\ intermediate_precision (macros env k) = Some (finer p q).
Proof.
  intros S P T Q. unfold coeff_precision, intermediate_precision. destruct (coeff_value s p S P) as (-> & _ & _).
  rewrite (inter_value t q T Q). destruct p, q; split; reflexivity.
Qed.
Lemma backend_fftw s p : versioned M -> unset env result_names ->
  setting args env "--coeff-precision" "COEFF_PRECISION" s -> means_precision PF s p ->
  (ifdef env k "HAVE_FFTW" = true <->
   available M (fftw_library p) /\ ~ asked args "--disable-fftw" /\ ~ asked args "--disable-everything").
Proof.
  intros ve un S P. destruct (coeff_value s p S P) as (_ & E & _).
  rewrite (if_fftw rn ve un), E, (want_fftw rn), if_none. apply two_iff; reflexivity.
Qed.

(** ** Limits *)
Lemma number_value x d s n : macro (macros env k) x = (if empty s then None else Some s) -> means_number d s n ->
  value_or (macros env k) x d = Some n.
Proof.
  intros E D. unfold value_or. rewrite E. destruct D as [[-> ->]|D]; [reflexivity|].
  pose proof (decimal_value s n D) as V. destruct (empty s) eqn:Z.
  - apply String.eqb_eq in Z. subst s. discriminate V.
  - exact V.
Qed.

(** ** The warning *)
Lemma warned : unset env result_names -> x_warned (configure M env args old) = true <->
  resdet_list_image_readers (readers_built (macros env k)) = [].
Proof.
  intros un. rewrite (rn_warned rn). cbv zeta. unfold warns.
  assert (D : existsb (fun '(x, _) => existsb (fun h => contains h x) ["HAVE_MAGICKWAND"; "HAVE_LIBPNG"; "HAVE_LIBJPEG"; "HAVE_FFMPEG"]%string) (mak_defs M V) =
              defined (macros env k) "HAVE_LIBJPEG" || defined (macros env k) "HAVE_LIBPNG" ||
              defined (macros env k) "HAVE_MAGICKWAND" || defined (macros env k) "HAVE_FFMPEG").
  { rewrite !defined_some, (def_libjpeg rn), (def_libpng rn), (def_magick rn), (def_ffmpeg rn), some_map.
    unfold mak_defs, scalar_defs. cbn [libraries natives flat_map].
    repeat rewrite existsb_app.
    generalize (wanted M V "with_libjpeg" "libjpeg") (wanted M V "with_libpng" "libpng") (wanted M V "with_MagickWand" "MagickWand")
               (wanted M V "with_ffmpeg" ffmpeg_modules).
    intros w1 w2 w3 w4.
    repeat match goal with
    | |- context[existsb ?f (match ?o with Some _ => _ | None => _ end)] =>
        first [replace (existsb f (match o with Some _ => _ | None => _ end)) with false by (destruct o; reflexivity)|fail 1]
    end.
    repeat match goal with
    | |- context[existsb ?f (if ?o then ?a else [])] =>
        replace (existsb f (if o then a else [])) with false by (destruct o; reflexivity)
    end.
    destruct w1, w2, w3, w4; reflexivity. }
  rewrite D. cbn [natives forallb]. rewrite (omit_pgm rn), (omit_pfm rn), (omit_y4m rn).
  unfold resdet_list_image_readers, readers_built. cbn [r_pgm r_pfm r_y4m r_libjpeg r_libpng r_ffmpeg r_magickwand].
  rewrite (defined_some (macros env k) "OMIT_PGM_READER"), (defined_some (macros env k) "OMIT_PFM_READER"), (defined_some (macros env k) "OMIT_Y4M_READER").
  rewrite (def_pgm rn), (def_pfm rn), (def_y4m rn), !some_if, (omit_pgm rn), (omit_pfm rn), (omit_y4m rn).
  generalize (existsb (mentions ["--omit-pgm-reader"%string]) args) (existsb (mentions ["--omit-pfm-reader"%string]) args)
             (existsb (mentions ["--omit-y4m-reader"%string]) args) (defined (macros env k) "HAVE_LIBJPEG") (defined (macros env k) "HAVE_LIBPNG")
             (defined (macros env k) "HAVE_MAGICKWAND") (defined (macros env k) "HAVE_FFMPEG").
  clear. intros [] [] [] [] [] [] []; cbn; split; intros H; first [reflexivity|discriminate].
Qed.
End Settings.

(** ** Refusals *)
Lemma find_table p a : (exists e, find (fun e => String.eqb p (fst e)) (option_table a) = Some e) <-> In p option_names.
Proof.
  assert (E : map fst (option_table a) = option_names) by reflexivity. rewrite <- E. generalize (option_table a). clear.
  induction l as [|[x y] l IH]; cbn [find map fst In]; [split; [intros [e H]; discriminate|intros []]|].
  destruct (String.eqb_spec p x) as [<-|N].
  - split; [intros _; left; reflexivity|intros _; eexists; reflexivity].
  - rewrite IH. intuition congruence.
Qed.
Lemma option_names_plain : forallb plain option_names = true. Proof. reflexivity. Qed.
Lemma recognised_iff o : recognised o <-> In (opt_of o) option_names.
Proof.
  split.
  - intros (opt & I & N). apply opt_names in N; [rewrite N; exact I|]. pose proof option_names_plain as P. rewrite forallb_forall in P. apply P, I.
  - intros I. exists (opt_of o). split; [exact I|apply names_opt].
Qed.
Lemma not_help o : recognised o -> String.eqb (opt_of o) "--help" = false.
Proof.
  intros R. apply recognised_iff in R. apply String.eqb_neq. intros E. rewrite E in R.
  repeat (destruct R as [R|R]; [discriminate R|]). exact R.
Qed.
Lemma take_known l : Forall recognised l -> forall r v, exists v', take_args (l ++ r) v = take_args r v'.
Proof.
  induction 1 as [|o l R H IH]; intros r v; [exists v; reflexivity|]. cbn [app take_args]. rewrite not_help by exact R.
  apply recognised_iff in R. apply (find_table _ (arg_of o)) in R. destruct R as [e ->]. apply IH.
Qed.
Lemma refuses M env l o r old : Forall recognised l -> ~ recognised o -> ~ names o "--help" ->
  configure M env (l ++ o :: r) old = mkConfigured 1 old false.
Proof.
  intros R N H. unfold configure. destruct (take_known l R (o :: r) (initial env)) as [v ->]. cbn [take_args].
  assert (E : String.eqb (opt_of o) "--help" = false).
  { apply String.eqb_neq. intros E. apply H, opt_names; [reflexivity|exact E]. }
  rewrite E. destruct (find _ _) as [e|] eqn:F; [|reflexivity].
  destruct N. apply recognised_iff, (find_table _ (arg_of o)). exists e. exact F.
Qed.
Lemma accepts M env args old : Forall recognised args ->
  (forall v, exists t, h_triple M v = Some t) -> (forall x, exists p, h_command M x = Some p) -> (forall l, exists s, h_libs M l = Some s) ->
  exists k, configures M env args old k.
Proof.
  intros R HT HC HL.
  assert (NH : ~ asked args "--help").
  { intros (o & I & N). rewrite Forall_forall in R. specialize (R o I). apply not_help in R.
    apply opt_names in N; [|reflexivity]. rewrite N in R. discriminate R. }
  destruct (take_known args R [] (initial env)) as [v T]. rewrite app_nil_r in T. cbn [take_args] in T.
  unfold configures, configure. rewrite T.
  destruct (HC (v "CC"%string)) as [p1 ->], (HC (v "AR"%string)) as [p2 ->], (HC "pkg-config"%string) as [p3 ->].
  cbn [negb orb]. rewrite Bool.andb_false_r. destruct (HT (v "CC"%string)) as [t ->]. 
  destruct (pc_deps M (completed M v t)) as [|d ds] eqn:PD.
  - eexists. split; [reflexivity|]. split; [reflexivity|exact NH].
  - destruct (HL (d :: ds)) as [s ->]. eexists. split; [reflexivity|]. split; [reflexivity|exact NH].
Qed.
