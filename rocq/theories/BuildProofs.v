(** Proofs about configuring, building and installing. *)
From Coq Require Import Ascii String Lia.
From Verif Require Import Base Flt Util Methods Stdio Pgm Y4m Image Precision Build SpecBuild.
Import ListNotations.
Open Scope list_scope.
Open Scope Z_scope.

(** ** Variables *)
Lemma set_all_app l1 l2 v : set_all (l1 ++ l2) v = set_all l2 (set_all l1 v).
Proof. unfold set_all. apply fold_left_app. Qed.
Lemma setv_same v x a : setv v x a x = a.
Proof. unfold setv. rewrite String.eqb_refl. reflexivity. Qed.
Lemma setv_other v x y a : y <> x -> setv v x a y = v y.
Proof. intros N. unfold setv. apply String.eqb_neq in N. rewrite N. reflexivity. Qed.
Lemma set_all_other l : forall v x, ~ In x (map fst l) -> set_all l v x = v x.
Proof.
  induction l as [|[y a] l IH]; intros v x N; [reflexivity|]. cbn [map fst In] in N.
  change (set_all l (setv v y a) x = v x). rewrite IH by intuition. apply setv_other. intuition.
Qed.
(** the last value a list of assignments gives to a variable *)
Fixpoint last_of (x : string) (l : list (string * string)) : option string :=
  match l with
  | [] => None
  | (y, a) :: l => match last_of x l with Some b => Some b | None => if String.eqb x y then Some a else None end
  end.
Lemma set_all_last l : forall v x, set_all l v x = match last_of x l with Some a => a | None => v x end.
Proof.
  induction l as [|[y a] l IH]; intros v x; [reflexivity|]. cbn [last_of].
  change (set_all l (setv v y a) x = match (match last_of x l with Some b => Some b | None => if String.eqb x y then Some a else None end) with Some b => b | None => v x end).
  rewrite IH. destruct (last_of x l) as [b|]; [reflexivity|]. unfold setv. destruct (String.eqb x y); reflexivity.
Qed.

(** ** Arguments *)
Definition assigned (x o : string) : option string :=
  match find (fun e => String.eqb (opt_of o) (fst e)) (option_table (arg_of o)) with
  | Some e => last_of x (snd e)
  | None => None
  end.
Fixpoint final (x : string) (l : list string) (d : string) : string :=
  match l with
  | [] => d
  | o :: l => final x l (match assigned x o with Some a => a | None => d end)
  end.
Lemma take_args_final l : forall v v' x, take_args l v = inl v' -> v' x = final x l (v x).
Proof.
  induction l as [|o l IH]; intros v v' x H; cbn [take_args final] in *; [injection H as <-; reflexivity|].
  destruct (String.eqb (opt_of o) "--help"); [discriminate|].
  unfold assigned. destruct (find _ _) as [e|]; [|discriminate].
  rewrite (IH _ _ x H), set_all_last. reflexivity.
Qed.

Fixpoint plain (s : string) : bool :=
  match s with EmptyString => true | String a s => negb (Ascii.eqb a "=") && plain s end.
Lemma before_plain s : plain s = true -> before "=" s = s.
Proof. induction s as [|a s IH]; cbn [plain before]; [reflexivity|]. destruct (Ascii.eqb a "="); cbn; [discriminate|]. intros H. rewrite IH by exact H. reflexivity. Qed.
Lemma before_value s a : plain s = true -> before "=" (s ++ String "=" a)%string = s.
Proof. induction s as [|b s IH]; cbn [plain before append]; [reflexivity|]. destruct (Ascii.eqb b "="); cbn [negb andb]; [discriminate|]. intros H. rewrite IH by exact H. reflexivity. Qed.
Lemma after_value s a : plain s = true -> after "=" (s ++ String "=" a)%string = Some a.
Proof. induction s as [|b s IH]; cbn [plain after append]; [reflexivity|]. destruct (Ascii.eqb b "="); cbn [negb andb]; [discriminate|]. intros H. rewrite IH by exact H. reflexivity. Qed.
Lemma names_opt o : names o (opt_of o).
Proof.
  unfold names, opt_of. induction o as [|a o IH]; cbn [before]; [left; reflexivity|].
  destruct (Ascii.eqb_spec a "="); [subst a; right; exists o; reflexivity|].
  destruct IH as [E|[b E]]; [left; rewrite <- E; reflexivity|right; exists b; cbn [append]; rewrite E at 1; reflexivity].
Qed.
Lemma opt_names o opt : plain opt = true -> (names o opt <-> opt_of o = opt).
Proof.
  intros P. split.
  - intros [->|[a ->]]; [apply before_plain, P|apply before_value, P].
  - intros <-. apply names_opt.
Qed.
Definition mentions (opts : list string) (o : string) : bool := existsb (String.eqb (opt_of o)) opts.
Lemma mentions_iff opts o : mentions opts o = true <-> In (opt_of o) opts.
Proof.
  unfold mentions. rewrite existsb_exists. split.
  - intros (x & I & E). apply String.eqb_eq in E. rewrite E. exact I.
  - intros I. exists (opt_of o). split; [exact I|apply String.eqb_refl].
Qed.
Lemma asked_mentions l opts : forallb plain opts = true ->
  (existsb (mentions opts) l = true <-> exists opt, In opt opts /\ asked l opt).
Proof.
  intros P. rewrite forallb_forall in P. rewrite existsb_exists. split.
  - intros (o & I & M). apply mentions_iff in M. exists (opt_of o). split; [exact M|]. exists o. split; [exact I|]. apply names_opt.
  - intros (opt & J & o & I & N). exists o. split; [exact I|]. apply mentions_iff. apply opt_names in N; [|apply P, J]. rewrite N. exact J.
Qed.

(** flags: options that all assign the same constant *)
Lemma final_flag x opts c : (forall o, assigned x o = if mentions opts o then Some c else None) ->
  forall l d, final x l d = if existsb (mentions opts) l then c else d.
Proof.
  intros A. induction l as [|o l IH]; intros d; [reflexivity|]. cbn [final existsb]. rewrite A, IH.
  destruct (mentions opts o); cbn; [destruct (existsb _ l); reflexivity|reflexivity].
Qed.
Ltac table :=
  let p := fresh "p" in let a := fresh "a" in
  intros ?o; unfold assigned, mentions; generalize (arg_of o); generalize (opt_of o); intros p a;
  cbn [option_table find fst snd existsb];
  repeat match goal with
  | |- context[if String.eqb p ?s then Some (?s, _) else _] =>
      let E := fresh "E" in destruct (String.eqb p s) eqn:E;
      [apply String.eqb_eq in E; subst p; reflexivity|]
  end; cbn [orb]; try reflexivity.
Lemma assigned_fftw : forall o, assigned "with_fftw" o = if mentions ["--disable-fftw"; "--disable-everything"]%string o then Some "false"%string else None.
Proof. table. Qed.
Lemma assigned_libjpeg : forall o, assigned "with_libjpeg" o = if mentions ["--disable-libjpeg"; "--disable-everything"]%string o then Some "false"%string else None.
Proof. table. Qed.
Lemma assigned_libpng : forall o, assigned "with_libpng" o = if mentions ["--disable-libpng"; "--disable-everything"]%string o then Some "false"%string else None.
Proof. table. Qed.
Lemma assigned_MagickWand : forall o, assigned "with_MagickWand" o = if mentions ["--disable-MagickWand"; "--disable-everything"]%string o then Some "false"%string else None.
Proof. table. Qed.
Lemma assigned_ffmpeg : forall o, assigned "with_ffmpeg" o = if mentions ["--disable-ffmpeg"; "--disable-everything"]%string o then Some "false"%string else None.
Proof. table. Qed.
Lemma assigned_pgm : forall o, assigned "omit_pgm_reader" o = if mentions ["--omit-pgm-reader"]%string o then Some "true"%string else None.
Proof. table. Qed.
Lemma assigned_pfm : forall o, assigned "omit_pfm_reader" o = if mentions ["--omit-pfm-reader"]%string o then Some "true"%string else None.
Proof. table. Qed.
Lemma assigned_y4m : forall o, assigned "omit_y4m_reader" o = if mentions ["--omit-y4m-reader"]%string o then Some "true"%string else None.
Proof. table. Qed.
Lemma assigned_shared : forall o, assigned "sharedlib" o = if mentions ["--enable-shared"]%string o then Some "true"%string else None.
Proof. table. Qed.

(** settings: options that assign their value *)
Definition assigns (x opt : string) : Prop :=
  forall o, assigned x o = if String.eqb (opt_of o) opt then Some (arg_of o) else None.
Lemma assigns_range : assigns "DEFAULT_RANGE" "--default-range". Proof. unfold assigns. table. Qed.
Lemma assigns_coeff : assigns "COEFF_PRECISION" "--coeff-precision". Proof. unfold assigns. table. Qed.
Lemma assigns_inter : assigns "INTER_PRECISION" "--inter-precision". Proof. unfold assigns. table. Qed.
Lemma assigns_pixel : assigns "PIXEL_MAX" "--pixel-max". Proof. unfold assigns. table. Qed.
Lemma assigns_prefix : assigns "PREFIX" "--prefix". Proof. unfold assigns. table. Qed.
Lemma assigns_binprefix : assigns "BINPREFIX" "--binprefix". Proof. unfold assigns. table. Qed.
Lemma assigns_libprefix : assigns "LIBPREFIX" "--libprefix". Proof. unfold assigns. table. Qed.
Lemma assigns_incprefix : assigns "INCPREFIX" "--incprefix". Proof. unfold assigns. table. Qed.
Lemma assigns_pcprefix : assigns "PCPREFIX" "--pcprefix". Proof. unfold assigns. table. Qed.
Lemma final_app x l1 l2 : forall d, final x (l1 ++ l2) d = final x l2 (final x l1 d).
Proof. induction l1 as [|o l1 IH]; intros d; [reflexivity|]. cbn [app final]. apply IH. Qed.
Lemma final_none x opt l : assigns x opt -> plain opt = true -> ~ asked l opt -> forall d, final x l d = d.
Proof.
  intros A P. induction l as [|o l IH]; intros N d; [reflexivity|]. cbn [final]. rewrite A.
  destruct (String.eqb_spec (opt_of o) opt) as [E|E].
  - destruct N. exists o. split; [left; reflexivity|]. apply opt_names; assumption.
  - apply IH. intros (o' & I & J). apply N. exists o'. split; [right; exact I|exact J].
Qed.
Lemma final_setting args env x opt a : assigns x opt -> plain opt = true ->
  setting args env opt x a -> final x args (env x) = a.
Proof.
  intros A P [l r b E N _|N].
  - subst args. rewrite final_app. cbn [final]. rewrite A.
    change (opt ++ "=" ++ b)%string with (opt ++ String "=" b)%string.
    unfold opt_of, arg_of. rewrite before_value by exact P. rewrite String.eqb_refl, after_value by exact P.
    apply (final_none x opt r A P N).
  - apply (final_none x opt args A P N).
Qed.

(** ** The script as a whole *)
Record run (M : machine) (env : vars) (args : list string) (old : option mak) (k : mak) := {
  rn_args : vars; rn_triple : string; rn_libs : string;
  rn_taken : take_args args (initial env) = inl rn_args;
  rn_machine : h_triple M (rn_args "CC"%string) = Some rn_triple;
  rn_mak : k = let v := completed M rn_args rn_triple in
               mkMak (mak_lines M v rn_triple ++
                      [("LDLIBS", (if h_libm M then " -lm" else "") ++
                                  match pc_deps M v with [] => "" | _ => " " ++ rn_libs end);
                       ("TOOLS", "resdet stat imgread" ++ if prefix "x86_64-w64-" rn_triple then "" else " profile")]%string)
                     (mak_defs M v);
  rn_warned : x_warned (configure M env args old) = let v := completed M rn_args rn_triple in warns M v (mak_defs M v)
}.
Arguments rn_args {M env args old k}. Arguments rn_triple {M env args old k}. Arguments rn_libs {M env args old k}.
Arguments rn_taken {M env args old k}. Arguments rn_machine {M env args old k}. Arguments rn_mak {M env args old k}.
Arguments rn_warned {M env args old k}.
(** without --help the arguments are taken completely, or refused with status 1 *)
Lemma take_args_status l : forall v z, take_args l v = inr z -> ~ asked l "--help" -> z = 1.
Proof.
  induction l as [|o l IH]; intros v z H N; cbn [take_args] in H; [discriminate|].
  destruct (String.eqb_spec (opt_of o) "--help") as [E|E].
  - destruct N. exists o. split; [left; reflexivity|]. apply opt_names; [reflexivity|exact E].
  - destruct (find _ _); [|injection H as <-; reflexivity].
    apply (IH _ _ H). intros (o' & I & J). apply N. exists o'. split; [right; exact I|exact J].
Qed.
Lemma configures_run M env args old k : configures M env args old k -> inhabited (run M env args old k).
Proof.
  intros (S & K & H). unfold configure in S, K.
  destruct (take_args args (initial env)) as [v|z] eqn:T.
  2:{ cbn in S. pose proof (take_args_status _ _ _ T H). lia. }
  destruct (negb match h_command M (v "CC"%string) with Some _ => true | None => false end || negb match h_command M (v "AR"%string) with Some _ => true | None => false end) eqn:C1; [discriminate|].
  destruct (_ && negb match h_command M "pkg-config" with Some _ => true | None => false end) eqn:C2; [discriminate|].
  destruct (h_triple M (v "CC"%string)) as [triple|] eqn:TR; [|discriminate].
  destruct (match pc_deps M (completed M v triple) with [] => Some ""%string | _ => h_libs M (pc_deps M (completed M v triple)) end) as [libs|] eqn:LB; [|discriminate].
  constructor. refine (Build_run M env args old k v triple libs T TR _ _).
  - cbn [x_mak] in K. injection K as <-. reflexivity.
  - unfold configure. rewrite T, C1, C2, TR, LB. reflexivity.
Qed.

(** ** Variables after the arguments *)
Lemma completed_other M v t x : ~ In x ["BINPREFIX"; "LIBPREFIX"; "INCPREFIX"; "PCPREFIX"; "CFLAGS_LIB"; "CFLAGS_CLI"]%string ->
  completed M v t x = v x.
Proof.
  intros N. unfold completed. rewrite set_all_other, set_all_other; [reflexivity| |].
  - cbn [map fst In] in *. intuition.
  - cbn [map fst In] in *. intuition.
Qed.
Ltac not_in := cbn [In]; repeat match goal with |- ~ _ => intros ? | H : _ \/ _ |- _ => destruct H | H : _ = _ |- _ => discriminate H | H : False |- _ => destruct H end.

Section Values.
Context {M : machine} {env : vars} {args : list string} {old : option mak} {k : mak} (rn : run M env args old k).
Notation V := (completed M (rn_args rn) (rn_triple rn)).
Lemma value_of x : ~ In x ["BINPREFIX"; "LIBPREFIX"; "INCPREFIX"; "PCPREFIX"; "CFLAGS_LIB"; "CFLAGS_CLI"]%string ->
  V x = final x args (initial env x).
Proof. intros N. rewrite completed_other by exact N. apply take_args_final, (rn_taken rn). Qed.
Lemma succeeds_flag (b : bool) d : succeeds M d = true -> succeeds M (if b then "false"%string else d) = negb b.
Proof. intros S. destruct b; [reflexivity|exact S]. Qed.
Lemma want_fftw name : wanted M V "with_fftw" name =
  if existsb (mentions ["--disable-fftw"; "--disable-everything"]%string) args then None else module M name.
Proof.
  unfold wanted. rewrite value_of by not_in. rewrite (final_flag _ _ _ assigned_fftw), succeeds_flag by reflexivity.
  destruct (existsb _ _); reflexivity.
Qed.
Lemma want_libjpeg name : wanted M V "with_libjpeg" name =
  if existsb (mentions ["--disable-libjpeg"; "--disable-everything"]%string) args then None else module M name.
Proof.
  unfold wanted. rewrite value_of by not_in. rewrite (final_flag _ _ _ assigned_libjpeg), succeeds_flag by reflexivity.
  destruct (existsb _ _); reflexivity.
Qed.
Lemma want_libpng name : wanted M V "with_libpng" name =
  if existsb (mentions ["--disable-libpng"; "--disable-everything"]%string) args then None else module M name.
Proof.
  unfold wanted. rewrite value_of by not_in. rewrite (final_flag _ _ _ assigned_libpng), succeeds_flag by reflexivity.
  destruct (existsb _ _); reflexivity.
Qed.
Lemma want_MagickWand name : env "with_MagickWand"%string = ""%string -> wanted M V "with_MagickWand" name =
  if existsb (mentions ["--disable-MagickWand"; "--disable-everything"]%string) args then None else module M name.
Proof.
  intros U. unfold wanted. rewrite value_of by not_in. rewrite (final_flag _ _ _ assigned_MagickWand).
  change (initial env "with_MagickWand"%string) with (env "with_MagickWand"%string).
  rewrite U, succeeds_flag by reflexivity. destruct (existsb _ _); reflexivity.
Qed.
Lemma want_ffmpeg name : wanted M V "with_ffmpeg" name =
  if existsb (mentions ["--disable-ffmpeg"; "--disable-everything"]%string) args then None else module M name.
Proof.
  unfold wanted. rewrite value_of by not_in. rewrite (final_flag _ _ _ assigned_ffmpeg), succeeds_flag by reflexivity.
  destruct (existsb _ _); reflexivity.
Qed.
Lemma succeeds_set (b : bool) : succeeds M (if b then "true" else "false")%string = b.
Proof. destruct b; reflexivity. Qed.
Lemma omit_pgm : succeeds M (V "omit_pgm_reader"%string) = existsb (mentions ["--omit-pgm-reader"]%string) args.
Proof. rewrite value_of by not_in. rewrite (final_flag _ _ _ assigned_pgm). apply succeeds_set. Qed.
Lemma omit_pfm : succeeds M (V "omit_pfm_reader"%string) = existsb (mentions ["--omit-pfm-reader"]%string) args.
Proof. rewrite value_of by not_in. rewrite (final_flag _ _ _ assigned_pfm). apply succeeds_set. Qed.
Lemma omit_y4m : succeeds M (V "omit_y4m_reader"%string) = existsb (mentions ["--omit-y4m-reader"]%string) args.
Proof. rewrite value_of by not_in. rewrite (final_flag _ _ _ assigned_y4m). apply succeeds_set. Qed.
Lemma is_shared : succeeds M (V "sharedlib"%string) = existsb (mentions ["--enable-shared"]%string) args.
Proof. rewrite value_of by not_in. rewrite (final_flag _ _ _ assigned_shared). apply succeeds_set. Qed.
Lemma set_value x opt a : assigns x opt -> plain opt = true -> initial env x = env x ->
  ~ In x ["BINPREFIX"; "LIBPREFIX"; "INCPREFIX"; "PCPREFIX"; "CFLAGS_LIB"; "CFLAGS_CLI"]%string ->
  setting args env opt x a -> V x = a.
Proof. intros A P I N S. rewrite value_of by exact N. rewrite I. apply (final_setting args env x opt a A P S). Qed.

(** ** config.mak *)
Lemma last_of_app x a b : last_of x (a ++ b) = match last_of x b with Some s => Some s | None => last_of x a end.
Proof.
  induction a as [|[y s] a IH]; cbn [app last_of]; [destruct (last_of x b); reflexivity|].
  rewrite IH. destruct (last_of x b); reflexivity.
Qed.
Lemma macro_app a b x : macro (a ++ b) x = match macro a x with Some s => Some s | None => macro b x end.
Proof.
  unfold macro. induction a as [|[y s] a IH]; cbn [app find fst]; [reflexivity|].
  destruct (String.eqb y x); [reflexivity|exact IH].
Qed.
(** the value make finds, as a last assignment *)
Definition line (x : string) : option string := last_of x (k_vars k).
Lemma mkvar_line x : mkvar env k x = match line x with Some s => s | None => env x end.
Proof. apply set_all_last. Qed.
Lemma vars_of : exists ldlibs tools, k_vars k = mak_lines M V (rn_triple rn) ++ [("LDLIBS", ldlibs); ("TOOLS", tools)]%string.
Proof. pose proof (f_equal k_vars (rn_mak rn)) as E. cbv zeta in E. cbn [k_vars] in E. eexists. eexists. exact E. Qed.
Lemma defs_of : k_defs k = mak_defs M V.
Proof. exact (f_equal k_defs (rn_mak rn)). Qed.
Ltac lookup :=
  unfold line; let l := fresh "l" in let t := fresh "t" in let E := fresh "E" in destruct vars_of as (l & t & E); rewrite E;
  unfold mak_lines; cbv zeta; cbn [libraries natives flat_map];
  repeat rewrite last_of_app;
  repeat match goal with
  | |- context[last_of ?x ?p] =>
      match p with
      | match ?o with Some _ => _ | None => _ end => replace (last_of x p) with (@None string) by (destruct o; reflexivity)
      | (if ?o then _ else _) => replace (last_of x p) with (@None string) by (destruct o; reflexivity)
      end
  end; cbn [last_of String.eqb Ascii.eqb Bool.eqb append].
Lemma line_fftw : line "HAVE_FFTW" = wanted M V "with_fftw" (fftw_module (V "COEFF_PRECISION"%string)).
Proof. lookup. destruct (wanted _ _ _ _); reflexivity. Qed.
Lemma line_libjpeg : line "HAVE_LIBJPEG" = wanted M V "with_libjpeg" "libjpeg".
Proof. lookup. destruct (wanted _ _ _ _); reflexivity. Qed.
Lemma line_libpng : line "HAVE_LIBPNG" = wanted M V "with_libpng" "libpng".
Proof. lookup. destruct (wanted _ _ _ _); reflexivity. Qed.
Lemma line_magick : line "HAVE_MAGICKWAND" = wanted M V "with_MagickWand" "MagickWand".
Proof. lookup. destruct (wanted _ _ _ _); reflexivity. Qed.
Lemma line_ffmpeg : line "HAVE_FFMPEG" = option_map (fun _ => "1"%string) (wanted M V "with_ffmpeg" ffmpeg_modules).
Proof. lookup. destruct (wanted _ _ _ _); reflexivity. Qed.
Lemma line_pgm : line "OMIT_PGM_READER" = if succeeds M (V "omit_pgm_reader"%string) then Some "1"%string else None.
Proof. lookup. destruct (succeeds _ _); reflexivity. Qed.
Lemma line_pfm : line "OMIT_PFM_READER" = if succeeds M (V "omit_pfm_reader"%string) then Some "1"%string else None.
Proof. lookup. destruct (succeeds _ _); reflexivity. Qed.
Lemma line_y4m : line "OMIT_Y4M_READER" = if succeeds M (V "omit_y4m_reader"%string) then Some "1"%string else None.
Proof. lookup. destruct (succeeds _ _); reflexivity. Qed.
Lemma line_shared : line "SHARED" = if succeeds M (V "sharedlib"%string) then Some "1"%string else None.
Proof. lookup. destruct (succeeds _ _); reflexivity. Qed.
Lemma line_soext : line "SOEXT" = if succeeds M (V "sharedlib"%string) then Some (soext (rn_triple rn)) else None.
Proof. lookup. destruct (succeeds _ _); reflexivity. Qed.
Lemma line_range : line "DEFAULT_RANGE" = if empty (V "DEFAULT_RANGE"%string) then None else Some (V "DEFAULT_RANGE"%string).
Proof. lookup. destruct (empty _); reflexivity. Qed.
Lemma line_coeff : line "COEFF_PRECISION" = if empty (V "COEFF_PRECISION"%string) then None else Some (V "COEFF_PRECISION"%string).
Proof. lookup. destruct (empty _); reflexivity. Qed.
Lemma line_inter : line "INTER_PRECISION" = if empty (V "INTER_PRECISION"%string) then None else Some (V "INTER_PRECISION"%string).
Proof. lookup. destruct (empty _); reflexivity. Qed.
Lemma line_pixel : line "PIXEL_MAX" = if empty (V "PIXEL_MAX"%string) then None else Some (V "PIXEL_MAX"%string).
Proof. lookup. destruct (empty _); reflexivity. Qed.
Lemma line_prefix : line "PREFIX" = Some (V "PREFIX"%string).
Proof. lookup. reflexivity. Qed.
Lemma line_libprefix : line "LIBPREFIX" = Some (V "LIBPREFIX"%string).
Proof. lookup. reflexivity. Qed.
Lemma line_incprefix : line "INCPREFIX" = Some (V "INCPREFIX"%string).
Proof. lookup. reflexivity. Qed.
Lemma line_pcprefix : line "PCPREFIX" = Some (V "PCPREFIX"%string).
Proof. lookup. reflexivity. Qed.
End Values.
