(** What a build contains. *)
From Coq Require Import Ascii String Lia.
From Verif Require Import Base Flt Util Methods Stdio Pgm Y4m Image Precision Build SpecBuild BuildProofs.
Import ListNotations.
Open Scope list_scope.
Open Scope Z_scope.

Section Results.
Context {M : machine} {env : vars} {args : list string} {old : option mak} {k : mak} (rn : run M env args old k).
Notation V := (completed M (rn_args rn) (rn_triple rn)).

(** ** Macros *)
Ltac mlookup :=
  unfold macros; rewrite (defs_of rn); unfold mak_defs, scalar_defs; cbn [libraries natives flat_map];
  repeat rewrite macro_app;
  repeat match goal with
  | |- context[macro ?p ?x] =>
      match p with
      | match ?o with Some _ => _ | None => _ end => replace (macro p x) with (@None string) by (destruct o; reflexivity)
      | (if ?o then _ else _) => replace (macro p x) with (@None string) by (destruct o; reflexivity)
      | [] => change (macro p x) with (@None string)
      end
  end.
Lemma def_libjpeg : macro (macros env k) "HAVE_LIBJPEG" = wanted M V "with_libjpeg" "libjpeg".
Proof. mlookup. destruct (wanted _ _ _ _); reflexivity. Qed.
Lemma def_libpng : macro (macros env k) "HAVE_LIBPNG" = wanted M V "with_libpng" "libpng".
Proof. mlookup. destruct (wanted _ _ _ _); reflexivity. Qed.
Lemma def_magick : macro (macros env k) "HAVE_MAGICKWAND" = wanted M V "with_MagickWand" "MagickWand".
Proof. mlookup. destruct (wanted _ _ _ _); reflexivity. Qed.
Lemma def_ffmpeg : macro (macros env k) "HAVE_FFMPEG" = option_map (fun _ => "1"%string) (wanted M V "with_ffmpeg" ffmpeg_modules).
Proof. mlookup. destruct (wanted _ _ _ _); reflexivity. Qed.
Lemma def_pgm : macro (macros env k) "OMIT_PGM_READER" = if succeeds M (V "omit_pgm_reader"%string) then Some "1"%string else None.
Proof. mlookup. destruct (succeeds _ _); reflexivity. Qed.
Lemma def_pfm : macro (macros env k) "OMIT_PFM_READER" = if succeeds M (V "omit_pfm_reader"%string) then Some "1"%string else None.
Proof. mlookup. destruct (succeeds _ _); reflexivity. Qed.
Lemma def_y4m : macro (macros env k) "OMIT_Y4M_READER" = if succeeds M (V "omit_y4m_reader"%string) then Some "1"%string else None.
Proof. mlookup. destruct (succeeds _ _); reflexivity. Qed.
Lemma def_scalar : macro (macros env k) "kiss_fft_scalar" =
  if String.eqb (V "COEFF_PRECISION"%string) "D" || String.eqb (V "COEFF_PRECISION"%string) "L" then Some "double"%string else None.
Proof. mlookup. destruct (_ || _); reflexivity. Qed.
Lemma def_suffix : macro (macros env k) "VERSION_SUFFIX" = option_map (fun s => ("""" ++ s ++ """")%string) (h_suffix M).
Proof. mlookup. destruct (h_suffix M); reflexivity. Qed.
Lemma def_var x : In x ["DEFAULT_RANGE"; "COEFF_PRECISION"; "INTER_PRECISION"; "PIXEL_MAX"]%string ->
  macro (macros env k) x = if ifdef env k x then Some (mkvar env k x) else None.
Proof.
  intros [<-|[<-|[<-|[<-|[]]]]]; mlookup; destruct (ifdef env k _); reflexivity.
Qed.

(** ** Readers *)
Lemma module_available name : (exists n, module M name = Some n) <-> available M name.
Proof.
  unfold module, available. destruct (h_command M "pkg-config") as [p|].
  - destruct (h_modversion M name) as [v|]; cbn [option_map].
    + split; intros _; [split; eexists; reflexivity|eexists; reflexivity].
    + split; [intros [n H]; discriminate|intros [_ [v H]]; discriminate].
  - split; [intros [n H]; discriminate|intros [[p H] _]; discriminate].
Qed.
Definition some {A} (o : option A) : bool := match o with Some _ => true | None => false end.
Lemma some_iff {A} (o : option A) : some o = true <-> exists a, o = Some a.
Proof. destruct o; cbn; split; [eexists; reflexivity|reflexivity|discriminate|intros [a H]; discriminate]. Qed.
Lemma not_asked opts : forallb plain opts = true ->
  (existsb (mentions opts) args = false <-> forall opt, In opt opts -> ~ asked args opt).
Proof.
  intros P. destruct (existsb (mentions opts) args) eqn:E.
  - split; [discriminate|]. intros H. apply asked_mentions in E; [|exact P]. destruct E as (opt & I & A). destruct (H opt I A).
  - split; [|reflexivity]. intros _ opt I A. assert (existsb (mentions opts) args = true) by (apply asked_mentions; [exact P|exists opt; split; assumption]). congruence.
Qed.
Lemma if_none (b : bool) (o : option string) : some (if b then None else o) = negb b && some o.
Proof. destruct b; reflexivity. Qed.
Lemma flag_iff (b : bool) (P : Prop) : (b = false <-> P) -> (negb b = true <-> P).
Proof. destruct b; cbn; intuition discriminate. Qed.
Lemma two_iff a b name (f : bool) : forallb plain [a; b] = true -> f = existsb (mentions [a; b]) args ->
  (negb f && some (module M name) = true <-> available M name /\ ~ asked args a /\ ~ asked args b).
Proof.
  intros P ->. rewrite Bool.andb_true_iff, some_iff, module_available, (flag_iff _ _ (not_asked [a; b] P)).
  cbn [In]. split.
  - intros [N A]. split; [exact A|]. split; apply N; intuition.
  - intros (A & N1 & N2). split; [|exact A]. intros opt [<-|[<-|[]]]; assumption.
Qed.
Lemma defined_some ms x : defined ms x = some (macro ms x).
Proof. reflexivity. Qed.
Lemma reader_libjpeg : defined (macros env k) "HAVE_LIBJPEG" = true <->
  available M "libjpeg" /\ ~ asked args "--disable-libjpeg" /\ ~ asked args "--disable-everything".
Proof. rewrite defined_some, def_libjpeg, want_libjpeg, if_none. apply two_iff; reflexivity. Qed.
Lemma reader_libpng : defined (macros env k) "HAVE_LIBPNG" = true <->
  available M "libpng" /\ ~ asked args "--disable-libpng" /\ ~ asked args "--disable-everything".
Proof. rewrite defined_some, def_libpng, want_libpng, if_none. apply two_iff; reflexivity. Qed.
Lemma reader_magick : env "with_MagickWand"%string = ""%string -> defined (macros env k) "HAVE_MAGICKWAND" = true <->
  available M "MagickWand" /\ ~ asked args "--disable-MagickWand" /\ ~ asked args "--disable-everything".
Proof. intros U. rewrite defined_some, def_magick, want_MagickWand by exact U. rewrite if_none. apply two_iff; reflexivity. Qed.
Lemma some_map {A B} (f : A -> B) o : some (option_map f o) = some o.
Proof. destruct o; reflexivity. Qed.
Lemma reader_ffmpeg : defined (macros env k) "HAVE_FFMPEG" = true <->
  available M ffmpeg_modules /\ ~ asked args "--disable-ffmpeg" /\ ~ asked args "--disable-everything".
Proof. rewrite defined_some, def_ffmpeg, some_map, want_ffmpeg, if_none. apply two_iff; reflexivity. Qed.
Lemma some_if (b : bool) (s : string) : some (if b then Some s else None) = b.
Proof. destruct b; reflexivity. Qed.
Lemma one_iff a : plain a = true -> (negb (existsb (mentions [a]) args) = true <-> ~ asked args a).
Proof.
  intros P. rewrite (flag_iff _ _ (not_asked [a] ltac:(cbn [forallb]; rewrite P; reflexivity))). cbn [In].
  split; [intros H; apply H; intuition|intros N opt [<-|[]]; exact N].
Qed.
Lemma reader_pgm : negb (defined (macros env k) "OMIT_PGM_READER") = true <-> ~ asked args "--omit-pgm-reader".
Proof. rewrite defined_some, def_pgm, some_if, omit_pgm. apply one_iff. reflexivity. Qed.
Lemma reader_pfm : negb (defined (macros env k) "OMIT_PFM_READER") = true <-> ~ asked args "--omit-pfm-reader".
Proof. rewrite defined_some, def_pfm, some_if, omit_pfm. apply one_iff. reflexivity. Qed.
Lemma reader_y4m : negb (defined (macros env k) "OMIT_Y4M_READER") = true <-> ~ asked args "--omit-y4m-reader".
Proof. rewrite defined_some, def_y4m, some_if, omit_y4m. apply one_iff. reflexivity. Qed.

(** ** Objects *)
Hypothesis (ve : versioned M) (un : unset env result_names).
Lemma module_version name n : module M name = Some n -> n <> ""%string.
Proof.
  unfold module. destruct (h_command M "pkg-config"); [|discriminate]. destruct (h_modversion M name) as [v|] eqn:E; [|discriminate].
  cbn [option_map]. intros [= <-]. destruct (ve name v E) as (c & t & -> & N). cbn [before].
  apply Ascii.eqb_neq in N. rewrite N. discriminate.
Qed.
Lemma wanted_version check name n : wanted M V check name = Some n -> n <> ""%string.
Proof. unfold wanted. destruct (succeeds _ _); [apply module_version|discriminate]. Qed.
Lemma empty_not s : s <> ""%string -> empty s = false.
Proof. intros N. unfold empty. apply String.eqb_neq. exact N. Qed.
Lemma ifdef_line x : env x = ""%string -> (forall s, line (k:=k) x = Some s -> s <> ""%string) -> ifdef env k x = some (line (k:=k) x).
Proof.
  intros U N. unfold ifdef. rewrite mkvar_line. destruct (line x) as [t|].
  - rewrite empty_not by (apply N; reflexivity). reflexivity.
  - rewrite U. reflexivity.
Qed.
Ltac known x := (apply un; cbn; repeat (first [left; reflexivity|right])).
Lemma if_libjpeg : ifdef env k "HAVE_LIBJPEG" = defined (macros env k) "HAVE_LIBJPEG".
Proof.
  rewrite defined_some, def_libjpeg, ifdef_line; [rewrite (line_libjpeg rn); reflexivity|known x|].
  intros s. rewrite (line_libjpeg rn). apply wanted_version.
Qed.
Lemma if_libpng : ifdef env k "HAVE_LIBPNG" = defined (macros env k) "HAVE_LIBPNG".
Proof.
  rewrite defined_some, def_libpng, ifdef_line; [rewrite (line_libpng rn); reflexivity|known x|].
  intros s. rewrite (line_libpng rn). apply wanted_version.
Qed.
Lemma if_magick : ifdef env k "HAVE_MAGICKWAND" = defined (macros env k) "HAVE_MAGICKWAND".
Proof.
  rewrite defined_some, def_magick, ifdef_line; [rewrite (line_magick rn); reflexivity|known x|].
  intros s. rewrite (line_magick rn). apply wanted_version.
Qed.
Lemma if_ffmpeg : ifdef env k "HAVE_FFMPEG" = defined (macros env k) "HAVE_FFMPEG".
Proof.
  rewrite defined_some, def_ffmpeg, ifdef_line; [rewrite (line_ffmpeg rn); reflexivity|known x|].
  intros s. rewrite (line_ffmpeg rn). destruct (wanted _ _ _ _); [intros [= <-]; discriminate|discriminate].
Qed.
Lemma if_pgm : ifdef env k "OMIT_PGM_READER" = defined (macros env k) "OMIT_PGM_READER".
Proof.
  rewrite defined_some, def_pgm, ifdef_line; [rewrite (line_pgm rn); reflexivity|known x|].
  intros s. rewrite (line_pgm rn). destruct (succeeds _ _); [intros [= <-]; discriminate|discriminate].
Qed.
Lemma if_pfm : ifdef env k "OMIT_PFM_READER" = defined (macros env k) "OMIT_PFM_READER".
Proof.
  rewrite defined_some, def_pfm, ifdef_line; [rewrite (line_pfm rn); reflexivity|known x|].
  intros s. rewrite (line_pfm rn). destruct (succeeds _ _); [intros [= <-]; discriminate|discriminate].
Qed.
Lemma if_y4m : ifdef env k "OMIT_Y4M_READER" = defined (macros env k) "OMIT_Y4M_READER".
Proof.
  rewrite defined_some, def_y4m, ifdef_line; [rewrite (line_y4m rn); reflexivity|known x|].
  intros s. rewrite (line_y4m rn). destruct (succeeds _ _); [intros [= <-]; discriminate|discriminate].
Qed.
Lemma if_fftw : ifdef env k "HAVE_FFTW" = some (wanted M V "with_fftw" (fftw_module (V "COEFF_PRECISION"%string))).
Proof.
  rewrite ifdef_line; [rewrite (line_fftw rn); reflexivity|known x|].
  intros s. rewrite (line_fftw rn). apply wanted_version.
Qed.
Lemma if_shared : ifdef env k "SHARED" = succeeds M (V "sharedlib"%string).
Proof.
  rewrite ifdef_line; [rewrite (line_shared rn), some_if; reflexivity|known x|].
  intros s. rewrite (line_shared rn). destruct (succeeds _ _); [intros [= <-]; discriminate|discriminate].
Qed.
Lemma objects_of_readers r :
  In r (resdet_image_readers (readers_built (macros env k))) <-> In (object_of r) (objects env k).
Proof.
  unfold objects. rewrite if_libjpeg, if_libpng, if_magick, if_ffmpeg, if_pgm, if_pfm, if_y4m.
  unfold readers_built, resdet_image_readers. cbn [r_pgm r_pfm r_y4m r_libjpeg r_libpng r_ffmpeg r_magickwand].
  repeat rewrite map_app. repeat rewrite in_app_iff.
  assert (W : forall b a s, In s (map (fun o => "lib/" ++ o)%string (when b a)) <-> b = true /\ s = ("lib/" ++ a)%string).
  { intros b a s. destruct b; cbn; intuition congruence. }
  repeat rewrite W.
  assert (W' : forall (b : bool) (a : reader), In r (when b a) <-> b = true /\ r = a).
  { intros b a. destruct b; cbn; intuition congruence. }
  repeat rewrite W'.
  assert (B : ~ In (object_of r) (map (fun o => "lib/" ++ o)%string ["resdetect.o"; "analysis.o"; "util.o"; "image.o"; "image_readers.o"; "methods.o"]%string)).
  { destruct r as [| | |[| | |]]; cbn; intros H; repeat (destruct H as [H|H]; [discriminate H|]); exact H. }
  assert (T : forall b : bool, ~ In (object_of r) (map (fun o => "lib/" ++ o)%string
            (if b then ["transform/fftw.o"] else "transform/kiss_fft.o" :: map (fun o => "kissfft/" ++ o) ["kiss_fft.o"; "kiss_fftnd.o"; "kiss_fftndr.o"; "kiss_fftr.o"])%string)).
  { intros b. destruct b, r as [| | |[| | |]]; cbn; intros H; repeat (destruct H as [H|H]; [discriminate H|]); exact H. }
  specialize (T (ifdef env k "HAVE_FFTW")).
  destruct r as [| | |[| | |]]; cbn [object_of] in *; split; intros H;
    repeat match goal with
    | H : _ \/ _ |- _ => destruct H
    | H : _ /\ _ |- _ => destruct H
    end; try contradiction; try discriminate; tauto.
Qed.
End Results.
