(** @header
    Properties C91 and C92: configuring, building and installing. *)
From Coq Require Import Ascii String Lia.
From Verif Require Import Base Flt Util Methods Stdio Pgm Y4m Image Precision Build SpecBuild.
From Verif Require Import BuildProofs BuildResultProofs BuildSettingProofs BuildInstallProofs.
Import ListNotations.
Open Scope list_scope.
Open Scope Z_scope.

(** ** Examples *)
(** a machine with every command and the given libraries *)
Definition demo_host (triple : string) (libs : list string) : machine :=
  mkMachine (fun c => Some ("/usr/bin/" ++ c)%string) (fun _ => false) (fun _ => Some triple) (fun _ => true)
    (fun l => if existsb (String.eqb l) libs then Some "3.3.10"%string else None) (fun _ => ""%string)
    (fun l => Some (String.concat " " (map (fun x => "-l" ++ x)%string l))) true true (Some "+1a2b3c4"%string).
Definition linux (libs : list string) : machine := demo_host "x86_64-pc-linux-gnu" libs.
Definition darwin : machine := demo_host "arm64-apple-darwin23.5.0" [].
Definition no_env : vars := fun _ => ""%string.
Definition mak_of (M : machine) (args : list string) : mak :=
  match x_mak (configure M no_env args None) with Some k => k | None => mkMak [] [] end.
Lemma demo_configures triple libs args : Forall recognised args ->
  configures (demo_host triple libs) no_env args None (mak_of (demo_host triple libs) args).
Proof.
  intros R. destruct (accepts (demo_host triple libs) no_env args None R) as (k & S & K & H);
    [intros v; exists triple; reflexivity|intros x; eexists; reflexivity|intros l; eexists; reflexivity|].
  split; [exact S|]. split; [|exact H]. unfold mak_of. rewrite K. reflexivity.
Qed.
Lemma demo_versioned triple libs : versioned (demo_host triple libs).
Proof.
  intros name v. cbn [demo_host h_modversion]. destruct (existsb _ libs); [|discriminate]. intros [= <-].
  exists "3"%char, ".3.10"%string. split; [reflexivity|discriminate].
Qed.
Ltac known := repeat constructor; apply recognised_iff; vm_compute; tauto.
Ltac unasked := let o := fresh in let I := fresh in let N := fresh in intros (o & I & N); apply opt_names in N; [|reflexivity];
  cbn in I; repeat (destruct I as [<-|I]; [discriminate N|]); destruct I.

(** C91.  configure accepts every command line made of its options, if it finds the tools; the
    first argument that is not one of its options ends it with status 1 and leaves an old
    config.mak as it was. *)
Lemma configure_outcome_claim :
  (forall M env args old, Forall recognised args ->
     (forall cc, exists triple, h_triple M cc = Some triple) -> (forall x, exists path, h_command M x = Some path) ->
     (forall l, exists flags, h_libs M l = Some flags) ->
     exists k, configures M env args old k) /\
  (forall M env l o r old, Forall recognised l -> ~ recognised o -> ~ names o "--help" ->
     configure M env (l ++ o :: r) old = mkConfigured 1 old false).
Proof.
  split.
  - exact accepts.
  - exact refuses.
Qed.
Lemma configure_outcome_example :
  (exists k, configures (linux ["libpng"%string]) no_env ["--disable-fftw"; "--pixel-max=65536"]%string None k) /\
  configure (linux []) no_env ["--disable-fftw"; "--disable-png"; "--verbose"]%string (Some (mkMak [] [])) = mkConfigured 1 (Some (mkMak [] [])) false.
Proof.
  split.
  - apply (proj1 configure_outcome_claim); [known|intros; eexists; reflexivity..].
  - apply (proj2 configure_outcome_claim (linux []) no_env ["--disable-fftw"%string]); [known| |].
    + intros R. apply recognised_iff in R. vm_compute in R. repeat (destruct R as [R|R]; [discriminate R|]). exact R.
    + intros N. apply opt_names in N; [|reflexivity]. discriminate N.
Qed.

(** The readers of the library are exactly those asked for: each of the three of its own unless
    omitted; each of the others if pkg-config finds its library, unless disabled. *)
Lemma built_readers_claim : forall M env args old k, configures M env args old k -> unset env result_names ->
  let R := readers_built (macros env k) in
  (r_pgm R = true <-> ~ asked args "--omit-pgm-reader") /\
  (r_pfm R = true <-> ~ asked args "--omit-pfm-reader") /\
  (r_y4m R = true <-> ~ asked args "--omit-y4m-reader") /\
  (r_libjpeg R = true <-> available M "libjpeg" /\ ~ asked args "--disable-libjpeg" /\ ~ asked args "--disable-everything") /\
  (r_libpng R = true <-> available M "libpng" /\ ~ asked args "--disable-libpng" /\ ~ asked args "--disable-everything") /\
  (r_ffmpeg R = true <-> available M "libavcodec libavformat libavutil libswscale" /\
                         ~ asked args "--disable-ffmpeg" /\ ~ asked args "--disable-everything") /\
  (r_magickwand R = true <-> available M "MagickWand" /\ ~ asked args "--disable-MagickWand" /\ ~ asked args "--disable-everything").
Proof.
  intros M env args old k C un R. destruct (configures_run _ _ _ _ _ C) as [rn].
  assert (U : env "with_MagickWand"%string = ""%string) by (apply un; cbn; tauto).
  unfold R, readers_built. cbn [r_pgm r_pfm r_y4m r_libjpeg r_libpng r_ffmpeg r_magickwand].
  split; [apply (reader_pgm rn)|]. split; [apply (reader_pfm rn)|]. split; [apply (reader_y4m rn)|].
  split; [apply (reader_libjpeg rn)|]. split; [apply (reader_libpng rn)|]. split; [apply (reader_ffmpeg rn)|apply (reader_magick rn U)].
Qed.
Lemma built_readers_example :
  let M := linux ["libpng"; "libjpeg"; "MagickWand"]%string in
  let args := ["--disable-libjpeg"; "--omit-pfm-reader"]%string in
  configures M no_env args None (mak_of M args) /\
  resdet_list_image_readers (readers_built (macros no_env (mak_of M args))) = ["PGM"; "Y4M"; "libpng"; "MagickWand"]%string.
Proof. split; [apply demo_configures; known|vm_compute; reflexivity]. Qed.

(** The table of readers and the object files of the library agree: whatever is disabled,
    omitted or missing, the object that defines a reader is part of the library exactly if the
    table refers to the reader.  There is exactly one transform, and no object twice. *)
Lemma built_objects_claim : forall M env args old k, configures M env args old k -> versioned M -> unset env result_names ->
  (forall r, In r (resdet_image_readers (readers_built (macros env k))) <-> In (object_of r) (objects env k)) /\
  (In "lib/transform/fftw.o"%string (objects env k) <-> ~ In "lib/transform/kiss_fft.o"%string (objects env k)) /\
  (In "lib/transform/kiss_fft.o"%string (objects env k) <-> In "lib/kissfft/kiss_fftr.o"%string (objects env k)) /\
  NoDup (objects env k).
Proof.
  intros M env args old k C ve un. destruct (configures_run _ _ _ _ _ C) as [rn].
  split; [apply (objects_of_readers rn ve un)|].
  unfold objects.
  generalize (ifdef env k "HAVE_FFTW") (ifdef env k "HAVE_LIBJPEG") (ifdef env k "HAVE_LIBPNG") (ifdef env k "HAVE_MAGICKWAND")
             (ifdef env k "HAVE_FFMPEG") (ifdef env k "OMIT_PGM_READER") (ifdef env k "OMIT_PFM_READER") (ifdef env k "OMIT_Y4M_READER").
  clear. intros b1 b2 b3 b4 b5 b6 b7 b8.
  set (inb := fun (x : string) l => existsb (String.eqb x) l).
  assert (IN : forall x l, In x l <-> inb x l = true).
  { intros x l. unfold inb. rewrite existsb_exists. split; [intros I; exists x; split; [exact I|apply String.eqb_refl]|].
    intros (y & I & E). apply String.eqb_eq in E. subst y. exact I. }
  set (nodup := fix nodup (l : list string) : bool := match l with [] => true | x :: l => negb (inb x l) && nodup l end).
  assert (ND : forall l, nodup l = true -> NoDup l).
  { induction l as [|x l IH]; intros H; [constructor|]. cbn in H. apply Bool.andb_true_iff in H. destruct H as [H1 H2].
    constructor; [|apply IH, H2]. intros I. apply IN in I. rewrite I in H1. discriminate. }
  rewrite !IN. split; [|split].
  - destruct b1, b2, b3, b4, b5, b6, b7, b8; vm_compute; intuition discriminate.
  - destruct b1, b2, b3, b4, b5, b6, b7, b8; vm_compute; intuition discriminate.
  - apply ND. destruct b1, b2, b3, b4, b5, b6, b7, b8; vm_compute; reflexivity.
Qed.
Lemma built_objects_example :
  let M := linux ["fftw3f"; "libpng"]%string in
  configures M no_env ["--omit-y4m-reader"%string] None (mak_of M ["--omit-y4m-reader"%string]) /\ versioned M /\ unset no_env result_names /\
  objects no_env (mak_of M ["--omit-y4m-reader"%string]) =
    ["lib/resdetect.o"; "lib/analysis.o"; "lib/util.o"; "lib/image.o"; "lib/image_readers.o"; "lib/methods.o";
     "lib/transform/fftw.o"; "lib/image/libpng.o"; "lib/image/pgm.o"; "lib/image/pfm.o"]%string.
Proof.
  split; [apply demo_configures; known|]. split; [apply demo_versioned|]. split; [intros x _; reflexivity|vm_compute; reflexivity].
Qed.

(** configure warns exactly if the library will have no reader. *)
Lemma built_warning_claim : forall M env args old k, configures M env args old k -> unset env result_names ->
  (x_warned (configure M env args old) = true <-> resdet_list_image_readers (readers_built (macros env k)) = []).
Proof. intros M env args old k C un. destruct (configures_run _ _ _ _ _ C) as [rn]. apply (warned rn un). Qed.
Lemma built_warning_example :
  let args := ["--omit-y4m-reader"; "--omit-pgm-reader"; "--omit-pfm-reader"]%string in
  configures (linux []) no_env args None (mak_of (linux []) args) /\
  x_warned (configure (linux []) no_env args None) = true /\
  x_warned (configure (linux ["libpng"%string]) no_env args None) = false.
Proof. split; [apply demo_configures; known|]. split; vm_compute; reflexivity. Qed.

(** For each of the settings F, D and L, and without settings, the coefficients have the
    precision asked for and the intermediates the finer of both; FFTW is used exactly if the
    library of that precision is there and not disabled, and KISS FFT computes in float for F
    and in double for D and L. *)
Lemma built_precisions_claim : forall M env args old k s t p q,
  configures M env args old k -> versioned M -> unset env result_names ->
  setting args env "--coeff-precision" "COEFF_PRECISION" s -> means_precision PF s p ->
  setting args env "--inter-precision" "INTER_PRECISION" t -> means_precision PD t q ->
  coeff_precision (macros env k) = Some p /\ intermediate_precision (macros env k) = Some (finer p q) /\
  (ifdef env k "HAVE_FFTW" = true <->
   available M (match p with PF => "fftw3f" | PD => "fftw3" | PL => "fftw3l" end)%string /\
   ~ asked args "--disable-fftw" /\ ~ asked args "--disable-everything") /\
  kiss_scalar (macros env k) = Some (match p with PF => PF | PD | PL => PD end).
Proof.
  intros M env args old k s t p q C ve un S P T Q. destruct (configures_run _ _ _ _ _ C) as [rn].
  destruct (precisions rn s t p q S P T Q) as [A B]. split; [exact A|]. split; [exact B|].
  split; [apply (backend_fftw rn s p ve un S P)|apply (coeff_value rn s p S P)].
Qed.
Lemma built_precisions_example :
  let M := linux ["fftw3"%string] in let args := ["--coeff-precision=D"; "--inter-precision=F"]%string in
  configures M no_env args None (mak_of M args) /\
  setting args no_env "--coeff-precision" "COEFF_PRECISION" "D" /\ means_precision PF "D" PD /\
  setting args no_env "--inter-precision" "INTER_PRECISION" "F" /\ means_precision PD "F" PF /\
  intermediate_precision (macros no_env (mak_of M args)) = Some PD /\ ifdef no_env (mak_of M args) "HAVE_FFTW" = true.
Proof.
  split; [apply demo_configures; known|].
  split; [apply (by_option _ _ _ _ [] ["--inter-precision=F"%string]); [reflexivity|unasked|reflexivity]|].
  split; [right; right; left; split; reflexivity|].
  split; [apply (by_option _ _ _ _ ["--coeff-precision=D"%string] []); [reflexivity|unasked|reflexivity]|].
  split; [right; left; split; reflexivity|]. split; vm_compute; reflexivity.
Qed.

(** The limits asked for, as decimal numbers, are those of the library, and such a library meets
    the conditions under which all other properties are claimed; 0 is refused by the compiler. *)
Lemma built_limits_claim : forall M env args old k s t p r special,
  configures M env args old k ->
  setting args env "--pixel-max" "PIXEL_MAX" s -> means_number SIZE_MAX s p ->
  setting args env "--default-range" "DEFAULT_RANGE" t -> means_number 12 t r ->
  p <= SIZE_MAX -> r <= SIZE_MAX ->
  exists c, config_built env k special = Some c /\ c_pixel_max c = p /\ c_default_range c = r /\ c_frexp_special c = special /\
            (c_backend c = FFTW <-> ifdef env k "HAVE_FFTW" = true) /\ config_ok c = true.
Proof.
  intros M env args old k s t p r special C S P T Q L1 L2. destruct (configures_run _ _ _ _ _ C) as [rn].
  unfold config_built. rewrite (number_value _ _ _ _ (pixel_macro rn s S) P), (number_value _ _ _ _ (range_macro rn t T) Q).
  assert (POS : forall d u n, 0 < d -> means_number d u n -> 0 < n).
  { intros d u n D [[_ ->]|(e & ds & _ & E & F & ->)]; [exact D|]. cbn [fold_left].
    assert (H : forall l a, 0 < a -> Forall (fun d => 0 <= d <= 9) l -> 0 < fold_left (fun a d => 10 * a + d) l a).
    { clear. induction l as [|x l IH]; intros a A F; [exact A|]. inversion F; subst. cbn [fold_left]. apply IH; [lia|assumption]. }
    apply H; [lia|exact F]. }
  assert (P0 : 0 < p) by (apply (POS SIZE_MAX s p); [reflexivity|exact P]).
  assert (R0 : 0 < r) by (apply (POS 12 t r); [reflexivity|exact Q]).
  destruct (Z.leb_spec p 0); [lia|]. destruct (Z.leb_spec r 0); [lia|]. cbn [orb].
  eexists. split; [reflexivity|]. cbn [c_pixel_max c_default_range c_frexp_special c_backend].
  repeat (split; [reflexivity|]). split.
  - destruct (ifdef env k "HAVE_FFTW"); split; congruence.
  - unfold config_ok. cbn [c_pixel_max c_default_range]. rewrite !Bool.andb_true_iff, !Z.leb_le. lia.
Qed.
Lemma built_limits_example :
  let args := ["--pixel-max=65536"; "--default-range=8"]%string in
  configures (linux []) no_env args None (mak_of (linux []) args) /\
  setting args no_env "--pixel-max" "PIXEL_MAX" "65536" /\ means_number SIZE_MAX "65536" 65536 /\
  setting args no_env "--default-range" "DEFAULT_RANGE" "8" /\ means_number 12 "8" 8 /\
  config_built no_env (mak_of (linux []) args) 0 = Some (mkConfig 65536 8 KISS 0) /\
  config_built no_env (mak_of (linux []) []) 0 = Some default_config /\
  config_built no_env (mak_of (linux []) ["--default-range=0"%string]) 0 = None.
Proof.
  split; [apply demo_configures; known|].
  split; [apply (by_option _ _ _ _ [] ["--default-range=8"%string]); [reflexivity|unasked|reflexivity]|].
  split; [right; exists 6, [5; 5; 3; 6]; repeat split; try lia; repeat constructor; lia|].
  split; [apply (by_option _ _ _ _ ["--pixel-max=65536"%string] []); [reflexivity|unasked|reflexivity]|].
  split; [right; exists 8, []; repeat split; try lia; constructor|].
  repeat split; vm_compute; reflexivity.
Qed.

(** C91, finding: the help text gives three options as "--default-range [n]",
    "--coeff-precision [F|D|L]" and "--inter-precision [F|D|L]".  Typed like that, with the value
    as an argument of its own, every command line is refused. *)
Lemma usage_form_refuted_claim : forall M env l opt value r old, Forall recognised l ->
  In opt ["--default-range"; "--coeff-precision"; "--inter-precision"]%string ->
  (forall rest, value <> String "-" rest) ->
  configure M env (l ++ opt :: value :: r) old = mkConfigured 1 old false.
Proof.
  intros M env l opt value r old R I N.
  replace (l ++ opt :: value :: r) with ((l ++ [opt]) ++ value :: r) by (rewrite <- app_assoc; reflexivity).
  assert (K : forall x, In x ("--help"%string :: option_names) -> ~ names value x).
  { intros x J H. assert (D : exists t, x = String "-" t).
    { cbn in J. repeat (destruct J as [<-|J]; [eexists; reflexivity|]). destruct J. }
    destruct D as [t ->]. destruct H as [->|[a ->]]; [apply (N t)|apply (N (t ++ "=" ++ a)%string)]; reflexivity. }
  apply refuses.
  - apply Forall_app. split; [exact R|]. constructor; [|constructor]. exists opt. split; [|left; reflexivity].
    destruct I as [<-|[<-|[<-|[]]]]; vm_compute; tauto.
  - intros (x & J & H). apply (K x); [right; exact J|exact H].
  - apply K. left. reflexivity.
Qed.
Lemma usage_form_refuted_example :
  x_status (configure (linux []) no_env ["--coeff-precision"; "D"]%string None) = 1 /\
  x_status (configure (linux []) no_env ["--coeff-precision=D"]%string None) = 0.
Proof. split; vm_compute; reflexivity. Qed.

(** C91, finding: an intermediate precision that is not one of F, D and L is never refused: any
    other name counts as 0, which is less than every coefficient precision, so the intermediates
    silently get the precision of the coefficients; by default that is float instead of double. *)
Lemma inter_setting_refuted_claim : forall M env args old k s t p,
  configures M env args old k ->
  setting args env "--coeff-precision" "COEFF_PRECISION" s -> means_precision PF s p ->
  setting args env "--inter-precision" "INTER_PRECISION" t -> other_name t ->
  intermediate_precision (macros env k) = Some p.
Proof.
  intros M env args old k s t p C S P T O. destruct (configures_run _ _ _ _ _ C) as [rn].
  unfold intermediate_precision. destruct (coeff_value rn s p S P) as (-> & _).
  unfold value_or. rewrite (inter_macro rn t T).
  destruct (empty t) eqn:E; [apply String.eqb_eq in E; destruct O as [N _]; contradiction|].
  rewrite (other_value t O). destruct p; reflexivity.
Qed.
Lemma inter_setting_refuted_example :
  let args := ["--inter-precision=double"%string] in
  configures (linux []) no_env args None (mak_of (linux []) args) /\ other_name "double" /\
  intermediate_precision (macros no_env (mak_of (linux []) args)) = Some PF /\
  intermediate_precision (macros no_env (mak_of (linux []) [])) = Some PD.
Proof.
  split; [apply demo_configures; known|].
  split; [split; [discriminate|]; split; [discriminate|]; split; [discriminate|]; split; [discriminate|]; cbn; repeat constructor; lia|].
  split; vm_compute; reflexivity.
Qed.

(** C91, finding: precision.h also accepts the numbers 1, 2 and 3 as precisions, but configure
    does not know them: with --coeff-precision=2 the coefficients are doubles, while the FFTW
    library chosen is that for floats, and KISS FFT computes in float. *)
Lemma coeff_setting_refuted_claim : forall M env args old k n p,
  configures M env args old k -> versioned M -> unset env result_names ->
  In (n, p) [("2"%string, PD); ("3"%string, PL)] ->
  setting args env "--coeff-precision" "COEFF_PRECISION" n ->
  coeff_precision (macros env k) = Some p /\ kiss_scalar (macros env k) = Some PF /\
  (ifdef env k "HAVE_FFTW" = true <->
   available M "fftw3f" /\ ~ asked args "--disable-fftw" /\ ~ asked args "--disable-everything").
Proof.
  intros M env args old k n p C ve un I S. destruct (configures_run _ _ _ _ _ C) as [rn].
  destruct (coeff_macro rn n S) as [E F].
  split; [|split].
  - unfold coeff_precision, value_or. rewrite E. destruct I as [[= <- <-]|[[= <- <-]|[]]]; reflexivity.
  - unfold kiss_scalar. rewrite (def_scalar rn), F. destruct I as [[= <- <-]|[[= <- <-]|[]]]; reflexivity.
  - rewrite (if_fftw rn ve un), F, (want_fftw rn), if_none.
    destruct I as [[= <- <-]|[[= <- <-]|[]]]; apply two_iff; reflexivity.
Qed.
Lemma coeff_setting_refuted_example :
  let M := linux ["fftw3f"; "fftw3"]%string in let args := ["--coeff-precision=2"%string] in
  configures M no_env args None (mak_of M args) /\ coeff_precision (macros no_env (mak_of M args)) = Some PD /\
  ifdef no_env (mak_of M args) "HAVE_FFTW" = true /\
  mkvar no_env (mak_of M args) "LDLIBS" = " -lm -lfftw3f"%string.
Proof. split; [apply demo_configures; known|]. repeat split; vm_compute; reflexivity. Qed.

Definition bare_host : machine :=
  mkMachine (fun c => if String.eqb c "pkg-config" then None else Some c) (fun _ => false) (fun _ => Some "x86_64-linux"%string)
    (fun _ => true) (fun _ => Some "1.0"%string) (fun _ => ""%string) (fun _ => Some ""%string) true true None.
(** C91, finding: configure insists on pkg-config only for the sake of libjpeg, libpng, MagickWand
    and FFTW.  With these four disabled and pkg-config missing it succeeds, and silently leaves
    out FFmpeg, which was not disabled. *)
Lemma ffmpeg_check_refuted_claim : exists args,
  configures bare_host no_env args None (mak_of bare_host args) /\
  ~ asked args "--disable-ffmpeg" /\ ~ asked args "--disable-everything" /\
  r_ffmpeg (readers_built (macros no_env (mak_of bare_host args))) = false.
Proof.
  exists ["--disable-fftw"; "--disable-libjpeg"; "--disable-libpng"; "--disable-MagickWand"]%string.
  split; [split; [vm_compute; reflexivity|]; split; [vm_compute; reflexivity|unasked]|].
  split; [unasked|]. split; [unasked|vm_compute; reflexivity].
Qed.
Lemma ffmpeg_check_refuted_example : forall name, In name ["--disable-libjpeg"; "--disable-libpng"; "--disable-MagickWand"]%string ->
  x_status (configure bare_host no_env [name] None) = 1.
Proof. intros name [<-|[<-|[<-|[]]]]; vm_compute; reflexivity. Qed.

(** C92.  On machines where shared libraries end in .so, and for static libraries everywhere,
    make uninstall removes every file that make install and make install-lib have made, wherever
    the prefixes point to. *)
Lemma installed_removed_claim : forall M env args old k, configures M env args old k -> unset env result_names ->
  ~ asked args "--enable-shared" \/ unlike_these M ["mingw32"; "windows"; "darwin"]%string ->
  forall f, In f (installed_program env k :: installed_lib M env k) -> In f (uninstalled M env k).
Proof. intros M env args old k C un. destruct (configures_run _ _ _ _ _ C) as [rn]. apply (removes rn un). Qed.
Lemma installed_removed_example :
  let M := linux [] in let k := mak_of M ["--enable-shared"; "--prefix=/opt/resdet"]%string in
  configures M no_env ["--enable-shared"; "--prefix=/opt/resdet"]%string None k /\
  unlike_these M ["mingw32"; "windows"; "darwin"]%string /\
  installed_program no_env k :: installed_lib M no_env k =
    ["/opt/resdet/bin/resdet"; "/opt/resdet/include/resdet.h"; "/opt/resdet/lib/libresdet.a";
     "/opt/resdet/lib/libresdet.so.3.1.1"; "/opt/resdet/lib/libresdet.so.3"; "/opt/resdet/lib/libresdet.so";
     "/opt/resdet/lib/pkgconfig/resdet.pc"]%string.
Proof.
  split; [apply demo_configures; known|]. split; [|vm_compute; reflexivity].
  intros cc triple a b x H I. cbn in H. injection H as <-.
  repeat (destruct I as [<-|I]; [intros E; do 19 (destruct a as [|? a]; [discriminate E|injection E as _ E]); destruct a; discriminate E|]).
  destruct I.
Qed.

(** Programs linked with the shared library look for it under a name that was installed. *)
Lemma installed_loads_claim : forall M env args old k f, configures M env args old k ->
  loaded_as M env k = Some f -> In f (installed_lib M env k).
Proof. intros M env args old k f C. destruct (configures_run _ _ _ _ _ C) as [rn]. apply (loads (M:=M)). Qed.
Lemma installed_loads_example :
  loaded_as (linux []) no_env (mak_of (linux []) ["--enable-shared"%string]) = Some "/usr/local/lib/libresdet.so.3"%string /\
  loaded_as darwin no_env (mak_of darwin ["--enable-shared"%string]) = Some "/usr/local/lib/libresdet.dylib"%string.
Proof. split; vm_compute; reflexivity. Qed.

(** The version in resdet.pc is that reported by the library. *)
Lemma versions_agree_claim : forall M env args old k, configures M env args old k ->
  libversion_built (macros env k) = pc_version M.
Proof. intros M env args old k C. destruct (configures_run _ _ _ _ _ C) as [rn]. apply (version_suffix rn). Qed.
Lemma versions_agree_example :
  configures (linux []) no_env [] None (mak_of (linux []) []) /\
  libversion_built (macros no_env (mak_of (linux []) [])) = "3.1.1+1a2b3c4"%string.
Proof. split; [apply demo_configures; constructor|vm_compute; reflexivity]. Qed.

(** If the directories of the library and the header are not moved from under the prefix,
    resdet.pc leads to the library and the header that were installed. *)
Lemma pc_directories_claim : forall M env args old k, configures M env args old k ->
  unset env ["LIBPREFIX"; "INCPREFIX"]%string -> ~ asked args "--libprefix" -> ~ asked args "--incprefix" ->
  In (pc_includedir env k ++ "/resdet.h")%string (installed_lib M env k) /\
  In (pc_libdir env k ++ "/libresdet.a")%string (installed_lib M env k).
Proof.
  intros M env args old k C un L I. destruct (configures_run _ _ _ _ _ C) as [rn].
  rewrite <- (libprefix_default rn (un "LIBPREFIX"%string ltac:(cbn; tauto)) L), <- (incprefix_default rn (un "INCPREFIX"%string ltac:(cbn; tauto)) I).
  unfold installed_lib. cbv zeta. split; [left; reflexivity|right; left; reflexivity].
Qed.
Lemma pc_directories_example :
  let k := mak_of (linux []) ["--prefix=/opt"; "--binprefix=/bin"]%string in
  configures (linux []) no_env ["--prefix=/opt"; "--binprefix=/bin"]%string None k /\
  unset no_env ["LIBPREFIX"; "INCPREFIX"]%string /\ ~ asked ["--prefix=/opt"; "--binprefix=/bin"]%string "--libprefix" /\
  pc_libdir no_env k = "/opt/lib"%string.
Proof.
  split; [apply demo_configures; known|]. split; [intros x _; reflexivity|]. split; [unasked|vm_compute; reflexivity].
Qed.

(** C92, finding: resdet.pc names the directory lib under the prefix even if --libprefix puts the
    library elsewhere, so that programs built with pkg-config do not find it there. *)
Lemma pc_directories_refuted_claim : forall M env args old k a, configures M env args old k ->
  setting args env "--libprefix" "LIBPREFIX" a -> a <> ""%string -> a <> pc_libdir env k ->
  mkvar env k "LIBPREFIX" <> pc_libdir env k.
Proof.
  intros M env args old k a C S N D. destruct (configures_run _ _ _ _ _ C) as [rn]. rewrite (libprefix_moved rn a S N). exact D.
Qed.
Lemma pc_directories_refuted_example :
  let k := mak_of (linux []) ["--libprefix=/usr/lib64"]%string in
  configures (linux []) no_env ["--libprefix=/usr/lib64"]%string None k /\
  setting ["--libprefix=/usr/lib64"]%string no_env "--libprefix" "LIBPREFIX" "/usr/lib64" /\
  pc_libdir no_env k = "/usr/local/lib"%string /\
  ~ In (pc_libdir no_env k ++ "/libresdet.a")%string (installed_lib (linux []) no_env k).
Proof.
  split; [apply demo_configures; known|]. split; [apply (by_option _ _ _ _ [] []); [reflexivity|unasked|discriminate]|].
  split; [vm_compute; reflexivity|]. vm_compute. intuition discriminate.
Qed.

(** C92, finding: for shared libraries on Darwin, make uninstall leaves the library itself and one
    of the links to it; it refers to a variable VERSION_MINOR that nothing assigns.  On Windows it
    leaves the library. *)
Lemma uninstall_refuted_claim :
  exists M args k, configures M no_env args None k /\
  (exists f g, f <> g /\ In f (installed_lib M no_env k) /\ ~ In f (uninstalled M no_env k) /\
               In g (installed_lib M no_env k) /\ ~ In g (uninstalled M no_env k)).
Proof.
  exists darwin, ["--enable-shared"%string], (mak_of darwin ["--enable-shared"%string]).
  split; [apply demo_configures; known|].
  exists "/usr/local/lib/libresdet.3.1.1.dylib"%string, "/usr/local/lib/libresdet.3.1.dylib"%string.
  split; [discriminate|]. split; [vm_compute; tauto|]. split; [vm_compute; intuition discriminate|].
  split; [vm_compute; tauto|vm_compute; intuition discriminate].
Qed.
Lemma uninstall_refuted_example :
  let M := demo_host "x86_64-w64-mingw32" [] in let k := mak_of M ["--enable-shared"%string] in
  In "/usr/local/lib/libresdet.dll"%string (installed_lib M no_env k) /\
  ~ In "/usr/local/lib/libresdet.dll"%string (uninstalled M no_env k).
Proof. split; [vm_compute; tauto|vm_compute; intuition discriminate]. Qed.

(** C92, finding: make uninstall-lib also removes the program that make install has made. *)
Lemma uninstall_lib_refuted_claim : forall M env args old k, configures M env args old k ->
  In (installed_program env k) (uninstalled_lib M env k).
Proof. intros M env args old k C. left. reflexivity. Qed.
Lemma uninstall_lib_refuted_example :
  installed_program no_env (mak_of (linux []) []) = "/usr/local/bin/resdet"%string /\
  In "/usr/local/bin/resdet"%string (uninstalled_lib (linux []) no_env (mak_of (linux []) [])).
Proof. split; [vm_compute; reflexivity|vm_compute; tauto]. Qed.
