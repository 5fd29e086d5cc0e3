(**     Properties C91 and C92: configuring, building and installing. *)
From Coq Require Import Ascii String Lia.
From Verif Require Import Base Flt Util Methods Stdio Pgm Y4m Image Precision Build SpecBuild.
From Verif Require Import BuildProofs BuildResultProofs BuildSettingProofs BuildInstallProofs.
Import ListNotations.
Open Scope list_scope.
Open Scope Z_scope.
From Verif Require Import BuildClaims.

(** C91.  configure accepts every command line made of its options, if it finds the tools; the
    first argument that is not one of its options ends it with status 1 and leaves an old
    config.mak as it was. *)
Theorem configure_outcome :
  (forall M env args old, Forall recognised args ->
     (forall cc, exists triple, h_triple M cc = Some triple) -> (forall x, exists path, h_command M x = Some path) ->
     (forall l, exists flags, h_libs M l = Some flags) ->
     exists k, configures M env args old k) /\
  (forall M env l o r old, Forall recognised l -> ~ recognised o -> ~ names o "--help" ->
     configure M env (l ++ o :: r) old = mkConfigured 1 old false).
Proof. exact configure_outcome_claim. Qed.
Print Assumptions configure_outcome.

Example configure_outcome_witness :
  (exists k, configures (linux ["libpng"%string]) no_env ["--disable-fftw"; "--pixel-max=65536"]%string None k) /\
  configure (linux []) no_env ["--disable-fftw"; "--disable-png"; "--verbose"]%string (Some (mkMak [] [])) = mkConfigured 1 (Some (mkMak [] [])) false.
Proof. exact configure_outcome_example. Qed.

(** The readers of the library are exactly those asked for: each of the three of its own unless
    omitted; each of the others if pkg-config finds its library, unless disabled. *)
Theorem built_readers : forall M env args old k, configures M env args old k -> unset env result_names ->
  let R := readers_built (macros env k) in
  (r_pgm R = true <-> ~ asked args "--omit-pgm-reader") /\
  (r_pfm R = true <-> ~ asked args "--omit-pfm-reader") /\
  (r_y4m R = true <-> ~ asked args "--omit-y4m-reader") /\
  (r_libjpeg R = true <-> available M "libjpeg" /\ ~ asked args "--disable-libjpeg" /\ ~ asked args "--disable-everything") /\
  (r_libpng R = true <-> available M "libpng" /\ ~ asked args "--disable-libpng" /\ ~ asked args "--disable-everything") /\
  (r_ffmpeg R = true <-> available M "libavcodec libavformat libavutil libswscale" /\
                         ~ asked args "--disable-ffmpeg" /\ ~ asked args "--disable-everything") /\
  (r_magickwand R = true <-> available M "MagickWand" /\ ~ asked args "--disable-MagickWand" /\ ~ asked args "--disable-everything").
Proof. exact built_readers_claim. Qed.
Print Assumptions built_readers.

Example built_readers_witness :
  let M := linux ["libpng"; "libjpeg"; "MagickWand"]%string in
  let args := ["--disable-libjpeg"; "--omit-pfm-reader"]%string in
  configures M no_env args None (mak_of M args) /\
  resdet_list_image_readers (readers_built (macros no_env (mak_of M args))) = ["PGM"; "Y4M"; "libpng"; "MagickWand"]%string.
Proof. exact built_readers_example. Qed.

(** The table of readers and the object files of the library agree: whatever is disabled,
    omitted or missing, the object that defines a reader is part of the library exactly if the
    table refers to the reader.  There is exactly one transform, and no object twice. *)
Theorem built_objects : forall M env args old k, configures M env args old k -> versioned M -> unset env result_names ->
  (forall r, In r (resdet_image_readers (readers_built (macros env k))) <-> In (object_of r) (objects env k)) /\
  (In "lib/transform/fftw.o"%string (objects env k) <-> ~ In "lib/transform/kiss_fft.o"%string (objects env k)) /\
  (In "lib/transform/kiss_fft.o"%string (objects env k) <-> In "lib/kissfft/kiss_fftr.o"%string (objects env k)) /\
  NoDup (objects env k).
Proof. exact built_objects_claim. Qed.
Print Assumptions built_objects.

Example built_objects_witness :
  let M := linux ["fftw3f"; "libpng"]%string in
  configures M no_env ["--omit-y4m-reader"%string] None (mak_of M ["--omit-y4m-reader"%string]) /\ versioned M /\ unset no_env result_names /\
  objects no_env (mak_of M ["--omit-y4m-reader"%string]) =
    ["lib/resdetect.o"; "lib/analysis.o"; "lib/util.o"; "lib/image.o"; "lib/image_readers.o"; "lib/methods.o";
     "lib/transform/fftw.o"; "lib/image/libpng.o"; "lib/image/pgm.o"; "lib/image/pfm.o"]%string.
Proof. exact built_objects_example. Qed.

(** configure warns exactly if the library will have no reader. *)
Theorem built_warning : forall M env args old k, configures M env args old k -> unset env result_names ->
  (x_warned (configure M env args old) = true <-> resdet_list_image_readers (readers_built (macros env k)) = []).
Proof. exact built_warning_claim. Qed.
Print Assumptions built_warning.

Example built_warning_witness :
  let args := ["--omit-y4m-reader"; "--omit-pgm-reader"; "--omit-pfm-reader"]%string in
  configures (linux []) no_env args None (mak_of (linux []) args) /\
  x_warned (configure (linux []) no_env args None) = true /\
  x_warned (configure (linux ["libpng"%string]) no_env args None) = false.
Proof. exact built_warning_example. Qed.

(** For each of the settings F, D and L, and without settings, the coefficients have the
    precision asked for and the intermediates the finer of both; FFTW is used exactly if the
    library of that precision is there and not disabled, and KISS FFT computes in float for F
    and in double for D and L. *)
Theorem built_precisions : forall M env args old k s t p q,
  configures M env args old k -> versioned M -> unset env result_names ->
  setting args env "--coeff-precision" "COEFF_PRECISION" s -> means_precision PF s p ->
  setting args env "--inter-precision" "INTER_PRECISION" t -> means_precision PD t q ->
  coeff_precision (macros env k) = Some p /\ intermediate_precision (macros env k) = Some (finer p q) /\
  (ifdef env k "HAVE_FFTW" = true <->
   available M (match p with PF => "fftw3f" | PD => "fftw3" | PL => "fftw3l" end)%string /\
   ~ asked args "--disable-fftw" /\ ~ asked args "--disable-everything") /\
  kiss_scalar (macros env k) = Some (match p with PF => PF | PD | PL => PD end).
Proof. exact built_precisions_claim. Qed.
Print Assumptions built_precisions.

Example built_precisions_witness :
  let M := linux ["fftw3"%string] in let args := ["--coeff-precision=D"; "--inter-precision=F"]%string in
  configures M no_env args None (mak_of M args) /\
  setting args no_env "--coeff-precision" "COEFF_PRECISION" "D" /\ means_precision PF "D" PD /\
  setting args no_env "--inter-precision" "INTER_PRECISION" "F" /\ means_precision PD "F" PF /\
  intermediate_precision (macros no_env (mak_of M args)) = Some PD /\ ifdef no_env (mak_of M args) "HAVE_FFTW" = true.
Proof. exact built_precisions_example. Qed.

(** The limits asked for, as decimal numbers, are those of the library, and such a library meets
    the conditions under which all other properties are claimed; 0 is refused by the compiler. *)
Theorem built_limits : forall M env args old k s t p r special,
  configures M env args old k ->
  setting args env "--pixel-max" "PIXEL_MAX" s -> means_number SIZE_MAX s p ->
  setting args env "--default-range" "DEFAULT_RANGE" t -> means_number 12 t r ->
  p <= SIZE_MAX -> r <= SIZE_MAX ->
  exists c, config_built env k special = Some c /\ c_pixel_max c = p /\ c_default_range c = r /\ c_frexp_special c = special /\
            (c_backend c = FFTW <-> ifdef env k "HAVE_FFTW" = true) /\ config_ok c = true.
Proof. exact built_limits_claim. Qed.
Print Assumptions built_limits.

Example built_limits_witness :
  let args := ["--pixel-max=65536"; "--default-range=8"]%string in
  configures (linux []) no_env args None (mak_of (linux []) args) /\
  setting args no_env "--pixel-max" "PIXEL_MAX" "65536" /\ means_number SIZE_MAX "65536" 65536 /\
  setting args no_env "--default-range" "DEFAULT_RANGE" "8" /\ means_number 12 "8" 8 /\
  config_built no_env (mak_of (linux []) args) 0 = Some (mkConfig 65536 8 KISS 0) /\
  config_built no_env (mak_of (linux []) []) 0 = Some default_config /\
  config_built no_env (mak_of (linux []) ["--default-range=0"%string]) 0 = None.
Proof. exact built_limits_example. Qed.

(** C91, finding: the help text gives three options as "--default-range [n]",
    "--coeff-precision [F|D|L]" and "--inter-precision [F|D|L]".  Typed like that, with the value
    as an argument of its own, every command line is refused. *)
Theorem usage_form_refuted : forall M env l opt value r old, Forall recognised l ->
  In opt ["--default-range"; "--coeff-precision"; "--inter-precision"]%string ->
  (forall rest, value <> String "-" rest) ->
  configure M env (l ++ opt :: value :: r) old = mkConfigured 1 old false.
Proof. exact usage_form_refuted_claim. Qed.
Print Assumptions usage_form_refuted.

Example usage_form_refuted_witness :
  x_status (configure (linux []) no_env ["--coeff-precision"; "D"]%string None) = 1 /\
  x_status (configure (linux []) no_env ["--coeff-precision=D"]%string None) = 0.
Proof. exact usage_form_refuted_example. Qed.

(** C91, finding: an intermediate precision that is not one of F, D and L is never refused: any
    other name counts as 0, which is less than every coefficient precision, so the intermediates
    silently get the precision of the coefficients; by default that is float instead of double. *)
Theorem inter_setting_refuted : forall M env args old k s t p,
  configures M env args old k ->
  setting args env "--coeff-precision" "COEFF_PRECISION" s -> means_precision PF s p ->
  setting args env "--inter-precision" "INTER_PRECISION" t -> other_name t ->
  intermediate_precision (macros env k) = Some p.
Proof. exact inter_setting_refuted_claim. Qed.
Print Assumptions inter_setting_refuted.

Example inter_setting_refuted_witness :
  let args := ["--inter-precision=double"%string] in
  configures (linux []) no_env args None (mak_of (linux []) args) /\ other_name "double" /\
  intermediate_precision (macros no_env (mak_of (linux []) args)) = Some PF /\
  intermediate_precision (macros no_env (mak_of (linux []) [])) = Some PD.
Proof. exact inter_setting_refuted_example. Qed.

(** C91, finding: precision.h also accepts the numbers 1, 2 and 3 as precisions, but configure
    does not know them: with --coeff-precision=2 the coefficients are doubles, while the FFTW
    library chosen is that for floats, and KISS FFT computes in float. *)
Theorem coeff_setting_refuted : forall M env args old k n p,
  configures M env args old k -> versioned M -> unset env result_names ->
  In (n, p) [("2"%string, PD); ("3"%string, PL)] ->
  setting args env "--coeff-precision" "COEFF_PRECISION" n ->
  coeff_precision (macros env k) = Some p /\ kiss_scalar (macros env k) = Some PF /\
  (ifdef env k "HAVE_FFTW" = true <->
   available M "fftw3f" /\ ~ asked args "--disable-fftw" /\ ~ asked args "--disable-everything").
Proof. exact coeff_setting_refuted_claim. Qed.
Print Assumptions coeff_setting_refuted.

Example coeff_setting_refuted_witness :
  let M := linux ["fftw3f"; "fftw3"]%string in let args := ["--coeff-precision=2"%string] in
  configures M no_env args None (mak_of M args) /\ coeff_precision (macros no_env (mak_of M args)) = Some PD /\
  ifdef no_env (mak_of M args) "HAVE_FFTW" = true /\
  mkvar no_env (mak_of M args) "LDLIBS" = " -lm -lfftw3f"%string.
Proof. exact coeff_setting_refuted_example. Qed.

(** C91, finding: configure insists on pkg-config only for the sake of libjpeg, libpng, MagickWand
    and FFTW.  With these four disabled and pkg-config missing it succeeds, and silently leaves
    out FFmpeg, which was not disabled. *)
Theorem ffmpeg_check_refuted : exists args,
  configures bare_host no_env args None (mak_of bare_host args) /\
  ~ asked args "--disable-ffmpeg" /\ ~ asked args "--disable-everything" /\
  r_ffmpeg (readers_built (macros no_env (mak_of bare_host args))) = false.
Proof. exact ffmpeg_check_refuted_claim. Qed.
Print Assumptions ffmpeg_check_refuted.

Example ffmpeg_check_refuted_witness : forall name, In name ["--disable-libjpeg"; "--disable-libpng"; "--disable-MagickWand"]%string ->
  x_status (configure bare_host no_env [name] None) = 1.
Proof. exact ffmpeg_check_refuted_example. Qed.

(** C92.  On machines where shared libraries end in .so, and for static libraries everywhere,
    make uninstall removes every file that make install and make install-lib have made, wherever
    the prefixes point to. *)
Theorem installed_removed : forall M env args old k, configures M env args old k -> unset env result_names ->
  ~ asked args "--enable-shared" \/ unlike_these M ["mingw32"; "windows"; "darwin"]%string ->
  forall f, In f (installed_program env k :: installed_lib M env k) -> In f (uninstalled M env k).
Proof. exact installed_removed_claim. Qed.
Print Assumptions installed_removed.

Example installed_removed_witness :
  let M := linux [] in let k := mak_of M ["--enable-shared"; "--prefix=/opt/resdet"]%string in
  configures M no_env ["--enable-shared"; "--prefix=/opt/resdet"]%string None k /\
  unlike_these M ["mingw32"; "windows"; "darwin"]%string /\
  installed_program no_env k :: installed_lib M no_env k =
    ["/opt/resdet/bin/resdet"; "/opt/resdet/include/resdet.h"; "/opt/resdet/lib/libresdet.a";
     "/opt/resdet/lib/libresdet.so.3.1.1"; "/opt/resdet/lib/libresdet.so.3"; "/opt/resdet/lib/libresdet.so";
     "/opt/resdet/lib/pkgconfig/resdet.pc"]%string.
Proof. exact installed_removed_example. Qed.

(** Programs linked with the shared library look for it under a name that was installed. *)
Theorem installed_loads : forall M env args old k f, configures M env args old k ->
  loaded_as M env k = Some f -> In f (installed_lib M env k).
Proof. exact installed_loads_claim. Qed.
Print Assumptions installed_loads.

Example installed_loads_witness :
  loaded_as (linux []) no_env (mak_of (linux []) ["--enable-shared"%string]) = Some "/usr/local/lib/libresdet.so.3"%string /\
  loaded_as darwin no_env (mak_of darwin ["--enable-shared"%string]) = Some "/usr/local/lib/libresdet.dylib"%string.
Proof. exact installed_loads_example. Qed.

(** The version in resdet.pc is that reported by the library. *)
Theorem versions_agree : forall M env args old k, configures M env args old k ->
  libversion_built (macros env k) = pc_version M.
Proof. exact versions_agree_claim. Qed.
Print Assumptions versions_agree.

Example versions_agree_witness :
  configures (linux []) no_env [] None (mak_of (linux []) []) /\
  libversion_built (macros no_env (mak_of (linux []) [])) = "3.1.1+1a2b3c4"%string.
Proof. exact versions_agree_example. Qed.

(** If the directories of the library and the header are not moved from under the prefix,
    resdet.pc leads to the library and the header that were installed. *)
Theorem pc_directories : forall M env args old k, configures M env args old k ->
  unset env ["LIBPREFIX"; "INCPREFIX"]%string -> ~ asked args "--libprefix" -> ~ asked args "--incprefix" ->
  In (pc_includedir env k ++ "/resdet.h")%string (installed_lib M env k) /\
  In (pc_libdir env k ++ "/libresdet.a")%string (installed_lib M env k).
Proof. exact pc_directories_claim. Qed.
Print Assumptions pc_directories.

Example pc_directories_witness :
  let k := mak_of (linux []) ["--prefix=/opt"; "--binprefix=/bin"]%string in
  configures (linux []) no_env ["--prefix=/opt"; "--binprefix=/bin"]%string None k /\
  unset no_env ["LIBPREFIX"; "INCPREFIX"]%string /\ ~ asked ["--prefix=/opt"; "--binprefix=/bin"]%string "--libprefix" /\
  pc_libdir no_env k = "/opt/lib"%string.
Proof. exact pc_directories_example. Qed.

(** C92, finding: resdet.pc names the directory lib under the prefix even if --libprefix puts the
    library elsewhere, so that programs built with pkg-config do not find it there. *)
Theorem pc_directories_refuted : forall M env args old k a, configures M env args old k ->
  setting args env "--libprefix" "LIBPREFIX" a -> a <> ""%string -> a <> pc_libdir env k ->
  mkvar env k "LIBPREFIX" <> pc_libdir env k.
Proof. exact pc_directories_refuted_claim. Qed.
Print Assumptions pc_directories_refuted.

Example pc_directories_refuted_witness :
  let k := mak_of (linux []) ["--libprefix=/usr/lib64"]%string in
  configures (linux []) no_env ["--libprefix=/usr/lib64"]%string None k /\
  setting ["--libprefix=/usr/lib64"]%string no_env "--libprefix" "LIBPREFIX" "/usr/lib64" /\
  pc_libdir no_env k = "/usr/local/lib"%string /\
  ~ In (pc_libdir no_env k ++ "/libresdet.a")%string (installed_lib (linux []) no_env k).
Proof. exact pc_directories_refuted_example. Qed.

(** C92, finding: for shared libraries on Darwin, make uninstall leaves the library itself and one
    of the links to it; it refers to a variable VERSION_MINOR that nothing assigns.  On Windows it
    leaves the library. *)
Theorem uninstall_refuted :
  exists M args k, configures M no_env args None k /\
  (exists f g, f <> g /\ In f (installed_lib M no_env k) /\ ~ In f (uninstalled M no_env k) /\
               In g (installed_lib M no_env k) /\ ~ In g (uninstalled M no_env k)).
Proof. exact uninstall_refuted_claim. Qed.
Print Assumptions uninstall_refuted.

Example uninstall_refuted_witness :
  let M := demo_host "x86_64-w64-mingw32" [] in let k := mak_of M ["--enable-shared"%string] in
  In "/usr/local/lib/libresdet.dll"%string (installed_lib M no_env k) /\
  ~ In "/usr/local/lib/libresdet.dll"%string (uninstalled M no_env k).
Proof. exact uninstall_refuted_example. Qed.

(** C92, finding: make uninstall-lib also removes the program that make install has made. *)
Theorem uninstall_lib_refuted : forall M env args old k, configures M env args old k ->
  In (installed_program env k) (uninstalled_lib M env k).
Proof. exact uninstall_lib_refuted_claim. Qed.
Print Assumptions uninstall_lib_refuted.

Example uninstall_lib_refuted_witness :
  installed_program no_env (mak_of (linux []) []) = "/usr/local/bin/resdet"%string /\
  In "/usr/local/bin/resdet"%string (uninstalled_lib (linux []) no_env (mak_of (linux []) [])).
Proof. exact uninstall_lib_refuted_example. Qed.
