(** * The build: configure, Makefile, lib/precision.h, the guards of lib/resdet_internal.h,
    lib/image_readers.c and the targets that install and remove files.

    Simplified: shell and make variables hold text that neither splits nor expands further;
    macro definitions in DEFS are a list of names and values instead of text; variables that
    only serve make check (configure:288-313) and messages other than the warning of
    configure:283-285 are left out; what the compiler, pkg-config and git report is a
    parameter ([machine]). *)
From Coq Require Import Ascii String.
From Verif Require Import Base Flt Util Methods Stdio Pgm Pfm Y4m Image Precision.

Local Infix "+++" := String.append (right associativity, at level 60).

(** ** Text *)
Fixpoint before (c : ascii) (s : string) : string :=
  match s with
  | EmptyString => EmptyString
  | String a s => if Ascii.eqb a c then EmptyString else String a (before c s)
  end.
(** None: the character does not occur *)
Fixpoint after (c : ascii) (s : string) : option string :=
  match s with
  | EmptyString => None
  | String a s => if Ascii.eqb a c then Some s else after c s
  end.
Definition contains (sub s : string) : bool := match String.index 0 sub s with Some _ => true | None => false end.
Definition empty (s : string) : bool := String.eqb s "".

(** ** configure *)

(** shell variables; one that is not set reads as the empty text *)
Definition vars := string -> string.
Definition setv (v : vars) (x a : string) : vars := fun y => if String.eqb y x then a else v y.
(** ${x:-a} *)
Definition or_default (v : vars) (x a : string) : string := if empty (v x) then a else v x.
Definition set_all (l : list (string * string)) (v : vars) : vars := fold_left (fun v '(x, a) => setv v x a) l v.

Record machine := mkMachine {
  h_command : string -> option string;       (* command -v *)
  h_status : string -> bool;                 (* whether a command succeeds *)
  h_triple : string -> option string;        (* $CC -dumpmachine; None: fails *)
  h_gcc : string -> bool;                    (* configure:170: the last line of $CC -v *)
  h_modversion : string -> option string;    (* pkg-config --modversion; None: no such module *)
  h_cflags : string -> string;               (* pkg-config --cflags *)
  h_libs : list string -> option string;     (* pkg-config --libs *)
  h_libm : bool;                             (* testlib m *)
  h_signbit : bool;                          (* testcc __builtin_signbit *)
  h_suffix : option string                   (* configure:208-209 *)
}.

(** a variable used as a command: an empty command succeeds *)
Definition succeeds (M : machine) (text : string) : bool :=
  if empty text || String.eqb text "true" then true
  else if String.eqb text "false" then false else h_status M text.

(** configure:5-25 *)
Definition initial (env : vars) : vars :=
  let cflags := ("-O3 -Wall -Werror -DRESDET_EXPORT " +++ env "CFLAGS")%string in
  set_all
    [("CC", or_default env "CC" "cc"); ("AR", or_default env "AR" "ar"); ("PREFIX", or_default env "PREFIX" "/usr/local");
     ("CFLAGS", cflags); ("CFLAGS_LIB", "-std=c99 -pedantic " +++ cflags); ("CFLAGS_CLI", "-std=gnu99 " +++ cflags);
     ("sharedlib", "false");
     ("with_fftw", "true"); ("with_libjpeg", "true"); ("with_libpng", "true"); ("with_MagicWand", "true"); ("with_ffmpeg", "true");
     ("omit_pgm_reader", "false"); ("omit_pfm_reader", "false"); ("omit_y4m_reader", "false");
     ("use_builtin_signbit", "true"); ("verbose", "false")]%string env.

(** configure:70-95: what an option assigns *)
Definition option_table (arg : string) : list (string * list (string * string)) :=
  [("--cc", [("CC", arg)]); ("--ar", [("AR", arg)]);
   ("--cflags-lib", [("CFLAGS_LIB", arg)]); ("--cflags-cli", [("CFLAGS_CLI", arg)]); ("--ldflags", [("LDFLAGS", arg)]);
   ("--prefix", [("PREFIX", arg)]); ("--binprefix", [("BINPREFIX", arg)]); ("--libprefix", [("LIBPREFIX", arg)]);
   ("--incprefix", [("INCPREFIX", arg)]); ("--pcprefix", [("PCPREFIX", arg)]);
   ("--enable-shared", [("sharedlib", "true")]);
   ("--disable-fftw", [("with_fftw", "false")]); ("--disable-libjpeg", [("with_libjpeg", "false")]);
   ("--disable-libpng", [("with_libpng", "false")]); ("--disable-MagickWand", [("with_MagickWand", "false")]);
   ("--disable-ffmpeg", [("with_ffmpeg", "false")]);
   ("--disable-everything", [("with_fftw", "false"); ("with_libjpeg", "false"); ("with_libpng", "false");
                             ("with_MagickWand", "false"); ("with_ffmpeg", "false")]);
   ("--omit-pgm-reader", [("omit_pgm_reader", "true")]); ("--omit-pfm-reader", [("omit_pfm_reader", "true")]);
   ("--omit-y4m-reader", [("omit_y4m_reader", "true")]);
   ("--default-range", [("DEFAULT_RANGE", arg)]); ("--coeff-precision", [("COEFF_PRECISION", arg)]);
   ("--inter-precision", [("INTER_PRECISION", arg)]); ("--pixel-max", [("PIXEL_MAX", arg)]);
   ("--no-builtin-signbit", [("use_builtin_signbit", "false")]);
   ("--verbose", [("verbose", "true")])]%string.
(** configure:67-68 *)
Definition opt_of (o : string) : string := before "=" o.
Definition arg_of (o : string) : string := match after "=" o with Some a => a | None => o end.
(** configure:66-99; inr: the script ends here, with this status *)
Fixpoint take_args (l : list string) (v : vars) : vars + Z :=
  match l with
  | [] => inl v
  | o :: l =>
      if String.eqb (opt_of o) "--help" then inr 0
      else match find (fun e => String.eqb (opt_of o) (fst e)) (option_table (arg_of o)) with
           | None => inr 1
           | Some e => take_args l (set_all (snd e) v)
           end
  end.

(** config.mak: its variables, and the macros defined in its variable DEFS *)
Record mak := mkMak { k_vars : list (string * string); k_defs : list (string * string) }.
Record configured := mkConfigured {
  x_status : Z;
  x_mak : option mak;                        (* config.mak afterwards *)
  x_warned : bool                            (* configure:284 *)
}.

(** configure:127-129 pkg-config --exists, 153-156 the number before the first dot *)
Definition module (M : machine) (name : string) : option string :=
  match h_command M "pkg-config" with None => None | Some _ => option_map (before ".") (h_modversion M name) end.
(** the module of a library, if the variable does not disable it *)
Definition wanted (M : machine) (v : vars) (check name : string) : option string :=
  if succeeds M (v check) then module M name else None.
(** configure:214-218 *)
Definition fftw_module (coeff_precision : string) : string :=
  (if String.eqb coeff_precision "D" then "fftw3" else if String.eqb coeff_precision "L" then "fftw3l" else "fftw3f")%string.
Definition scalar_defs (coeff_precision : string) : list (string * string) :=
  if String.eqb coeff_precision "D" || String.eqb coeff_precision "L" then [("kiss_fft_scalar", "double")]%string else [].
(** configure:181-186 *)
Definition soext (triple : string) : string :=
  (if contains "mingw32" triple || contains "windows" triple then "dll"
   else if contains "darwin" triple then "dylib" else "so")%string.
(** configure:169-174 *)
Definition tuning (M : machine) (cc triple : string) : string :=
  (if prefix "aarch64-" triple && h_gcc M cc then "-mcpu=native"
   else if prefix "wasm32-" triple then "" else "-march=native -mtune=native")%string.
(** configure:226-229, 238: libraries, the variables named after them and the variables that disable them *)
Definition libraries : list (string * string * string) :=
  [("libjpeg", "LIBJPEG", "with_libjpeg"); ("libpng", "LIBPNG", "with_libpng"); ("MagickWand", "MAGICKWAND", "with_MagickWand")]%string.
Definition ffmpeg_modules : string := "libavcodec libavformat libavutil libswscale".
(** configure:248-251 *)
Definition natives : list (string * string) :=
  [("OMIT_PGM_READER", "omit_pgm_reader"); ("OMIT_PFM_READER", "omit_pfm_reader"); ("OMIT_Y4M_READER", "omit_y4m_reader")]%string.

(** configure:179-255: the lines written to config.mak before DEFS *)
Definition mak_lines (M : machine) (v : vars) (triple : string) : list (string * string) :=
  let given x := if empty (v x) then [] else [(x, v x)] in
  let path x := match h_command M (v x) with Some p => p | None => ""%string end in
  let fftw := fftw_module (v "COEFF_PRECISION"%string) in
  ((if succeeds M (v "sharedlib") then [("SHARED", "1"); ("SOEXT", soext triple)] else []) ++
   [("CC", path "CC"); ("AR", path "AR"); ("CFLAGS_LIB", v "CFLAGS_LIB"); ("CFLAGS_CLI", v "CFLAGS_CLI");
    ("LDFLAGS", v "LDFLAGS"); ("PREFIX", v "PREFIX"); ("BINPREFIX", v "BINPREFIX"); ("LIBPREFIX", v "LIBPREFIX");
    ("INCPREFIX", v "INCPREFIX"); ("PCPREFIX", v "PCPREFIX")] ++
   given "DEFAULT_RANGE" ++ given "COEFF_PRECISION" ++ given "INTER_PRECISION" ++ given "PIXEL_MAX" ++
   match wanted M v "with_fftw" fftw with Some n => [("HAVE_FFTW", n); ("CFLAGS_FFTW", h_cflags M fftw)] | None => [] end ++
   flat_map (fun '(dep, name, check) =>
     match wanted M v check dep with
     | Some n => [("HAVE_" +++ name, n); ("CFLAGS_" +++ dep, h_cflags M dep)]
     | None => []
     end) libraries ++
   match wanted M v "with_ffmpeg" ffmpeg_modules with
   | Some _ => [("HAVE_FFMPEG", "1"); ("CFLAGS_ffmpeg", h_cflags M ffmpeg_modules)] | None => [] end ++
   flat_map (fun '(macro, check) => if succeeds M (v check) then [(macro, "1")] else []) natives)%list%string.
(** configure:208-257: DEFS *)
Definition mak_defs (M : machine) (v : vars) : list (string * string) :=
  (match h_suffix M with Some s => [("VERSION_SUFFIX", """" +++ s +++ """")] | None => [] end ++
   scalar_defs (v "COEFF_PRECISION") ++
   flat_map (fun '(dep, name, check) =>
     match wanted M v check dep with Some n => [("HAVE_" +++ name, n)] | None => [] end) libraries ++
   match wanted M v "with_ffmpeg" ffmpeg_modules with Some _ => [("HAVE_FFMPEG", "1")] | None => [] end ++
   flat_map (fun '(macro, check) => if succeeds M (v check) then [(macro, "1")] else []) natives ++
   (if succeeds M (v "use_builtin_signbit") && h_signbit M then [("USE_BUILTIN_SIGNBIT", "1")] else []))%list%string.
(** configure:220-242: PCDEPS *)
Definition pc_deps (M : machine) (v : vars) : list string :=
  let fftw := fftw_module (v "COEFF_PRECISION"%string) in
  (match wanted M v "with_fftw" fftw with Some _ => [fftw] | None => [] end ++
   flat_map (fun '(dep, name, check) => match wanted M v check dep with Some _ => [dep] | None => [] end) libraries ++
   match wanted M v "with_ffmpeg" ffmpeg_modules with Some _ => [ffmpeg_modules] | None => [] end)%list%string.
(** configure:283 *)
Definition warns (M : machine) (v : vars) (defs : list (string * string)) : bool :=
  forallb (fun '(_, check) => succeeds M (v check)) natives &&
  negb (existsb (fun '(x, _) => existsb (fun h => contains h x) ["HAVE_MAGICKWAND"; "HAVE_LIBPNG"; "HAVE_LIBJPEG"; "HAVE_FFMPEG"]%string) defs).

(** configure:101-104, 176-180 *)
Definition completed (M : machine) (v : vars) (triple : string) : vars :=
  let v := set_all [("BINPREFIX", or_default v "BINPREFIX" (v "PREFIX" +++ "/bin"));
                    ("LIBPREFIX", or_default v "LIBPREFIX" (v "PREFIX" +++ "/lib"));
                    ("INCPREFIX", or_default v "INCPREFIX" (v "PREFIX" +++ "/include"));
                    ("PCPREFIX", or_default v "PCPREFIX" (v "PREFIX" +++ "/lib/pkgconfig"))]%string v in
  let flags x := (tuning M (v "CC") triple +++ " " +++ v x)%string in
  let shared := (if succeeds M (v "sharedlib") then " -fPIC -fvisibility=hidden" else "")%string in
  set_all [("CFLAGS_LIB", flags "CFLAGS_LIB" +++ shared); ("CFLAGS_CLI", flags "CFLAGS_CLI")]%string v.

(** the whole script.  [old]: config.mak as it was before *)
Definition configure (M : machine) (env : vars) (args : list string) (old : option mak) : configured :=
  match take_args args (initial env) with
  | inr status => mkConfigured status old false
  | inl v =>
      let has x := match h_command M x with Some _ => true | None => false end in
      if negb (has (v "CC")) || negb (has (v "AR")) then mkConfigured 1 None false           (* configure:158-159 *)
      else if (succeeds M (v "with_libjpeg") || succeeds M (v "with_libpng") || succeeds M (v "with_MagickWand") ||
               succeeds M (v "with_fftw")) && negb (has "pkg-config")
      then mkConfigured 1 None false                                                          (* configure:160-162 *)
      else
        match h_triple M (v "CC") with
        | None => mkConfigured 1 None false                                                   (* configure:168, set -e *)
        | Some triple =>
            let v := completed M v triple in
            let lines := mak_lines M v triple in
            let deps := pc_deps M v in
            match (match deps with [] => Some ""%string | _ => h_libs M deps end) with
            | None => mkConfigured 1 (Some (mkMak lines [])) false                            (* configure:265-267, set -e *)
            | Some libs =>
                let defs := mak_defs M v in
                let tools := ("resdet stat imgread" +++ if prefix "x86_64-w64-" triple then "" else " profile")%string in
                mkConfigured 0
                  (Some (mkMak (lines ++ [("LDLIBS", (if h_libm M then " -lm" else "") +++
                                                     match deps with [] => "" | _ => " " +++ libs end);
                                          ("TOOLS", tools)])%list defs))
                  (warns M v defs)
            end
        end
  end%string.

(** ** Makefile *)

(** a variable of make: the last assignment in config.mak, or the environment *)
Definition mkvar (env : vars) (k : mak) (x : string) : string := set_all (k_vars k) env x.
Definition ifdef (env : vars) (k : mak) (x : string) : bool := negb (empty (mkvar env k x)).
(** Makefile:3-55 *)
Definition objects (env : vars) (k : mak) : list string :=
  let d := ifdef env k in
  map (fun o => "lib/" +++ o)%string
   (["resdetect.o"; "analysis.o"; "util.o"; "image.o"; "image_readers.o"; "methods.o"] ++
    (if d "HAVE_FFTW" then ["transform/fftw.o"]
     else "transform/kiss_fft.o" :: map (fun o => "kissfft/" +++ o) ["kiss_fft.o"; "kiss_fftnd.o"; "kiss_fftndr.o"; "kiss_fftr.o"]) ++
    when (d "HAVE_LIBJPEG") "image/libjpeg.o" ++ when (d "HAVE_LIBPNG") "image/libpng.o" ++
    when (d "HAVE_MAGICKWAND") "image/magickwand.o" ++ when (d "HAVE_FFMPEG") "image/ffmpeg.o" ++
    when (negb (d "OMIT_PGM_READER")) "image/pgm.o" ++ when (negb (d "OMIT_PFM_READER")) "image/pfm.o" ++
    when (negb (d "OMIT_Y4M_READER")) "image/y4m.o")%list%string.
(** Makefile:19-30, 62: the macros on the compiler's command line *)
Definition macros (env : vars) (k : mak) : list (string * string) :=
  (k_defs k ++
   flat_map (fun x => if ifdef env k x then [(x, mkvar env k x)] else [])
     ["DEFAULT_RANGE"; "COEFF_PRECISION"; "INTER_PRECISION"; "PIXEL_MAX"])%list%string.

(** ** The preprocessor *)

Definition macro (ms : list (string * string)) (x : string) : option string :=
  option_map snd (find (fun m => String.eqb (fst m) x) ms).
Definition defined (ms : list (string * string)) (x : string) : bool :=
  match macro ms x with Some _ => true | None => false end.

(** the value of a macro in #if, where F, D and L are 1, 2 and 3 (precision.h:9-11): a decimal
    number, one of these names, or another name, which counts as 0.  None: any other text,
    which is not modelled. *)
Definition is_letter (c : Z) : bool := ((65 <=? c) && (c <=? 90)) || ((97 <=? c) && (c <=? 122)) || (c =? 95).
Definition cpp_value (s : string) : option Z :=
  if String.eqb s "F" then Some 1 else if String.eqb s "D" then Some 2 else if String.eqb s "L" then Some 3
  else
    match chars s with
    | [] => None
    | c :: l =>
        if is_letter c && forallb (fun c => is_letter c || is_digit c) l then Some 0
        else if forallb is_digit (c :: l) && (negb (c =? 48) || match l with [] => true | _ => false end)
        then Some (digits_value (c :: l)) else None
    end.
Definition value_or (ms : list (string * string)) (x : string) (default : Z) : option Z :=
  match macro ms x with None => Some default | Some s => cpp_value s end.

Definition precision_of (z : Z) : option precision :=
  if z =? 1 then Some PF else if z =? 2 then Some PD else if z =? 3 then Some PL else None.
(** precision.h:13-31.  None: #error *)
Definition coeff_precision (ms : list (string * string)) : option precision :=
  match value_or ms "COEFF_PRECISION" 1 with None => None | Some c => precision_of c end.
(** precision.h:17-52 *)
Definition intermediate_precision (ms : list (string * string)) : option precision :=
  match value_or ms "COEFF_PRECISION" 1, value_or ms "INTER_PRECISION" 2 with
  | Some c, Some i => precision_of (if i <? c then c else i)
  | _, _ => None
  end.
(** kissfft/kiss_fft.h:81-84 *)
Definition kiss_scalar (ms : list (string * string)) : option precision :=
  match macro ms "kiss_fft_scalar" with
  | None => Some PF
  | Some s => if String.eqb s "double" then Some PD else None
  end.
(** precision.h:66 fftwp, and the library in which FFTW has functions with these names *)
Definition fftw_library (p : precision) : string := (match p with PF => "fftw3f" | PD => "fftw3" | PL => "fftw3l" end)%string.
(** image_readers.c *)
Definition readers_built (ms : list (string * string)) : readers :=
  mkReaders (negb (defined ms "OMIT_PGM_READER")) (negb (defined ms "OMIT_PFM_READER")) (negb (defined ms "OMIT_Y4M_READER"))
    (defined ms "HAVE_LIBJPEG") (defined ms "HAVE_LIBPNG") (defined ms "HAVE_FFMPEG") (defined ms "HAVE_MAGICKWAND").
(** resdet_internal.h:32-37, 52-58.  None: #error *)
Definition config_built (env : vars) (k : mak) (special : Z) : option config :=
  let ms := macros env k in
  match value_or ms "PIXEL_MAX" SIZE_MAX, value_or ms "DEFAULT_RANGE" 12 with
  | Some p, Some r =>
      if (p <=? 0) || (r <=? 0) then None
      else Some (mkConfig p r (if ifdef env k "HAVE_FFTW" then FFTW else KISS) special)
  | _, _ => None
  end.
(** resdet_internal.h:24; lib/resdet.pc.in:9 as expanded by configure:147-152 *)
Definition libversion_built (ms : list (string * string)) : string :=
  ("3.1.1" +++ match macro ms "VERSION_SUFFIX" with
              | Some s => substring 1 (String.length s - 2) s       (* without its quotes *)
              | None => ""
              end)%string.
Definition pc_version (M : machine) : string := ("3.1.1" +++ match h_suffix M with Some s => s | None => "" end)%string.

(** ** Installing *)

(** Makefile:75-77: pkg-config --modversion lib/resdet.pc, which prints nothing if there is no
    pkg-config, through cut -d+ -f1, cut -d. -f1-2 and cut -d. -f1 *)
Definition modversion (M : machine) : string :=
  match h_command M "pkg-config" with Some _ => pc_version M | None => ""%string end.
Definition version_ (M : machine) : string := before "+" (modversion M).
Definition version_major_minor (M : machine) : string :=
  match after "." (modversion M) with
  | Some r => before "." (modversion M) +++ "."%string +++ before "." r
  | None => modversion M
  end.
Definition version_major (M : machine) : string := before "." (modversion M).
(** Makefile:104-124: the files made by make install-lib *)
Definition installed_lib (M : machine) (env : vars) (k : mak) : list string :=
  let g := mkvar env k in
  let lib f := (g "LIBPREFIX" +++ "/" +++ f)%string in
  ([g "INCPREFIX" +++ "/resdet.h"; lib "libresdet.a"] ++
   (if ifdef env k "SHARED" then
      if String.eqb (g "SOEXT") "dylib" then
        [lib ("libresdet." +++ version_ M +++ ".dylib"); lib ("libresdet." +++ version_major_minor M +++ ".dylib");
         lib ("libresdet." +++ version_major M +++ ".dylib"); lib "libresdet.dylib"]
      else if String.eqb (g "SOEXT") "so" then
        [lib ("libresdet.so." +++ version_ M); lib ("libresdet.so." +++ version_major M); lib "libresdet.so"]
      else [lib ("libresdet." +++ g "SOEXT")]
    else []) ++
   (if empty (g "PCPREFIX") then [] else [g "PCPREFIX" +++ "/resdet.pc"]))%list%string.
(** Makefile:126-127: the file made by make install *)
Definition installed_program (env : vars) (k : mak) : string := (mkvar env k "BINPREFIX" +++ "/resdet")%string.
(** Makefile:129-131: the files removed by make uninstall-lib; VERSION_MINOR is not assigned anywhere *)
Definition uninstalled_lib (M : machine) (env : vars) (k : mak) : list string :=
  let g := mkvar env k in
  let lib f := (g "LIBPREFIX" +++ "/" +++ f)%string in
  let ver x := if ifdef env k "SHARED" then x else ""%string in
  ([g "BINPREFIX" +++ "/resdet"; lib "libresdet.a"; g "PCPREFIX" +++ "/resdet.pc"; g "INCPREFIX" +++ "/resdet.h";
    lib ("libresdet.so." +++ ver (version_ M)); lib ("libresdet.so." +++ ver (version_major M)); lib "libresdet.so";
    lib ("libresdet." +++ g "VERSION_MINOR" +++ ".dylib"); lib ("libresdet." +++ ver (version_major M) +++ ".dylib");
    lib "libresdet.dylib"])%list%string.
(** Makefile:133-134: the files removed by make uninstall *)
Definition uninstalled (M : machine) (env : vars) (k : mak) : list string :=
  (uninstalled_lib M env k ++ [mkvar env k "BINPREFIX" +++ "/resdet"])%list%string.
(** the name under which programs look for the shared library at run time: Makefile:80, 84 *)
Definition loaded_as (M : machine) (env : vars) (k : mak) : option string :=
  let g := mkvar env k in
  if negb (ifdef env k "SHARED") then None
  else if String.eqb (g "SOEXT") "dylib" then Some (g "LIBPREFIX" +++ "/libresdet." +++ g "SOEXT")%string
  else if String.eqb (g "SOEXT") "so" then Some (g "LIBPREFIX" +++ "/libresdet." +++ g "SOEXT" +++ "." +++ version_major M)%string
  else None.
(** lib/resdet.pc.in:1-4, 12, 14 as expanded: where resdet.pc says that the header and the library are *)
Definition pc_includedir (env : vars) (k : mak) : string := (mkvar env k "PREFIX" +++ "/include")%string.
Definition pc_libdir (env : vars) (k : mak) : string := (mkvar env k "PREFIX" +++ "/lib")%string.
