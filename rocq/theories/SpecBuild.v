(** Specification of the claims about configuring, building and installing. *)
From Coq Require Import Ascii String.
From Verif Require Import Base Flt Util Methods Stdio Pgm Y4m Image Precision Build.

(** ** Command lines of configure *)
(** an argument that names an option, with or without a value *)
Definition names (o opt : string) : Prop := o = opt \/ exists a, o = (opt ++ "=" ++ a)%string.
Definition asked (args : list string) (opt : string) : Prop := exists o, In o args /\ names o opt.
(** the value of a setting: that of the last such option, or that of a variable in the environment.
    (An option with an empty value does not hide the variable from make.) *)
Inductive setting (args : list string) (env : vars) (opt var : string) : string -> Prop :=
| by_option l r a : args = (l ++ (opt ++ "=" ++ a)%string :: r)%list -> ~ asked r opt ->
    (a = ""%string -> env var = ""%string) -> setting args env opt var a
| by_environment : ~ asked args opt -> setting args env opt var (env var).

(** every option there is, as listed by ./configure --help *)
Definition option_names : list string :=
  ["--cc"; "--ar"; "--cflags-lib"; "--cflags-cli"; "--ldflags"; "--prefix"; "--binprefix"; "--libprefix"; "--incprefix";
   "--pcprefix"; "--enable-shared"; "--disable-fftw"; "--disable-libjpeg"; "--disable-libpng"; "--disable-MagickWand";
   "--disable-ffmpeg"; "--disable-everything"; "--omit-pgm-reader"; "--omit-pfm-reader"; "--omit-y4m-reader";
   "--default-range"; "--coeff-precision"; "--inter-precision"; "--pixel-max"; "--no-builtin-signbit"; "--verbose"]%string.
Definition recognised (o : string) : Prop := exists opt, In opt option_names /\ names o opt.

(** ** Machines and environments *)
Definition unset (env : vars) (l : list string) : Prop := forall x, In x l -> env x = ""%string.
(** variables that would be taken for results of configure *)
Definition result_names : list string :=
  ["HAVE_FFTW"; "HAVE_LIBJPEG"; "HAVE_LIBPNG"; "HAVE_MAGICKWAND"; "HAVE_FFMPEG";
   "OMIT_PGM_READER"; "OMIT_PFM_READER"; "OMIT_Y4M_READER"; "SHARED"; "SOEXT"; "with_MagickWand"]%string.
(** a library that pkg-config finds *)
Definition available (M : machine) (name : string) : Prop :=
  (exists path, h_command M "pkg-config" = Some path) /\ exists version, h_modversion M name = Some version.
(** versions begin with something other than a dot *)
Definition versioned (M : machine) : Prop :=
  forall name version, h_modversion M name = Some version -> exists c s, version = String c s /\ c <> "."%char.

(** configure succeeds and has written config.mak *)
Definition configures (M : machine) (env : vars) (args : list string) (old : option mak) (k : mak) : Prop :=
  x_status (configure M env args old) = 0 /\ x_mak (configure M env args old) = Some k /\ ~ asked args "--help".

(** ** Values of settings *)
(** what a setting of precision means; an empty one means the default *)
Definition means_precision (default : precision) (s : string) (p : precision) : Prop :=
  (s = ""%string /\ p = default) \/ (s = "F"%string /\ p = PF) \/ (s = "D"%string /\ p = PD) \/ (s = "L"%string /\ p = PL).
(** the more precise of two *)
Definition finer (p q : precision) : precision :=
  match p, q with PL, _ | _, PL => PL | PD, _ | _, PD => PD | PF, PF => PF end.
(** a decimal number without leading zeros *)
Definition is_decimal (s : string) (n : Z) : Prop :=
  exists d ds, chars s = map (fun d => 48 + d) (d :: ds) /\ 1 <= d <= 9 /\ Forall (fun d => 0 <= d <= 9) ds /\
               n = fold_left (fun a d => 10 * a + d) (d :: ds) 0.
Definition means_number (default : Z) (s : string) (n : Z) : Prop := (s = ""%string /\ n = default) \/ is_decimal s n.
(** a name other than F, D and L *)
Definition other_name (s : string) : Prop :=
  s <> ""%string /\ s <> "F"%string /\ s <> "D"%string /\ s <> "L"%string /\
  Forall (fun c => 65 <= c <= 90 \/ 97 <= c <= 122) (chars s).

(** the object file that defines a reader *)
Definition object_of (r : reader) : string :=
  match r with
  | RPgm => "lib/image/pgm.o" | RPfm => "lib/image/pfm.o" | RY4m => "lib/image/y4m.o"
  | RExt Libjpeg => "lib/image/libjpeg.o" | RExt Libpng => "lib/image/libpng.o"
  | RExt Ffmpeg => "lib/image/ffmpeg.o" | RExt Magickwand => "lib/image/magickwand.o"
  end%string.

(** ** Installing *)
(** a machine other than those of Apple and Microsoft *)
Definition unlike_these (M : machine) (l : list string) : Prop :=
  forall cc triple a b x, h_triple M cc = Some triple -> In x l -> triple <> (a ++ x ++ b)%string.
