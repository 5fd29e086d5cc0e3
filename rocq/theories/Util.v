(** Model of lib/util.c, the build configuration of lib/resdet_internal.h and the
    method table of lib/methods.c. *)
From Verif Require Import Base Flt.
Open Scope string_scope.
Open Scope Z_scope.

(** Build configuration: resdet_internal.h:32-58 and the choice of transform
    backend.  [c_frexp_special] is the exponent the C library's frexp stores for
    infinities and NaN, which the standard leaves unspecified. *)
Inductive backend := KISS | FFTW.
Record config := mkConfig {
  c_pixel_max : Z;
  c_default_range : Z;
  c_backend : backend;
  c_frexp_special : Z
}.

(** The #error guards of resdet_internal.h:36-37,56-58 and the type ranges. *)
Definition config_ok (c : config) : bool :=
  (1 <=? c_pixel_max c) && (c_pixel_max c <=? SIZE_MAX) &&
  (1 <=? c_default_range c) && (c_default_range c <=? SIZE_MAX).

Definition default_config : config := mkConfig SIZE_MAX 12 KISS 0.

(** rdint_storage: resdet_internal.h:36-44.  uint32_t or size_t.  (rdint_index is
    uint_fast32_t or size_t, both 64 bits wide on the LP64 platform modelled.) *)
Definition storage_mod (c : config) : Z :=
  if c_pixel_max c <=? UINT32_MAX then 2^32 else 2^64.

(** lib/methods.c:99-118, the method table, in order. *)
Inductive method := Msign | Mmag | Morig | Mzerox.
Definition method_name (m : method) : string :=
  match m with Msign => "sign" | Mmag => "mag" | Morig => "orig" | Mzerox => "zerox" end.
(** the double literals .55 .40 .64 .5 stored into a float field *)
Definition method_threshold (m : method) : f32 :=
  match m with
  | Msign => f32_of_f64 (dlit 55 100)
  | Mmag => f32_of_f64 (dlit 40 100)
  | Morig => f32_of_f64 (dlit 64 100)
  | Mzerox => f32_of_f64 (dlit 5 10)
  end.
Definition resdet_methods : list method := [Msign; Mmag; Morig; Mzerox].

(** lib/util.c:8-15 resdet_get_method; None is NULL. *)
Definition resdet_get_method (name : option string) : option method :=
  match name with
  | None => hd_error resdet_methods
  | Some n => find (fun m => String.eqb (method_name m) n) resdet_methods
  end.

(** struct RDParameters: resdet_internal.h:62-66 *)
Record params := mkParams {
  p_range : Z;
  p_threshold : f32;
  p_filter : Z              (* uint8_t *)
}.

(** resdet_internal.h:79-82 default_params; lib/util.c:17-24 copies it. *)
Definition default_params (c : config) : params :=
  mkParams (c_default_range c) (f32_of_Z (-1)) 0.

(** lib/util.c:17-24 resdet_alloc_default_parameters *)
Definition resdet_alloc_default_parameters (c : config) (al : oracle) (w : world)
  : option (nat * params) * world :=
  match alloc al w with
  | (Some b, w') => (Some (b, default_params c), w')
  | (None, w') => (None, w')
  end.

(** lib/util.c:26-32.  A parameter pointer is [option params], None is NULL; the
    new pointee is returned with the error code. *)
Definition resdet_parameters_set_range (p : option params) (range : Z) : Z * option params :=
  match p with
  | None => (RDEPARAM, None)
  | Some q => if range =? 0 then (RDEPARAM, p)
              else (RDEOK, Some (mkParams range (p_threshold q) (p_filter q)))
  end.

(** lib/util.c:34-40 *)
Definition resdet_parameters_set_threshold (p : option params) (t : f32) : Z * option params :=
  match p with
  | None => (RDEPARAM, None)
  | Some q =>
      if fisnan t || flt t (f32_of_Z 0) || fgt t (f32_of_Z 1) then (RDEPARAM, p)
      else (RDEOK, Some (mkParams (p_range q) t (p_filter q)))
  end.

(** lib/util.c:42-48: sizeof(unsigned int)*CHAR_BIT-1 = 31.  [v] is a uint8_t. *)
Definition resdet_parameters_set_compression_filter (p : option params) (v : Z) : Z * option params :=
  match p with
  | None => (RDEPARAM, None)
  | Some q => if v >? 4 * 8 - 1 then (RDEPARAM, p)
              else (RDEOK, Some (mkParams (p_range q) (p_threshold q) v))
  end.

(** lib/util.c:51-57 *)
Definition resdet_default_range (c : config) : Z := c_default_range c.
Definition resdet_libversion : string := "3.1.1".

(** lib/util.c:59-68 RDErrStr *)
Definition RDErrStr : list string :=
  [ "";
    "Out of memory";
    "Internal error";
    "Invalid image";
    "Unsupported image file format";
    "Image size exceeds limit";
    "Parameter missing or invalid";
    "No images were analyzed" ].

(** lib/util.c:81-83 *)
Definition resdet_get_max_error : Z := zlen RDErrStr - 1.

(** lib/util.c:70-79.  [SysMsg n] stands for strerror(n). *)
Inductive message := Msg (s : string) | SysMsg (n : Z) | NoMsg.
Definition resdet_error_str (e : Z) : res message :=
  if e <? 0 then (if e =? - 2^31 then Undef IntOverflow else Ok (SysMsg (- e)))
  else if e >? resdet_get_max_error then Ok NoMsg
  else s <- get RDErrStr e ;; Ok (Msg s).

(** lib/resdet_internal.h:46-50 resdet_dims_exceed_limit, with the truncating
    divisions evaluated left to right and the short-circuit [&&]. *)
Definition dims_exceed_limit (c : config) (width height nimages tsize : Z) : res bool :=
  if negb (width =? 0) && negb (height =? 0) && negb (nimages =? 0) then
    a <- udiv (c_pixel_max c) width ;;
    a <- udiv a height ;;
    a <- udiv a nimages ;;
    if negb (a =? 0) then
      b <- udiv SIZE_MAX width ;;
      b <- udiv b height ;;
      b <- udiv b nimages ;;
      b <- udiv b tsize ;;
      Ok (b =? 0)
    else Ok true
  else Ok true.
