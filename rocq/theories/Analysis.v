(** Model of lib/analysis.c and of the plan bookkeeping in
    lib/transform/kiss_fft.c and lib/transform/fftw.c. *)
From Verif Require Import Base Flt Util Methods.

(** RDResolution: include/resdet.h *)
Record rdres := mkRes { r_index : Z; r_conf : f32 }.

(** What the analysis code relies on from outside. *)
Record env := mkEnv {
  e_cfg : config;
  e_alloc : oracle;                                  (* allocation outcomes *)
  e_transform : Z -> Z -> list f32 -> list f32;      (* width, height, samples -> coefficients *)
  e_qsort : (rdres -> rdres -> Z) -> list rdres -> list rdres
}.

(** ** Plans *)

(** struct resdet_plan of kiss_fft.c:10-16; only the owned blocks and the fields
    free_plan looks at (the tables' contents are in Kiss.v). *)
Record kplan := mkKplan {
  kp_blk : nat;
  kp_width : Z; kp_height : Z;
  kp_mirror : option nat; kp_F : option nat;
  kp_shift0 : option nat; kp_cfg0 : option nat;
  kp_shift1 : option nat; kp_cfg1 : option nat
}.
(** fftw.c:9-11; the fftw plan counts as one block. *)
Inductive plan := KPlan (p : kplan) | FPlan (blk : nat) (fplan : option nat).

(** kiss_fft.c:84-96 and fftw.c:43-49 resdet_free_plan *)
Definition resdet_free_plan (p : option plan) (w : world) : res world :=
  match p with
  | None => Ok w
  | Some (KPlan k) =>
      w <- free_opt (kp_cfg0 k) w ;;
      w <- free_opt (kp_shift0 k) w ;;
      w <- (if negb (kp_width k =? kp_height k) then
              w <- free_opt (kp_cfg1 k) w ;;
              free_opt (kp_shift1 k) w
            else Ok w) ;;
      w <- free_opt (kp_mirror k) w ;;
      w <- free_opt (kp_F k) w ;;
      free_block (kp_blk k) w
  | Some (FPlan b fp) =>
      w <- free_opt fp w ;;
      free_block b w
  end.

(** kiss_fft.c:30-43, the "tower of malloc failures": each step runs only if all
    the earlier ones succeeded.  [kiss_fftr_alloc] is one malloc
    (kissfft/kiss_fftr.c:32-39). Returns whether the tower succeeded.
    Simplification: the byte sizes of these requests are not tracked here. *)
Definition kiss_tower (al : oracle) (width height : Z) (w : world)
  : option kplan * bool * world :=
  let '(p, w) := alloc al w in
  match p with
  | None => (None, false, w)
  | Some p =>
    let k0 := mkKplan p 0 0 None None None None None None in    (* calloc *)
    let '(mirror, w) := alloc al w in
    match mirror with
    | None => (Some k0, false, w)
    | Some _ =>
      let k1 := mkKplan p 0 0 mirror None None None None None in
      let '(F, w) := alloc al w in
      match F with
      | None => (Some k1, false, w)
      | Some _ =>
        let k2 := mkKplan p 0 0 mirror F None None None None in
        let '(s0, w) := alloc al w in
        match s0 with
        | None => (Some k2, false, w)
        | Some _ =>
          let k3 := mkKplan p 0 0 mirror F s0 None None None in
          let '(c0, w) := alloc al w in
          match c0 with
          | None => (Some k3, false, w)
          | Some _ =>
            let k4 := mkKplan p 0 0 mirror F s0 c0 None None in
            if width =? height then (Some k4, true, w)
            else
              let '(s1, w) := alloc al w in
              match s1 with
              | None => (Some k4, false, w)
              | Some _ =>
                let k5 := mkKplan p 0 0 mirror F s0 c0 s1 None in
                let '(c1, w) := alloc al w in
                match c1 with
                | None => (Some k5, false, w)
                | Some _ => (Some (mkKplan p 0 0 mirror F s0 c0 s1 c1), true, w)
                end
              end
          end
        end
      end
    end
  end.

(** kiss_fft.c:22-66 resdet_create_plan *)
Definition kiss_create_plan (al : oracle) (width height : Z) (w : world)
  : res (option plan * Z * world) :=
  if (width >? INT_MAX / 3) || (height >? INT_MAX / 3) then Ok (None, RDETOOBIG, w)
  else
    let '(p, success, w) := kiss_tower al width height w in
    if success then
      match p with
      | None => Undef NullDeref
      | Some k =>
          let k := if width =? height
                   then mkKplan (kp_blk k) 0 0 (kp_mirror k) (kp_F k) (kp_shift0 k) (kp_cfg0 k)
                                (kp_shift0 k) (kp_cfg0 k)
                   else k in
          Ok (Some (KPlan (mkKplan (kp_blk k) width height (kp_mirror k) (kp_F k)
                                   (kp_shift0 k) (kp_cfg0 k) (kp_shift1 k) (kp_cfg1 k))),
              RDEOK, w)
      end
    else
      w <- resdet_free_plan (option_map KPlan p) w ;;
      Ok (None, RDENOMEM, w).

(** fftw.c:17-37 resdet_create_plan *)
Definition fftw_create_plan (al : oracle) (width height : Z) (w : world)
  : res (option plan * Z * world) :=
  if (width >? INT_MAX) || (height >? INT_MAX) then Ok (None, RDETOOBIG, w)
  else
    match alloc al w with
    | (None, w) => Ok (None, RDENOMEM, w)
    | (Some p, w) =>
        match alloc al w with
        | (None, w) => w <- resdet_free_plan (Some (FPlan p None)) w ;;
                       Ok (None, RDEINTERNAL, w)
        | (Some fp, w) => Ok (Some (FPlan p (Some fp)), RDEOK, w)
        end
    end.

Definition resdet_create_plan (E : env) (width height : Z) (w : world)
  : res (option plan * Z * world) :=
  match c_backend (e_cfg E) with
  | KISS => kiss_create_plan (e_alloc E) width height w
  | FFTW => fftw_create_plan (e_alloc E) width height w
  end.

(** ** Analyses *)

(** struct RDAnalysis: resdet_internal.h:68-77.  A buffer is its block and its
    contents; [None] pointers are NULL; [None] bounds and coefficients are
    uninitialised memory. *)
Record analysis := mkAn {
  an_blk : nat;
  an_method : method;
  an_width : Z; an_height : Z;
  an_nimages : Z;
  an_params : params;
  an_f : option (nat * list (option f32));
  an_p : option plan;
  an_xresult : option (nat * list f64);
  an_yresult : option (nat * list f64);
  an_xbound : option (Z * Z);
  an_ybound : option (Z * Z)
}.

(** lib/analysis.c:196-205 resdet_destroy_analysis *)
Definition resdet_destroy_analysis (a : option analysis) (w : world) : res world :=
  match a with
  | None => Ok w
  | Some a =>
      w <- free_opt (option_map fst (an_xresult a)) w ;;
      w <- free_opt (option_map fst (an_yresult a)) w ;;
      w <- resdet_free_plan (an_p a) w ;;
      w <- free_opt (option_map fst (an_f a)) w ;;
      free_block (an_blk a) w
  end.

(** lib/analysis.c:17-32 setup_dimension: (error, buffer, bounds). *)
Definition setup_dimension (al : oracle) (length range : Z) (w : world)
  : Z * option (nat * list f64) * option (Z * Z) * world :=
  let maxlen := if range <? wrap (length + 1) / 2 then wrap (length - range * 2) else 0 in
  if maxlen =? 0 then (RDEOK, None, None, w)
  else
    match alloc al w with
    | (None, w) => (RDENOMEM, None, None, w)
    | (Some b, w) => (RDEOK, Some (b, repeat d0 (Z.to_nat maxlen)),
                      Some (range, wrap (length - range)), w)
    end.

(** lib/analysis.c:49,54-59: the parameter copy with its two adjustments. *)
Definition effective_params (c : config) (m : method) (p : option params) : params :=
  let p := match p with Some p => p | None => default_params c end in
  let p := if flt (p_threshold p) (f32_of_Z 0)
           then mkParams (p_range p) (method_threshold m) (p_filter p) else p in
  if String.eqb (method_name m) "zerox"
  then mkParams 1 (p_threshold p) (p_filter p) else p.

(** lib/analysis.c:34-97 resdet_create_analysis.  The error is returned as the
    second component whether or not the caller passed an error pointer. *)
Definition resdet_create_analysis (E : env) (m : option method) (width height : Z)
    (p : option params) (w : world) : res (option analysis * Z * world) :=
  let al := e_alloc E in
  match alloc al w with
  | (None, w) => w <- resdet_destroy_analysis None w ;; Ok (None, RDENOMEM, w)
  | (Some blk, w) =>
    match (match m with Some m => Some m | None => resdet_get_method None end) with
    | None => Undef NullDeref
    | Some m =>
      let a := mkAn blk m width height 0 (effective_params (e_cfg E) m p)
                    None None None None None None in
      let fail a e w := w <- resdet_destroy_analysis (Some a) w ;; Ok (None, e, w) in
      if (width =? 0) || (height =? 0) then fail a RDEINVAL w
      else
        big <- dims_exceed_limit (e_cfg E) width height 1 4 ;;
        if big : bool then fail a RDETOOBIG w
        else
          (* kiss_fft.c:18-20 / fftw.c:13-15 resdet_alloc_coeffs: malloc(4*width*height) *)
          let '(fb, w) := alloc al w in
          match fb with
          | None => fail a RDENOMEM w
          | Some fb =>
            let f := repeat (@None f32) (Z.to_nat (wrap (4 * width * height) / 4)) in
            let a := mkAn blk m width height 0 (an_params a) (Some (fb, f))
                          None None None None None in
            '(pl, e, w) <- resdet_create_plan E width height w ;;
            let a := mkAn blk m width height 0 (an_params a) (an_f a) pl None None None None in
            if negb (e =? 0) then fail a e w
            else
              let '(e, xr, xb, w) := setup_dimension al width (p_range (an_params a)) w in
              let a := mkAn blk m width height 0 (an_params a) (an_f a) pl xr None xb None in
              if negb (e =? 0) then fail a e w
              else
                let '(e, yr, yb, w) := setup_dimension al height (p_range (an_params a)) w in
                let a := mkAn blk m width height 0 (an_params a) (an_f a) pl xr yr xb yb in
                if negb (e =? 0) then fail a e w
                else Ok (Some a, RDEOK, w)
          end
    end
  end.

(** reading a buffer that must be fully initialised *)
Fixpoint all_init {A} (l : list (option A)) : res (list A) :=
  match l with
  | [] => Ok []
  | None :: _ => Undef Uninit
  | Some a :: t => t <- all_init t ;; Ok (a :: t)
  end.

(** lib/analysis.c:106-112: check and copy the samples; stops at the first
    non-finite one.  Returns whether all samples were finite, and the buffer. *)
Fixpoint copy_samples (n : nat) (i : Z) (image : list f32) (f : list (option f32))
  : res (bool * list (option f32)) :=
  match n with
  | O => Ok (true, f)
  | S n =>
      v <- get image i ;;
      if negb (ffinite v) then Ok (false, f)
      else
        f <- set f i (Some v) ;;
        copy_samples n (i + 1) image f
  end.

(** lib/analysis.c:116-121: run the method on one dimension if it has results. *)
Definition analyze_dimension (E : env) (a : analysis) (f : list f32)
    (length n stride dist : Z) (result : option (nat * list f64)) (bound : option (Z * Z))
    (w : world) : res (Z * option (nat * list f64) * option (Z * Z) * world) :=
  match result with
  | None => Ok (RDEOK, result, bound, w)
  | Some (rb, r) =>
      match bound with
      | None => Undef Uninit
      | Some b =>
          '(e, r, b, w) <- run_method (e_cfg E) (e_alloc E) w (an_method a) f
                             length n stride dist (p_range (an_params a)) r b ;;
          Ok (e, Some (rb, r), Some b, w)
      end
  end.

(** lib/analysis.c:99-127 resdet_analyze_image.  [image] is the caller's buffer. *)
Definition resdet_analyze_image (E : env) (a : option analysis) (image : option (list f32))
    (w : world) : res (Z * option analysis * world) :=
  match a, image with
  | Some a, Some image =>
      let width := an_width a in
      let height := an_height a in
      match an_f a with
      | None => Undef NullDeref
      | Some (fb, f) =>
          '(fin, f) <- copy_samples (Z.to_nat (wrap (width * height))) 0 image f ;;
          let put f nim xr yr xb yb :=
            Some (mkAn (an_blk a) (an_method a) width height nim (an_params a)
                       (Some (fb, f)) (an_p a) xr yr xb yb) in
          if negb fin then
            Ok (RDEINVAL, put f (an_nimages a) (an_xresult a) (an_yresult a)
                              (an_xbound a) (an_ybound a), w)
          else
            v <- all_init f ;;
            let cf := e_transform E width height v in
            let f := map Some cf in
            '(e, xr, xb, w) <- analyze_dimension E a cf width height width 1
                                 (an_xresult a) (an_xbound a) w ;;
            if negb (e =? 0) then
              Ok (e, put f (an_nimages a) xr (an_yresult a) xb (an_ybound a), w)
            else
              '(e, yr, yb, w) <- analyze_dimension E a cf height width 1 width
                                   (an_yresult a) (an_ybound a) w ;;
              if negb (e =? 0) then
                Ok (e, put f (an_nimages a) xr yr xb yb, w)
              else
                Ok (RDEOK, put f (wrap (an_nimages a + 1)) xr yr xb yb, w)
      end
  | _, _ => Ok (RDEPARAM, a, w)
  end.

(** lib/analysis.c:10-15 sortres *)
Definition sortres (l r : rdres) : Z :=
  if flt (r_conf l) (r_conf r) then 1
  else if fgt (r_conf l) (r_conf r) then -1 else 0.

(** lib/analysis.c:132-134: filter_interval *)
Definition filter_interval (length v : Z) : res f32 :=
  if v =? 0 then Ok (f32_of_Z 0)
  else if v <? 32 then Ok (fdiv (f32_of_Z length) (f32_of_Z (2^v)))
  else Undef BadShift.

(** lib/analysis.c:139,150: whether the filter lets offset i through. *)
Definition filter_keeps (fi : f32) (length i : Z) : bool :=
  negb (negb (feq fi (f32_of_Z 0)) &&
        negb (deq (dround (ddiv (dmul (dround (f64_of_f32
                     (fdiv (fmul (f32_of_Z i) fi) (f32_of_Z length))))
                     (f64_of_Z length)) (f64_of_f32 fi)))
                  (f64_of_Z i))).

(** lib/analysis.c:138-139,149-150: the common condition of both loops. *)
Definition result_passes (a : analysis) (fi : f32) (length : Z) (result : list f64) (i : Z)
  : res bool :=
  r <- get result i ;;
  Ok (dge (ddiv r (f64_of_Z (an_nimages a))) (f64_of_f32 (p_threshold (an_params a))) &&
      filter_keeps fi length i).

(** lib/analysis.c:129-156 generate_dimension_results.  [*count] is 0 on entry.
    Returns the error, the list (block and count entries) and the count. *)
Definition generate_dimension_results (E : env) (a : analysis) (length : Z)
    (bounds : option (Z * Z)) (result : option (nat * list f64)) (w : world)
    : res (Z * option (nat * list rdres) * Z * world) :=
  fi <- filter_interval length (p_filter (an_params a)) ;;
  '(nresults, loop) <-
     match result with
     | None => Ok (1, None)
     | Some (_, r) =>
         match bounds with
         | None => Undef Uninit
         | Some (b0, b1) =>
             let m := wrap (b1 - b0) in
             n <- for_range 0 m (fun i n =>
                    k <- result_passes a fi length r i ;;
                    Ok (if k : bool then wrap (n + 1) else n)) 1 ;;
             Ok (n, Some (r, b0, m))
         end
     end ;;
  match alloc (e_alloc E) w with
  | (None, w) => Ok (RDENOMEM, None, 0, w)
  | (Some blk, w) =>
      (* malloc(nresults*sizeof(RDResolution)), sizeof = 16 *)
      let buf := repeat (@None rdres) (Z.to_nat (wrap (nresults * 16) / 16)) in
      buf <- set buf 0 (Some (mkRes length (f32_of_Z (-1)))) ;;
      '(buf, count) <-
         match loop with
         | None => Ok (buf, 1)
         | Some (r, b0, m) =>
             for_range 0 m (fun i '(buf, count) =>
               k <- result_passes a fi length r i ;;
               if k : bool then
                 v <- get r i ;;
                 buf <- set buf count
                   (Some (mkRes (wrap (i + b0))
                                (f32_of_f64 (ddiv v (f64_of_Z (an_nimages a)))))) ;;
                 Ok (buf, wrap (count + 1))
               else Ok (buf, count)) (buf, 1)
         end ;;
      if count >? zlen buf then Undef OutOfBounds
      else
        l <- all_init (firstn (Z.to_nat count) buf) ;;
        Ok (RDEOK, Some (blk, e_qsort E sortres l), count, w)
  end.

(** The memory the four out pointers designate.  [None] lists are NULL. *)
Record outs := mkOuts {
  o_rw : option (nat * list rdres); o_cw : Z;
  o_rh : option (nat * list rdres); o_ch : Z
}.
(** which of the pointers rw, cw, rh, ch are non-NULL *)
Record wants := mkWants { want_rw : bool; want_cw : bool; want_rh : bool; want_ch : bool }.

(** lib/analysis.c:161-164 (= resdetect.c:12-15, 44-47): clear the outputs. *)
Definition clear_outs (q : wants) (o : outs) : outs :=
  mkOuts (if want_rw q then None else o_rw o) (if want_cw q then 0 else o_cw o)
         (if want_rh q then None else o_rh o) (if want_ch q then 0 else o_ch o).
(** lib/analysis.c:165 (= resdetect.c:16, 48) *)
Definition bad_wants (q : wants) : bool :=
  (want_rw q && negb (want_cw q)) || (want_rh q && negb (want_ch q)).

(** lib/analysis.c:181-193: the error exit. *)
Definition results_error (q : wants) (o : outs) (e : Z) (w : world) : res (Z * outs * world) :=
  '(o, w) <- (if want_rw q then
                w <- free_opt (option_map fst (o_rw o)) w ;;
                Ok (mkOuts None 0 (o_rh o) (o_ch o), w)
              else Ok (o, w)) ;;
  '(o, w) <- (if want_rh q then
                w <- free_opt (option_map fst (o_rh o)) w ;;
                Ok (mkOuts (o_rw o) (o_cw o) None 0, w)
              else Ok (o, w)) ;;
  Ok (e, o, w).

(** lib/analysis.c:158-194 resdet_analysis_results *)
Definition resdet_analysis_results (E : env) (a : option analysis) (q : wants) (o : outs)
    (w : world) : res (Z * outs * world) :=
  let o := clear_outs q o in
  if bad_wants q then Ok (RDEPARAM, o, w)
  else
    match a with
    | None => Ok (RDEPARAM, o, w)
    | Some a =>
        if an_nimages a =? 0 then Ok (RDENOIMG, o, w)
        else
          '(e, o, w) <-
             (if want_rw q then
                '(e, l, n, w) <- generate_dimension_results E a (an_width a) (an_xbound a) (an_xresult a) w ;;
                Ok (e, mkOuts l n (o_rh o) (o_ch o), w)
              else Ok (RDEOK, o, w)) ;;
          if negb (e =? 0) then results_error q o e w
          else
            '(e, o, w) <-
               (if want_rh q then
                  '(e, l, n, w) <- generate_dimension_results E a (an_height a) (an_ybound a) (an_yresult a) w ;;
                  Ok (e, mkOuts (o_rw o) (o_cw o) l n, w)
                else Ok (RDEOK, o, w)) ;;
            if negb (e =? 0) then results_error q o e w
            else Ok (RDEOK, o, w)
    end.
