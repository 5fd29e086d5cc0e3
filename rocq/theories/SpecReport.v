(** What a client should get from an analysis, in terms of the images it handed in. *)
From Coq Require Import ZArith List Bool Reals Permutation Sorted.
From Flocq Require Import Core IEEE754.Binary.
From Verif Require Import Base Flt Util Analysis History Spec SpecAnalysis SpecUtil.
Import ListNotations.
Open Scope list_scope.
Open Scope Z_scope.

(** ** Assumptions about the environment *)

(** a comparison function meeting qsort's requirements on the elements of l *)
Definition consistent {A} (cmp : A -> A -> Z) (l : list A) : Prop :=
  (forall a b, In a l -> In b l -> cmp a b <= 0 \/ cmp b a <= 0) /\
  (forall a b, In a l -> In b l -> cmp a b < 0 <-> cmp b a > 0) /\
  (forall a b c, In a l -> In b l -> In c l -> cmp a b <= 0 -> cmp b c <= 0 -> cmp a c <= 0).

(** the build configuration passes the #error guards, the transform yields as many
    coefficients as it got samples, and qsort sorts *)
Record env_ok (E : env) : Prop := {
  eo_config : config_ok (e_cfg E) = true;
  eo_transform : forall w h v, zlen v = w * h -> zlen (e_transform E w h v) = w * h;
  eo_qsort : forall cmp l, consistent cmp l ->
     Permutation l (e_qsort E cmp l) /\ StronglySorted (fun a b => cmp a b <= 0) (e_qsort E cmp l)
}.

(** parameters a client can hold: NULL, or default parameters after any setter calls *)
Definition client_params (c : config) (p : option params) : Prop :=
  p = None \/ exists l es, Forall typed l /\ set_all (Some (default_params c)) l = (es, p).

(** what must hold for a client call to make sense: arguments are size_t values *)
Definition client_ok (E : env) (w h : Z) (p : option params) : Prop :=
  env_ok E /\ 0 <= w < 2^64 /\ 0 <= h < 2^64 /\ client_params (e_cfg E) p.

(** ** Parameters in effect *)
Definition used_method (m : option method) : method := match m with Some m => m | None => Msign end.
Definition used_range (c : config) (m : option method) (p : option params) : Z :=
  match used_method m, p with
  | Mzerox, _ => 1
  | _, Some p => p_range p
  | _, None => c_default_range c
  end.
(** a threshold never set is stored as -1 *)
Definition used_threshold (m : option method) (p : option params) : f32 :=
  match p with
  | Some p => if fsign (p_threshold p) && negb (feq (p_threshold p) (f32_of_Z 0))
              then method_threshold (used_method m) else p_threshold p
  | None => method_threshold (used_method m)
  end.
Definition used_filter (p : option params) : Z :=
  match p with Some p => p_filter p | None => 0 end.
Definition used_criterion (c : config) (m : option method) : criterion :=
  match used_method m with
  | Msign => Sign
  | Mmag => Magnitude (c_frexp_special c <=? 0)
  | Morig => Original
  | Mzerox => ZeroCrossing
  end.

(** ** Images *)
(** the coefficient plane of an image buffer: its first w*h samples, transformed *)
Definition plane (E : env) (w h : Z) (image : list f32) : list f32 :=
  e_transform E w h (firstn (Z.to_nat (w * h)) image).
Definition valid_image (w h : Z) (image : list f32) : Prop :=
  Forall (fun s => is_finite 24 128 s = true) (firstn (Z.to_nat (w * h)) image).

(** each accepted image seen along one dimension *)
Definition seen_x (E : env) (w h : Z) (images : list (list f32)) : list dim :=
  map (fun i => dim_x w h (plane E w h i)) images.
Definition seen_y (E : env) (w h : Z) (images : list (list f32)) : list dim :=
  map (fun i => dim_y w h (plane E w h i)) images.

(** ** Result lists *)
Definition pairs (l : list rdres) : list (Z * f32) := map (fun r => (r_index r, r_conf r)) l.
Definition own_size (len : Z) : rdres := mkRes len (f32_of_Z (-1)).

(** the indices to report when no compression filter is set *)
Definition expected (E : env) (m : option method) (p : option params) (Ds : list dim) (len : Z)
  : list (Z * f32) :=
  found (used_criterion (e_cfg E) m) Ds len (used_range (e_cfg E) m p) (used_threshold m p) (fun _ => true).

Definition conf_real (r : rdres) : R := B2R 24 128 (r_conf r).

(** [reported E m w h p images Ds len l]: after [images] were accepted, a successful
    fetch handed out [l] as the width list (Ds: the images seen along x, len: the
    width) or as the height list. *)
Inductive reported (E : env) (m : option method) (w h : Z) (p : option params) (images : list (list f32))
  : list dim -> Z -> list rdres -> Prop :=
| reported_width a q o wd o' wd' b l :
    reaches E m w h p images a -> want_rw q = true ->
    resdet_analysis_results E (Some a) q o wd = Ok (RDEOK, o', wd') ->
    o_rw o' = Some (b, l) ->
    reported E m w h p images (seen_x E w h images) w l
| reported_height a q o wd o' wd' b l :
    reaches E m w h p images a -> want_rh q = true ->
    resdet_analysis_results E (Some a) q o wd = Ok (RDEOK, o', wd') ->
    o_rh o' = Some (b, l) ->
    reported E m w h p images (seen_y E w h images) h l.

(** size_t counter of images does not overflow *)
Definition countable {A} (l : list A) : Prop := Z.of_nat (length l) < 2^64 - 1.

(** The one way to lose memory (finding): the KISS backend, a non-square image, and
    the ninth request of the creation (the second FFT configuration) fails. *)
Definition leaky_failure (E : env) (w h : Z) (wd : world) : Prop :=
  c_backend (e_cfg E) = KISS /\ w <> h /\ e_alloc E (w_count wd + 8)%nat = false.

(** [wd'] has lost at most the block allowed by [leaky_failure], and otherwise holds
    [bs] on top of [wd] *)
Definition holds_only (E : env) (w h : Z) (wd wd' : world) (bs : list nat) : Prop :=
  owns wd' wd bs \/ (leaky_failure E w h wd /\ exists b, owns wd' wd (b :: bs)).

(** calls hand in buffers of at least w*h samples *)
Definition call_ok (w h : Z) (c : call) : Prop :=
  match c with CAnalyze image => w * h <= Z.of_nat (length image) | CResults _ _ => True end.

(** the documented error codes of each call *)
Definition reply_ok (c : call) (r : reply) : Prop :=
  match c, r with
  | CAnalyze _, RAnalyze e => In e [RDEOK; RDEINVAL; RDENOMEM]
  | CResults _ _, RResults e _ => In e [RDEOK; RDEPARAM; RDENOIMG; RDENOMEM]
  | _, _ => False
  end.

(** image i' (h x w) has the transposed coefficient plane of image i (w x h) *)
Definition transposed (E : env) (w h : Z) (i i' : list f32) : Prop :=
  forall x y, 0 <= x < w -> 0 <= y < h ->
    at_ f0 (plane E w h i) (y * w + x) = at_ f0 (plane E h w i') (x * h + y).

(** environments that differ in which allocations fail, at most *)
Definition same_but_memory (E E' : env) : Prop :=
  e_cfg E' = e_cfg E /\ e_transform E' = e_transform E /\ e_qsort E' = e_qsort E.
