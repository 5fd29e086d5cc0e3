(** @header
    Properties C01-C04: method lookup, parameters, error messages, size limits. *)
From Coq Require Import Reals.
From Flocq Require Import Core IEEE754.Binary.
From Verif Require Import Base Flt Util Methods Analysis Resdetect History Spec SpecAnalysis SpecUtil SpecReport.
From Verif Require Import BaseProofs FltProofs MethodsProofs WorldProofs AnalysisProofs UtilProofs ResultsProofs Demo.
Open Scope string_scope.
Open Scope list_scope.
Open Scope Z_scope.

(** C01.  The name of a method finds that method, and only that one. *)
Lemma get_method_exact_claim : forall name m,
  resdet_get_method (Some name) = Some m <-> method_name m = name.
Proof. exact get_method_ok. Qed.

(** C01.  No other name finds any. *)
Lemma get_method_unknown_claim : forall name,
  ~ In name ["sign"; "mag"; "orig"; "zerox"] -> resdet_get_method (Some name) = None.
Proof.
  intros name H. apply get_method_other. intros m Hm E. apply H. subst. destruct m; simpl; auto.
Qed.

(** C01.  No name at all finds the default. *)
Lemma get_method_default_claim :
  resdet_get_method None = nth_error resdet_methods 0 /\ resdet_get_method None = Some Msign.
Proof. split; reflexivity. Qed.

Example get_method_unknown_example : ~ In "signs" ["sign"; "mag"; "orig"; "zerox"].
Proof. simpl. intuition discriminate. Qed.

(** C02.  After any history of setter calls every reply and every field is the
    documented one; a rejected call changes nothing, an accepted one its own field. *)
Lemma setter_history_claim : forall c l, config_ok c = true -> Forall typed l ->
  exists es p, set_all (Some (default_params c)) l = (es, Some p) /\
    Forall2 (fun s e => (documented s /\ e = RDEOK) \/ (~ documented s /\ e = RDEPARAM)) l es /\
    last_value range_of (c_default_range c) l (p_range p) /\
    last_value threshold_of (f32_of_Z (-1)) l (p_threshold p) /\
    last_value filter_of 0 l (p_filter p).
Proof. intros c l _ H. exact (set_history_ok (default_params c) l H). Qed.

(** C02.  The resulting parameters are valid: a positive range, an unset threshold
    or one in [0,1], a filter that can be shifted by. *)
Lemma setter_history_valid_claim : forall c l es p, config_ok c = true -> Forall typed l ->
  set_all (Some (default_params c)) l = (es, Some p) ->
  1 <= p_range p < 2^64 /\ 0 <= p_filter p <= 31 /\
  (unit_number (p_threshold p) \/ p_threshold p = f32_of_Z (-1)).
Proof.
  intros c l es p HC HT H. destruct (set_params_ok c l es p HC HT H) as [R F (T1 & T2)].
  unfold SIZE_MAX in R. repeat split; try lia. destruct T2 as [T2|T2]; [left; split; assumption|right; exact T2].
Qed.

(** C02.  A NULL object is refused. *)
Lemma setter_null_claim : forall l, set_all None l = (map (fun _ => RDEPARAM) l, None).
Proof.
  induction l as [|s l IH]; [reflexivity|]. cbn [set_all map]. rewrite set_null, IH. reflexivity.
Qed.

(** one setter call, from any object *)
Lemma setter_step_claim : forall p s, typed s ->
  (documented s -> exists q, set_param (Some p) s = (RDEOK, Some q) /\
     p_range q = match s with Range v => v | _ => p_range p end /\
     p_threshold q = match s with Threshold t => t | _ => p_threshold p end /\
     p_filter q = match s with Filter v => v | _ => p_filter p end) /\
  (~ documented s -> set_param (Some p) s = (RDEPARAM, Some p)).
Proof.
  intros p s HT. destruct (set_param_ok p s HT) as (A & B). split; [|exact B].
  intros D. rewrite (A D). eexists. split; [reflexivity|]. destruct s; auto.
Qed.

Example setter_history_example :
  Forall typed [Range 0; Threshold (f32_of_Z 2); Filter 40; Range 7; Threshold (f32_of_Z 1); Filter 3] /\
  fst (set_all (Some (default_params default_config))
     [Range 0; Threshold (f32_of_Z 2); Filter 40; Range 7; Threshold (f32_of_Z 1); Filter 3])
  = [RDEPARAM; RDEPARAM; RDEPARAM; RDEOK; RDEOK; RDEOK].
Proof. split; [|vm_compute; reflexivity]. repeat constructor; simpl; lia. Qed.

(** C03.  The message of every error code. *)
Lemma error_message_claim : forall e, - 2^31 < e < 2^31 ->
  exists msg, resdet_error_str e = Ok msg /\
  match msg with
  | SysMsg n => e < 0 /\ n = - e
  | Msg s => 0 <= e <= resdet_get_max_error /\
      nth_error ["";
                 "Out of memory";
                 "Internal error";
                 "Invalid image";
                 "Unsupported image file format";
                 "Image size exceeds limit";
                 "Parameter missing or invalid";
                 "No images were analyzed"] (Z.to_nat e) = Some s
  | NoMsg => e > resdet_get_max_error
  end.
Proof. exact error_str_ok. Qed.

(** C03.  The maximum is the last code of the enum. *)
Lemma max_error_claim : resdet_get_max_error = RDENOIMG.
Proof. reflexivity. Qed.

(** C03, finding: the most negative int overflows when negated. *)
Lemma error_message_int_min_refuted_claim : exists e, - 2^31 <= e < 2^31 /\
  resdet_error_str e = Undef IntOverflow.
Proof. exists (- 2^31). split; [lia|]. reflexivity. Qed.

Example error_message_example : resdet_error_str RDETOOBIG = Ok (Msg "Image size exceeds limit") /\
  resdet_error_str (-2) = Ok (SysMsg 2) /\ resdet_error_str 8 = Ok NoMsg.
Proof. repeat split; reflexivity. Qed.

(** C04.  The size check accepts exactly the sizes that fit, for all size_t
    arguments, without dividing by zero. *)
Lemma size_limit_claim : forall c width height n tsize,
  0 <= width < 2^64 -> 0 <= height < 2^64 -> 0 <= n < 2^64 -> 0 < tsize -> 0 <= c_pixel_max c ->
  exists too_big, dims_exceed_limit c width height n tsize = Ok too_big /\
  (too_big = false <-> 1 <= width /\ 1 <= height /\ 1 <= n /\
     width * height * n <= c_pixel_max c /\ width * height * n * tsize < 2^64).
Proof.
  intros c width height n t Hw Hh Hn Ht Hp.
  destruct (dims_limit_ok c width height n t) as (b & E & H); try lia.
  exists b. split; [exact E|]. unfold SIZE_MAX in H. rewrite H. lia.
Qed.

(** C04.  What creating an analysis does, for every pattern of allocation failures:
    it succeeds only on sizes that fit; each error has its documented reason; with
    enough memory it succeeds exactly on sizes that fit.  [side] is the backend's
    limit per side. *)
Lemma create_outcome_claim : forall E m width height p wd,
  client_ok E width height p ->
  let side := match c_backend (e_cfg E) with KISS => (2^31 - 1) / 3 | FFTW => 2^31 - 1 end in
  let fits := 1 <= width <= side /\ 1 <= height <= side /\
              width * height <= c_pixel_max (e_cfg E) /\ width * height * 4 < 2^64 in
  exists ao e wd', resdet_create_analysis E m width height p wd = Ok (ao, e, wd') /\
    (e = RDEOK <-> ao <> None) /\
    ((e = RDEOK /\ fits) \/
     (e = RDEINVAL /\ (width = 0 \/ height = 0)) \/
     (e = RDETOOBIG /\ width <> 0 /\ height <> 0 /\ ~ fits) \/
     (e = RDENOMEM /\ exists k, e_alloc E k = false) \/
     (e = RDEINTERNAL /\ c_backend (e_cfg E) = FFTW /\ exists k, e_alloc E k = false)).
Proof.
  intros E m width height p wd HC side fits.
  pose proof (client_valid _ _ _ _ HC) as V. destruct HC as (HE & Hw & Hh & _).
  destruct (create_ok E m width height p wd (eo_config _ HE)) as (ao & e & wd' & EQ & H); auto.
  { unfold is_size, SIZE_MAX; lia. } { unfold is_size, SIZE_MAX; lia. }
  assert (FF : plan_fits E width height <-> fits).
  { unfold plan_fits, fits, plan_limit, side, INT_MAX, SIZE_MAX. destruct (c_backend (e_cfg E)); lia. }
  exists ao, e, wd'. split; [exact EQ|]. destruct ao as [a|].
  - destruct H as (-> & F & _). split; [split; [discriminate|reflexivity]|]. left. split; [reflexivity|apply FF, F].
  - destruct H as (H & _). unfold create_error in H. split.
    + split; [|congruence]. intros ->. exfalso.
      destruct H as [(H & _)|[(H & _)|[(H & _)|(H & _)]]]; discriminate.
    + destruct H as [H|[H|[H|H]]]; [do 3 right; left|do 4 right|right; left|do 2 right; left]; try exact H.
      destruct H as (H1 & H2 & H3 & H4). rewrite FF in H4. auto.
Qed.

Example create_outcome_example : client_ok demo_env 7 5 demo_params /\
  match resdet_create_analysis demo_env (Some Msign) 7 5 demo_params world0 with
  | Ok (Some _, e, wd) => e = RDEOK /\ w_live wd <> []
  | _ => False
  end.
Proof. split; [exact demo_client|]. vm_compute. split; [reflexivity|discriminate]. Qed.
