(** @header
    Properties C49, C50, C56 and C57: the tools profile, stat and imgread. *)
From Coq Require Import Reals Sorted Ascii String.
From Verif Require Import Base Flt Util Methods Analysis Resdetect History Spec SpecAnalysis SpecUtil SpecReport Stdio Pgm Pfm Y4m Image ImageHistory SpecImage SpecFormats Cli SpecCli Tools SpecTools Demo DemoImages DemoFormats.
From Coq Require Import Permutation Lra.
From Flocq Require Import Core IEEE754.Binary.
From Verif Require Import BaseProofs FltProofs UtilProofs AnalysisProofs ResultsProofs ClientProofs WorldProofs ImageSafe ImageApi FileProofs SelectProofs FormatProofs ScanProofs AnalysisClaims CodeProofs CliProofs CliClaims
  StatProofs ProfileProofs StatRun CopyProofs.
Open Scope string_scope.
Open Scope list_scope.
Open Scope Z_scope.

(** ** Examples *)
(** a 30x1 image whose resolutions 17, 16 and 15 are reported in that order *)
Definition demo_signs : list Z := [1;1;1;1;1;1;1;0;0;0;1;0;0;0;0;0;0;1;0;1;1;1;1;1;0;1;1;0;0;1].
Definition demo_order : list Z := chars "Pf 30 1 -1.0 " ++ flat_map (fun s => [0; 0; 128; if s =? 1 then 63 else 191]) demo_signs.
Definition demo_dictionary : list (list Z) := [chars "a.pfm" ++ [10]; [10]; chars "b.pfm" ++ [10]; chars "15 16 17" ++ [10]; chars "1" ++ [10]].
Definition demo_clock (n : nat) : timeval := mkTime (Z.of_nat n) 999999.

(** ** profile *)
Lemma absent_both known found (s : list Z) : NoDup known -> NoDup found -> zlen found - zlen s - absent found known = zlen known - zlen s - absent known found.
Proof.
  intros N1 N2. assert (C : forall l l', absent l l' = zlen l - zlen (filter (fun a => if in_dec Z.eq_dec a l' then true else false) l)).
  { intros l l'. induction l as [|a l IH]; [reflexivity|]. cbn [absent filter]. rewrite IH, zlen_cons. destruct (in_dec Z.eq_dec a l'); rewrite ?zlen_cons; lia. }
  rewrite !C. enough (Q : Permutation (filter (fun a => if in_dec Z.eq_dec a known then true else false) found) (filter (fun a => if in_dec Z.eq_dec a found then true else false) known)).
  { apply Permutation_length in Q. unfold zlen. lia. }
  apply NoDup_Permutation; [apply NoDup_filter; exact N2|apply NoDup_filter; exact N1|]. intros x. rewrite !filter_In. destruct (in_dec Z.eq_dec x known), (in_dec Z.eq_dec x found); intuition discriminate.
Qed.

(** C49.  The comparison stays in bounds.  It counts the indices that are in one list only,
    and as additional and as missing also the same number of indices that are in both:
    none if both lists ascend. *)
Lemma comparison_counts_claim : forall known right n plus minus, zlen known < 2^62 -> 0 <= n <= zlen right -> n < 2^62 -> 0 <= plus < 2^63 -> 0 <= minus < 2^63 ->
  let found := map r_index (firstn (Z.to_nat n) right) in NoDup known -> NoDup found ->
  exists extra, 0 <= extra /\ (ascending known -> ascending found -> extra = 0) /\
    diffres known (zlen known) right n plus minus = Ok (plus + absent found known + extra, minus + absent known found + extra).
Proof.
  intros known right n plus minus BK BN B2 BP BM found NK NF. destruct (diffres_ok known right n plus minus BK BN B2 BP BM) as (s & S1 & S2 & S3 & ->). fold found in S2, S3.
  assert (ZF : zlen found = n) by (unfold found; rewrite zlen_map; unfold zlen in *; rewrite firstn_length; lia).
  pose proof (absent_both known found s NK NF) as AB.
  exists (zlen known - zlen s - absent known found). split.
  - pose proof (absent_le known found s S1 (fun x I => subsequence_in _ _ _ S2 I)). lia.
  - split; [|f_equal; f_equal; lia]. intros A1 A2. rewrite (absent_eq known found s NK S1 (fun x I => subsequence_in _ _ _ S2 I) (S3 A1 A2)). lia.
Qed.

Example comparison_counts_example : exists known right, NoDup known /\ NoDup (map r_index right) /\ ascending known /\ ascending (map r_index right) /\
  absent known (map r_index right) = 1 /\ absent (map r_index right) known = 2 /\ diffres known (zlen known) right (zlen right) 0 0 = Ok (2, 1).
Proof.
  exists [5; 8; 9], (map (fun i => mkRes i f0) [4; 5; 9; 11]).
  assert (A1 : ascending [5; 8; 9]) by (repeat constructor). assert (A2 : ascending (map r_index (map (fun i => mkRes i f0) [4; 5; 9; 11]))) by (repeat constructor).
  split; [apply ascending_nodup; exact A1|]. split; [apply ascending_nodup; exact A2|]. split; [exact A1|]. split; [exact A2|]. split; [reflexivity|]. split; reflexivity.
Qed.

Definition diffs_of (r : res (list notice * list (method * total) * Z * world)) : list (Z * Z) :=
  match r with Ok (outs, _, _, _) => flat_map (fun o => match o with Diff _ _ p m => [(p, m)] | _ => [] end) outs | _ => [] end.
Definition list_of (r : res (Z * outs * world)) : list Z :=
  match r with Ok (_, o, _) => match o_rw o with Some (_, l) => sizes_of l | None => [] end | _ => [] end.
(** C49 without the condition, refuted: the library reports in order of confidence.  All
    resolutions known are found and no others, and two are counted as additional and missing. *)
Lemma comparison_order_refuted_claim : exists R E Y clock lines w outs ms ret w' file, env_ok E /\ machine_ok Y /\
  lines = [chars file ++ [10]; chars "15 16 17" ++ [10]; chars "30" ++ [10]] /\ profile_main R E Y clock lines w = Ok (outs, ms, ret, w') /\
  (forall x, In x (list_of (resdetect_file R E Y (Some file) None everything (Some Msign) None no_outs w)) <-> x = 15 \/ x = 16 \/ x = 17) /\
  exists t, In (Diff Msign t 2 3) outs.
Proof.
  destruct (profile_main native_readers demo_env (system_of demo_host demo_order) demo_clock [chars "a.pfm" ++ [10]; chars "15 16 17" ++ [10]; chars "30" ++ [10]] w0) as [[[[outs ms] ret] w']|u] eqn:Q.
  2: { assert (F : match profile_main native_readers demo_env (system_of demo_host demo_order) demo_clock [chars "a.pfm" ++ [10]; chars "15 16 17" ++ [10]; chars "30" ++ [10]] w0 with Ok _ => true | _ => false end = true) by (vm_compute; reflexivity). rewrite Q in F. discriminate. }
  exists native_readers, demo_env, (system_of demo_host demo_order), demo_clock, [chars "a.pfm" ++ [10]; chars "15 16 17" ++ [10]; chars "30" ++ [10]], w0, outs, ms, ret, w', "a.pfm".
  split; [exact demo_env_ok|]. split; [apply demo_machine; reflexivity|]. split; [reflexivity|]. split; [exact Q|]. split.
  - assert (L : list_of (resdetect_file native_readers demo_env (system_of demo_host demo_order) (Some "a.pfm") None everything (Some Msign) None no_outs w0) = [17; 16; 15]) by (vm_compute; reflexivity).
    rewrite L. intros x. cbn. lia.
  - assert (F : existsb (fun o => match o with Diff Msign _ 2 3 => true | _ => false end) outs = true).
    { set (P := fun o => match o with Diff Msign _ 2 3 => true | _ => false end).
      assert (V : match profile_main native_readers demo_env (system_of demo_host demo_order) demo_clock [chars "a.pfm" ++ [10]; chars "15 16 17" ++ [10]; chars "30" ++ [10]] w0 with Ok (outs, _, _, _) => existsb P outs | _ => false end = true) by (vm_compute; reflexivity).
      rewrite Q in V. exact V. }
    apply existsb_exists in F. destruct F as (o & I & F). exists (match o with Diff _ t _ _ => t | _ => mkTime 0 0 end).
    destruct o as [| | |m t p q]; try discriminate F. destruct m; try discriminate F.
    assert (X : p = 2 /\ q = 3). { clear -F. destruct p as [|[|[]|]|]; try discriminate F. destruct q as [|[[]| |]|]; try discriminate F. auto. }
    destruct X as (-> & ->). exact I.
Qed.

(** C57.  A run of profile does nothing undefined, frees everything it allocates, and
    prints the entries of the dictionary in order up to the first problem.  For each method
    it prints the time used and the comparison with the lists the library reports; the
    status is 1 exactly if a detection failed or an entry is incomplete, not if an image
    could not be read. *)
Lemma profile_run_claim : forall R E Y clock lines w, env_ok E -> machine_ok Y -> Forall (fun l => zlen l < 2^61) lines ->
  exists outs ms ret w' leak, profile_main R E Y clock lines w = Ok (outs, ms, ret, w') /\ holds w' w leak [] /\ leak_ok E leak /\
    printed_run R E Y clock lines outs ret /\ map fst ms = resdet_methods /\
    forall m t, In (m, t) ms -> accounts m outs no_total t.
Proof.
  intros R E Y clock lines w EO [S RX CO _ _] LB. set (ms0 := map (fun m => (m, no_total)) resdet_methods).
  destruct (profile_loop_ok R E Y clock EO S RX CO (Datatypes.S (length lines)) lines ms0 0%nat w w [] [] ltac:(lia) LB eq_refl (holds_refl w)) as (outs & ms & ret & w' & leak & EQ & HW & LK & PR & RN).
  exists outs, ms, ret, w', leak. rewrite app_nil_r in HW. split; [exact EQ|]. split; [exact HW|]. split; [exact LK|]. split; [exact PR|].
  split; [rewrite (running_fst _ _ _ RN); reflexivity|]. intros m t I.
  assert (Z : Forall (fun a => snd a = no_total) ms0) by (repeat constructor). clear -RN I Z. induction RN as [|x y a b (Q & A) RN IH]; [destruct I|].
  inversion Z as [|? ? Z1 Z2]; subst. destruct I as [->|I]; [|apply IH; assumption]. rewrite Z1, Q in A. exact A.
Qed.

Example profile_run_example : env_ok demo_env /\ machine_ok (system_of demo_host demo_order) /\ Forall (fun l => zlen l < 2^61) demo_dictionary /\
  diffs_of (profile_main native_readers demo_env (system_of demo_host demo_order) demo_clock [chars "a.pfm" ++ [10]; chars "15 17" ++ [10]; chars "30" ++ [10]] w0) = [(2, 2); (3, 2); (0, 3); (0, 3)].
Proof. split; [exact demo_env_ok|]. split; [apply demo_machine; reflexivity|]. split; [repeat constructor; vm_compute; reflexivity|]. vm_compute. reflexivity. Qed.

(** C57.  The time printed for a method is the difference of the two clock readings. *)
Lemma profile_time_claim : forall a b, proper_time a -> proper_time b -> proper_time (diffts a b) /\ micros (diffts a b) = micros b - micros a.
Proof. exact diffts_ok. Qed.

Example profile_time_example : proper_time (demo_clock 0) /\ proper_time (mkTime 2 5) /\ diffts (demo_clock 0) (mkTime 2 5) = mkTime 1 6.
Proof. split; [split; vm_compute; congruence|]. split; [split; vm_compute; congruence|reflexivity]. Qed.

(** C57.  How it is printed: the microseconds are the last of nine digits behind the point. *)
Lemma profile_time_text_claim : forall t, proper_time t -> 0 <= tv_sec t <= SIZE_MAX ->
  exists b s u, time_text t = b ++ s ++ [46] ++ u /\ blank b /\ spells s (tv_sec t) /\ length u = 9%nat /\ spells u (tv_usec t).
Proof.
  intros t P S. unfold proper_time in P. exists (repeat 32 (2 - length (decimal (tv_sec t)))), (decimal (tv_sec t)), (repeat 48 (9 - length (decimal (tv_usec t))) ++ decimal (tv_usec t)).
  split; [reflexivity|]. split; [apply Forall_forall; intros c I; apply repeat_spec in I; left; exact I|]. split; [apply decimal_spells; exact S|].
  assert (D : spells (decimal (tv_usec t)) (tv_usec t)) by (apply decimal_spells; unfold SIZE_MAX; lia).
  assert (L : (length (decimal (tv_usec t)) <= 6)%nat).
  { apply decimal_len; [discriminate|]. change (10 ^ Z.of_nat 6) with 1000000. exact P. }
  split; [rewrite app_length, repeat_length; lia|].
  clear -D. induction (9 - length (decimal (tv_usec t)))%nat as [|k IH]; [exact D|]. cbn [repeat app]. revert IH. generalize (repeat 48 k ++ decimal (tv_usec t)) as l. generalize (tv_usec t) as v. clear.
  intros v l S. induction S as [c D|l v c S IH D].
  - change (48 :: [c]) with ([48] ++ [c]). replace (c - 48) with (10 * 0 + (c - 48)) by lia. apply spells_next; [|exact D]. change 0 with (48 - 48). constructor. unfold digit. lia.
  - change (48 :: l ++ [c]) with ((48 :: l) ++ [c]). apply spells_next; assumption.
Qed.

(** C57, what the text stands for, refuted: read as seconds with a decimal fraction it is not
    the time measured. *)
Lemma profile_time_text_refuted_claim : exists t, proper_time t /\ micros t = 1500000 /\ time_text t = chars " 1.000500000".
Proof. exists (mkTime 1 500000). split; [split; vm_compute; congruence|]. split; reflexivity. Qed.

(** C57, a dictionary whose last line is not terminated, refuted: the last character is lost. *)
Lemma profile_last_line_refuted_claim : exists R E Y clock w lines last, env_ok E /\ machine_ok Y /\
  match profile_main R E Y clock (lines ++ [last]) w, profile_main R E Y clock (lines ++ [last ++ [10]]) w with
  | Ok (_, _, ret1, _), Ok (_, _, ret2, _) => ret1 = 1 /\ ret2 = 0
  | _, _ => False
  end.
Proof.
  exists native_readers, demo_env, (system_of demo_host demo_order), demo_clock, w0, [chars "a.pfm" ++ [10]; chars "15" ++ [10]], (chars "1").
  split; [exact demo_env_ok|]. split; [apply demo_machine; reflexivity|]. vm_compute. auto.
Qed.

(** ** stat *)
(** C50.  A run of stat does nothing undefined and frees everything it allocates.  It either
    fails with a message, or judges the lists the library reports; then it calls every
    detected resolution an extreme outlier, and none a mild one. *)
Lemma stat_run_claim : forall R E Y file args w, env_ok E -> machine_ok Y ->
  let m := resdet_get_method (hd_error args) in
  exists e s msg w' leak, stat_main R E Y (file :: args) w = Ok (Some (e, s, msg), w') /\ holds w' w leak [] /\ leak_ok E leak /\
    ((e <> RDEOK /\ s = None /\ exists t, msg = Some t /\ resdet_error_str e = Ok t) \/
     (e = RDEOK /\ msg = None /\ exists width height fs rw rh a b, reads_as R E Y file width height fs /\ client_ok E width height None /\ countable fs /\
        reported E m width height None fs (seen_x E width height fs) width rw /\ reported E m width height None fs (seen_y E width height fs) height rh /\
        s = Some (a, b) /\ st_mild a = [] /\ st_extreme a = removelast rw /\ st_mild b = [] /\ st_extreme b = removelast rh)).
Proof. exact stat_ok. Qed.

Definition stat_of (r : res (option (Z * option (stats * stats) * option message) * world)) : option (list Z * list Z) :=
  match r with Ok (Some (0, Some (a, b), None), _) => Some (map r_index (st_extreme a), map r_index (st_extreme b)) | _ => None end.
Example stat_run_example : env_ok demo_env /\ machine_ok (system_of demo_host demo_order) /\
  stat_of (stat_main native_readers demo_env (system_of demo_host demo_order) ["a.pfm"] w0) = Some ([17; 16; 15], []).
Proof. split; [exact demo_env_ok|]. split; [apply demo_machine; reflexivity|]. vm_compute. reflexivity. Qed.

(** C50, outliers, refuted: a resolution of less than median confidence is an extreme outlier. *)
Lemma stat_outliers_refuted_claim : exists R E Y file w, env_ok E /\ machine_ok Y /\
  match stat_main R E Y [file] w with
  | Ok (Some (0, Some (a, _), None), _) => exists r, In r (st_extreme a) /\ flt (r_conf r) (st_median a) = true
  | _ => False
  end.
Proof.
  exists native_readers, demo_env, (system_of demo_host demo_order), "a.pfm", w0. split; [exact demo_env_ok|]. split; [apply demo_machine; reflexivity|].
  assert (V : match stat_main native_readers demo_env (system_of demo_host demo_order) ["a.pfm"] w0 with
    Ok (Some (0, Some (a, _), None), _) => existsb (fun r => flt (r_conf r) (st_median a)) (st_extreme a) | _ => false end = true) by (vm_compute; reflexivity).
  destruct (stat_main native_readers demo_env (system_of demo_host demo_order) ["a.pfm"] w0) as [[[[[e s] msg]|] w]|]; try discriminate V.
  destruct e; try discriminate V. destruct s as [[a b]|]; try discriminate V. destruct msg; try discriminate V. apply existsb_exists in V. exact V.
Qed.

(** C50.  On a list in ascending order the outliers are what the fences say. *)
Lemma stat_ascending_claim : forall rw cw st, statres rw cw = Ok st -> let l := firstn (Z.to_nat cw) rw in
  StronglySorted (fun a b => (conf_real a <= conf_real b)%R) l -> Forall confident l -> is_finite 24 128 (st_inner st) = true -> is_finite 24 128 (st_outer st) = true ->
  (B2R 24 128 (st_inner st) <= B2R 24 128 (st_outer st))%R ->
  forall r, (In r (st_mild st) <-> In r l /\ (B2R 24 128 (st_inner st) <= conf_real r < B2R 24 128 (st_outer st))%R) /\
            (In r (st_extreme st) <-> In r l /\ (B2R 24 128 (st_outer st) <= conf_real r)%R).
Proof.
  intros rw cw st Q l S C F1 F2 LE r. unfold statres in Q. do 6 (apply bind_ok in Q; destruct Q as (? & _ & Q)).
  match type of Q with (if ?c then _ else _) = _ => destruct c; [|discriminate] end. fold l in Q.
  match type of Q with context [below ?b l] => set (inner := b) in *; destruct (below inner l) as [y1 l1] eqn:B1 end.
  match type of Q with context [below ?b l1] => set (outer := b) in *; destruct (below outer l1) as [y2 l2] eqn:B2 end.
  inversion Q; subst st. cbn [st_inner st_outer st_mild st_extreme] in *. clear Q.
  rewrite (below_ascending inner l S C F1) in B1. inversion B1; subst y1 l1. clear B1.
  assert (S1 : forall f q, StronglySorted (fun a b => (conf_real a <= conf_real b)%R) q -> StronglySorted (fun a b => (conf_real a <= conf_real b)%R) (filter f q)).
  { intros f q SQ. induction SQ as [|a q SQ IH FA]; [constructor|]. cbn [filter]. destruct (f a); [|exact IH]. constructor; [exact IH|].
    apply Forall_forall. intros z I. apply filter_In in I. rewrite Forall_forall in FA. apply FA, I. }
  rewrite below_ascending in B2; [|apply S1; exact S|apply Forall_forall; intros z I; apply filter_In in I; rewrite Forall_forall in C; apply C, I|exact F2].
  inversion B2; subst y2 l2. clear B2. rewrite Forall_forall in C.
  assert (FL : forall b z, is_finite 24 128 b = true -> In z l -> (flt (r_conf z) b = true <-> (conf_real z < B2R 24 128 b)%R)).
  { intros b z FB I. apply flt_spec; [apply (C z I)|exact FB]. }
  assert (FN : forall b z, is_finite 24 128 b = true -> In z l -> (negb (flt (r_conf z) b) = true <-> (B2R 24 128 b <= conf_real z)%R)).
  { intros b z FB I. rewrite Bool.negb_true_iff. destruct (flt (r_conf z) b) eqn:X.
    - apply (FL b z FB I) in X. split; [discriminate|intros; lra].
    - split; [|reflexivity]. intros _. apply Rnot_lt_le. intros Y. apply (FL b z FB I) in Y. congruence. }
  rewrite !filter_In. split.
  - split; [intros ((I & N) & L)|intros (I & L)]; [apply (FN _ _ F1 I) in N; apply (FL _ _ F2 I) in L; tauto|].
    split; [split; [exact I|apply (FN _ _ F1 I); lra]|apply (FL _ _ F2 I); lra].
  - split; [intros ((I & N) & L)|intros (I & L)]; [apply (FN _ _ F2 I) in L; tauto|].
    split; [split; [exact I|apply (FN _ _ F1 I); lra]|apply (FN _ _ F2 I); exact L].
Qed.

Definition demo_ascending : list rdres := map (fun i => mkRes i (fdiv (f32_of_Z i) (f32_of_Z 128))) [1; 1; 1; 1; 1; 2; 2; 2; 2; 2; 2; 2; 2; 2; 6; 100; 100].
Example stat_ascending_example : match statres demo_ascending 16 with
  | Ok st => (is_finite 24 128 (st_inner st), is_finite 24 128 (st_outer st), negb (flt (st_outer st) (st_inner st)), map r_index (st_mild st), map r_index (st_extreme st)) = (true, true, true, [6], [100])
  | _ => False
  end.
Proof. vm_compute. reflexivity. Qed.

(** ** imgread *)
(** C56.  With two arguments, imgread does nothing undefined, frees and closes everything
    and returns 0.  The output has all frames that could be read, as a PFM file if the host
    is little endian. *)
Lemma imgread_run_claim : forall R E Y create file output rest w, env_ok E -> machine_ok Y ->
  exists im width height ob e0 w1, resdet_open_image R E Y (Some file) None true true w = Ok (im, width, height, ob, e0, w1) /\
  exists c w', imgread_main R E Y create (file :: output :: rest) w = Ok (c, w') /\ holds w' w [] [] /\ cp_status c = 0 /\
  ((im = None /\ e0 <> RDEOK /\ cp_file c = None /\ exists msg, resdet_error_str e0 = Ok msg /\ cp_err c = Some msg) \/
   (exists i, im = Some i /\ create output = false /\ cp_file c = None /\ cp_err c = None) \/
   (exists i fs er i' l, im = Some i /\ create output = true /\ frames Y i fs er i' /\ cp_file c = Some l /\
      (er = RDEOK -> cp_err c = None) /\ (er <> RDEOK -> exists msg, resdet_error_str er = Ok msg /\ cp_err c = Some msg) /\
      1 <= width /\ 1 <= height /\ width * height <= SIZE_MAX /\
      (h_little (y_host Y) = true -> scale_text (y_host Y) true (chars "-1.0") -> pfm_frames (y_host Y) (Some false) width height [] fs l))).
Proof. intros R E Y create file output rest w EO [S RX CO _ _]. exact (imgread_ok R E Y create file output rest w EO S RX CO). Qed.

Definition copy_of (r : res (copy * world)) : option (Z * option (list Z) * bool) :=
  match r with Ok (c, _) => Some (cp_status c, cp_file c, match cp_err c with Some _ => true | None => false end) | _ => None end.
Example imgread_run_example : env_ok demo_env /\ machine_ok (system_of demo_host demo_pfm_file) /\ h_little demo_host = true /\ scale_text demo_host true (chars "-1.0") /\
  copy_of (imgread_main native_readers demo_env (system_of demo_host demo_pfm_file) (fun _ => true) ["a.pfm"; "b.pfm"] w0) =
    Some (0, Some ((demo_pfm_head "-1.0" ++ [0; 0; 128; 63] ++ [0; 0; 0; 0]) ++ (demo_pfm_head "-1.0" ++ [0; 0; 0; 0] ++ [0; 0; 128; 63])), false).
Proof. split; [exact demo_env_ok|]. split; [apply demo_machine; reflexivity|]. split; [reflexivity|]. split; [exact demo_scale_ok|]. vm_compute. reflexivity. Qed.

(** C56.  So a file written by imgread on a little-endian host reads as the same frames, if
    there are any and the host can read its own file. *)
Lemma imgread_round_trip_claim : forall R E Y create file output rest w c w' l, env_ok E -> machine_ok Y ->
  imgread_main R E Y create (file :: output :: rest) w = Ok (c, w') -> cp_file c = Some l -> l <> [] -> h_little (y_host Y) = true -> scale_text (y_host Y) true (chars "-1.0") ->
  exists width height fs, (exists i ob w1 er i', resdet_open_image R E Y (Some file) None true true w = Ok (Some i, width, height, ob, RDEOK, w1) /\ frames Y i fs er i' /\ (er = RDEOK <-> cp_err c = None)) /\
  forall Y' copy s want wd, system_ok Y' -> y_host Y' = y_host Y -> r_pfm R = true -> delivers Y' copy s -> s_rest s = l ->
    opens_as E width height (within E width height 1) (fun i => exists i', frames Y' i fs (end_of s) i') (resdet_open_image_with_reader R E Y' (Some copy) (Some "PFM") true want wd).
Proof.
  intros R E Y create file output rest w c w' l EO MO RUN CF NE HL SC.
  destruct (imgread_run_claim R E Y create file output rest w EO MO) as (im & width & height & ob & e0 & w1 & OP & c' & w'' & RUN' & _ & _ & CASES).
  rewrite RUN in RUN'. inversion RUN'; subst c' w''. clear RUN'.
  destruct CASES as [(_ & _ & F & _)|[(i & _ & _ & F & _)|(i & fs & er & i' & l' & -> & _ & F & FL & M1 & M2 & W & H & WH & PF)]]; [congruence|congruence|].
  rewrite CF in FL. inversion FL; subst l'. clear FL. specialize (PF HL SC). exists width, height, fs. split.
  - destruct MO as [S RX CO _ _]. destruct (ext_sizes Y S) as (sz & X).
    destruct (open_by_ok sz R E Y (Some file) (ByType None) true true w w [] [] (eo_config _ EO) S RX X (holds_refl w)) as (r & ER & O).
    cbn [open_by] in ER. rewrite OP in ER. inversion ER; subst r. destruct O as [(-> & _)|(_ & Q & _)]; [|discriminate].
    exists i, ob, w1, er, i'. split; [exact OP|]. split; [exact F|]. split; [exact M1|]. intros N. destruct (Z.eq_dec er RDEOK) as [Q|Q]; [exact Q|]. destruct (M2 Q) as (msg & _ & Q2). congruence.
  - intros Y' copy s want wd SY HH RP DL RS. assert (NF : fs <> []) by (intros ->; inversion PF; congruence).
    assert (FM : film E (y_host Y') width height (s_rest s) "PFM" (within E width height 1) fs). { rewrite RS, HH. apply (film_pfm _ _ _ _ false); assumption. }
    assert (PR : provides R "PFM") by (split; [discriminate|split; [intros _; exact RP|discriminate]]).
    pose proof (film_program R E Y' copy want wd s width height "PFM" _ fs (eo_config _ EO) SY PR DL ltac:(nia) ltac:(nia) FM) as P.
    destruct P as (im & w3 & h3 & buf & e & wd3 & Q & P). exists im, w3, h3, buf, e, wd3. split; [exact Q|].
    destruct P as [P|[P|(P1 & P2 & P3 & P4 & j & P5 & (P6 & _))]]; [left; exact P|right; left; exact P|right; right]. split; [exact P1|]. split; [exact P2|]. split; [exact P3|]. split; [exact P4|]. exists j. split; [exact P5|exact P6].
Qed.

Definition big_host : host := mkHost false true false demo_float.
Definition first_samples (r : res (option (nat * list (option f32)) * Z * Z * Z * Z * world)) : list Z :=
  match r with Ok (Some (_, l), _, _, _, _, _) => map (fun v => match v with Some v => IEEE754.Bits.bits_of_b32 v | None => -1 end) l | _ => [] end.
(** C56 on big-endian hosts, refuted: the file says little endian, the samples are not. *)
Lemma imgread_big_endian_refuted_claim : exists R E Y create file output w c w' l, env_ok E /\ machine_ok Y /\ h_little (y_host Y) = false /\
  imgread_main R E Y create [file; output] w = Ok (c, w') /\ cp_file c = Some l /\ cp_err c = None /\
  firstn 2 (first_samples (resdet_read_image R E Y (Some file) None true w)) = [0; 1065353216] /\
  firstn 2 (first_samples (resdet_read_image R E (system_of (y_host Y) l) (Some output) None true w)) = [0; 32831].
Proof.
  assert (MO : machine_ok (system_of big_host demo_pfm_file)).
  { constructor; [apply system_of_ok; [reflexivity|vm_compute; discriminate]|reflexivity|apply demo_codes|apply demo_forward|].
    intros f. exists (length demo_pfm_file). split; [|vm_compute; reflexivity].
    split; [intros; cbn; lia|]. split; [intros t s Q; inversion Q; cbn; lia|]. intros x t c wi he Q. cbn in Q. inversion Q. }
  destruct (imgread_main native_readers demo_env (system_of big_host demo_pfm_file) (fun _ => true) ["a.pfm"; "b.pfm"] w0) as [[c w']|u] eqn:Q.
  - exists native_readers, demo_env, (system_of big_host demo_pfm_file), (fun _ => true), "a.pfm", "b.pfm", w0, c, w'.
    assert (V : copy_of (imgread_main native_readers demo_env (system_of big_host demo_pfm_file) (fun _ => true) ["a.pfm"; "b.pfm"] w0) =
      Some (0, Some ((demo_pfm_head "-1.0" ++ [63; 128; 0; 0] ++ [0; 0; 0; 0]) ++ (demo_pfm_head "-1.0" ++ [0; 0; 0; 0] ++ [63; 128; 0; 0])), false)) by (vm_compute; reflexivity).
    rewrite Q in V. cbn [copy_of] in V. injection V as _ V2 V3. eexists. split; [exact demo_env_ok|]. split; [exact MO|]. split; [reflexivity|]. split; [exact Q|]. split; [exact V2|].
    split; [destruct (cp_err c); [discriminate V3|reflexivity]|]. split; vm_compute; reflexivity.
  - assert (V : match imgread_main native_readers demo_env (system_of big_host demo_pfm_file) (fun _ => true) ["a.pfm"; "b.pfm"] w0 with Ok _ => true | _ => false end = true) by (vm_compute; reflexivity).
    rewrite Q in V. discriminate V.
Qed.

(** C56, exit status, refuted: 0 although nothing could be read or written. *)
Lemma imgread_status_refuted_claim : exists R E Y create file output w, env_ok E /\ machine_ok Y /\
  copy_of (imgread_main R E Y create [file; output] w) = Some (0, None, true).
Proof.
  exists native_readers, demo_env, (system_of demo_host [1; 2]), (fun _ => true), "a.pfm", "b.pfm", w0. split; [exact demo_env_ok|]. split; [apply demo_machine; reflexivity|]. vm_compute. reflexivity.
Qed.

(** C56, the number of arguments, refuted: with only an input, a null pointer is opened. *)
Lemma imgread_arguments_refuted_claim : exists R E Y create file w, env_ok E /\ machine_ok Y /\ imgread_main R E Y create [file] w = Undef NullDeref.
Proof.
  exists native_readers, demo_env, (system_of demo_host demo_pfm_file), (fun _ => true), "a.pfm", w0. split; [exact demo_env_ok|]. split; [apply demo_machine; reflexivity|]. vm_compute. reflexivity.
Qed.
