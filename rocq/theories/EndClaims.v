(** @header
    Properties C83 and C84: the trigonometric tables, and the program from the bytes of
    a file to the text printed. *)
From Coq Require Import Reals Lra Ascii String.
From Flocq Require Import Core IEEE754.BinarySingleNaN IEEE754.Binary.
From Verif Require Import Base BaseProofs Flt FltProofs Util Methods Analysis History Spec SpecAnalysis SpecUtil SpecReport Kiss SpecTransform SpecAccuracy SpecInterpolate Stdio Pgm Pfm Y4m Image ImageHistory SpecImage SpecFormats Cli SpecCli Printf SpecText Tables SpecTables SpecEnd Demo DemoImages DemoFormats.
From Verif Require Import UtilProofs ClientProofs CompareProofs AnalysisClaims CliProofs CliRun CliClaims KissClaims AccuracyClaims InterpolateClaims TextRuns TablesProofs EndProofs EndText.
Open Scope string_scope.
Open Scope list_scope.
Open Scope Z_scope.

(** ** Tables *)
(** C83.  With a C library whose cos and sin are good to 2^-30 on arguments up to 8, and
    whose atan is at 1, the tables the transform computes for lengths up to 2^40 are good
    to 2^-24.  This is what the theorems about accuracy ask for. *)
Lemma tables_accurate_claim : forall M n, libm_ok M -> 1 <= n <= 2^40 ->
  tables_close (twiddle_table M) (super_table M) (shift_table M) n.
Proof. exact tables_from_libm. Qed.

(** a C library with exact functions, rounded to multiples of 2^-40 *)
Definition nearest64 (r : R) : f64 := binary_normalize 53 1024 eq_refl eq_refl mode_NE (ZnearestE (r * 1099511627776)) (-40) false.
Lemma nearest64_near r : (Rabs r <= 2)%R -> near64 (nearest64 r) r.
Proof.
  intros H. unfold nearest64. set (m := ZnearestE (r * 1099511627776)).
  assert (D : (Rabs (IZR m - r * 1099511627776) <= /2)%R).
  { unfold m. rewrite Rabs_minus_sym. apply Znearest_half. }
  assert (MB : Z.abs m <= 2^42).
  { apply Rabs_le_inv in D, H. apply Z.abs_le; split; apply Z.lt_succ_r; apply lt_IZR; rewrite ?succ_IZR, ?opp_IZR; change (IZR (2 ^ 42)) with 4398046511104%R; lra. }
  assert (V : F2R (Float radix2 m (-40)) = (IZR m / 1099511627776)%R) by (unfold F2R; cbn; lra).
  pose proof (binary_normalize_correct 53 1024 eq_refl eq_refl mode_NE m (-40) false) as C.
  change (round_mode mode_NE) with ZnearestE in C. fold (rnd64 (F2R (Float radix2 m (-40)))) in C.
  rewrite rnd64_id in C.
  2: { change fexp64 with (FLT_exp (-1074) 53). apply generic_format_FLT. exists (Float radix2 m (-40)); cbn; try lia. reflexivity. }
  rewrite Rlt_bool_true in C.
  - destruct C as (C1 & C2 & _). split; [exact C2|]. rewrite C1, V. apply Rabs_le_inv in D. apply Rabs_le. lra.
  - rewrite V. apply Rle_lt_trans with (bpow radix2 3); [|apply bpow_lt; lia]. cbn. apply Rabs_le_inv in D, H. apply Rabs_le. lra.
Qed.
Definition exact_libm : libm :=
  mkLibm (fun x => nearest64 (cos (B2R 53 1024 x))) (fun x => nearest64 (sin (B2R 53 1024 x))) (fun x => nearest64 (atan (B2R 53 1024 x))).
Lemma exact_libm_ok : libm_ok exact_libm.
Proof.
  constructor; cbn [exact_libm m_cos m_sin m_atan]; intros.
  - apply nearest64_near. apply Rabs_le. pose proof (COS_bound (B2R 53 1024 x)). lra.
  - apply nearest64_near. apply Rabs_le. pose proof (SIN_bound (B2R 53 1024 x)). lra.
  - assert (B2R 53 1024 (f64_of_Z 1) = 1%R) as ->. { unfold f64_of_Z. cbn -[IZR bpow]. unfold F2R. cbn. lra. }
    apply nearest64_near. rewrite atan_1. pose proof PI_RGT_0. pose proof PI_4. apply Rabs_le. lra.
Qed.
(** there is such a library *)
Example tables_accurate_example : exists M, libm_ok M.
Proof. exists exact_libm. exact exact_libm_ok. Qed.

(** C83.  So the transform with the tables it computes itself is as accurate. *)
Lemma transform_from_libm_claim : forall M al w h f mirror F tmp0 tmp1 wd B lw lh, libm_ok M ->
  (forall k, al k = true) -> 1 <= w <= 2^20 -> 1 <= h <= 2^20 ->
  zlen f = w * h -> zlen mirror = 2 * Z.max w h -> zlen F = Z.max w h + 1 -> zlen tmp0 = w -> zlen tmp1 = h ->
  (1 <= B <= 1048576)%R ->
  (forall i, 0 <= i < w * h -> ffinite (at_ f0 f i) = true /\ (Rabs (B2R 24 128 (at_ f0 f i)) <= B)%R) ->
  kf_factor w = Ok lw -> kf_factor h = Ok lh ->
  exists f' wd', kiss_transform (c_ops M) al w h f mirror F tmp0 tmp1 wd = Ok (f', wd') /\
    forall y x, 0 <= y < h -> 0 <= x < w ->
      ffinite (at_ f0 f' (y * w + x)) = true /\
      (Rabs (B2R 24 128 (at_ f0 f' (y * w + x)) - dct_2d w h (fun y x => B2R 24 128 (at_ f0 f (y * w + x)%Z)) y x)
         <= coefficient_error w h (radices_of lw) (radices_of lh) B)%R.
Proof.
  intros M al w h f mirror F tmp0 tmp1 wd B lw lh LM Hal Hw Hh L1 L2 L3 L4 L5 HB Hf Ew Eh.
  apply (transform_accuracy_claim (twiddle_table M) (super_table M) (shift_table M)); try assumption; apply tables_from_libm; try assumption; lia.
Qed.

(** ** Runs *)
(** C84.  Given a well-formed film within the limits, memory enough, and finite samples in
    the frames selected, the program succeeds: it prints the lists the library has for
    these frames and nothing to standard error. *)
Lemma film_run_claim : forall R E Y T self args w o m blk p input w1 s width height used, env_ok E -> machine_ok Y ->
  invoked R E T self args w o m blk p input w1 -> good_run R E Y o input s width height used ->
  exists x w' rw rh, cli_main R E Y T self args w = Ok (x, w') /\ detects R E Y o m (auto_filter o input p) input w1 width height used rw rh /\
    x_status x = status_of (o_verbosity o) rw rh /\ x_out x = printed (o_verbosity o) width height rw rh /\ (o_progress o = false -> x_err x = []).
Proof.
  intros R E Y T self args w o m blk p input w1 s width height used EO MO IN GR.
  destruct (good_run_detects R E Y T self args w o m blk p input w1 s width height used EO MO IN GR) as (rw & rh & D).
  destruct (run_outcome R E Y T self args w o m blk p input w1 EO MO IN) as (x & w' & Q & C & _). exists x, w', rw, rh. split; [exact Q|]. split; [exact D|].
  destruct C as [(width' & height' & used' & rw' & rh' & D' & S & O & X & _)|(N & _)]; [|elim (N _ _ _ _ _ D)].
  destruct (detects_det _ _ _ _ _ _ _ _ _ _ _ _ _ _ _ _ _ _ D D') as (<- & <- & <- & <- & <-). auto.
Qed.

(** C84.  From bytes to text: if every frame selected was scaled up from N columns by
    interpolation, the program with the KISS transform, the sign method and no compression
    filter exits with 0 and names width N with 100%; likewise height. *)
Lemma upscaled_run_claim : forall M R E0 t0 F t Y T strerror self args w o blk p input w1 s width height used,
  let E := kiss_env (e_cfg E0) (e_alloc E0) (c_ops M) (e_qsort E0) t0 F t in
  libm_ok M -> env_ok E0 -> machine_ok Y ->
  invoked R E T self args w o Msign blk p input w1 -> p_filter (auto_filter o input p) = 0 ->
  good_run R E Y o input s width height used -> width <= 2^20 -> height <= 2^20 -> zlen used <= 2^53 ->
  exists x w', cli_main R E Y T self args w = Ok (x, w') /\
    (forall N, p_range p < N < width - p_range p -> (forall image, In image used -> interpolated_x N width height (p_range p) image) ->
       x_status x = 0 /\ says_width (o_verbosity o) width N (text strerror (x_out x))) /\
    (forall N, p_range p < N < height - p_range p -> (forall image, In image used -> interpolated_y N width height (p_range p) image) ->
       x_status x = 0 /\ says_height (o_verbosity o) height N (text strerror (x_out x))).
Proof.
  intros M R E0 t0 F t Y T se self args w o blk p input w1 s width height used E LM EO0 MO IN PF GR W20 H20 LU.
  assert (EO : env_ok E) by (apply kiss_env_claim; exact EO0).
  destruct (film_run_claim R E Y T self args w o Msign blk p input w1 s width height used EO MO IN GR) as (x & w' & rw & rh & Q & D & XS & XO & _).
  exists x, w'. split; [exact Q|].
  destruct (run_reported_claim _ _ _ _ _ _ _ _ _ _ _ _ _ _ _ _ _ _ EO MO IN D) as (HC & CT & NU & R1 & R2).
  assert (PR : printed_run (o_verbosity o) (text se (x_out x)) width height rw rh).
  { apply prints_run. exists R, E, Y, T, se, self, args, w, o, Msign, blk, p, input, w1, x, w', used. auto 10. }
  assert (PG : p_range (auto_filter o input p) = p_range p).
  { unfold auto_filter. destruct (o_filter o) as [f|]; [|reflexivity]. repeat (destruct f as [|[[] [] [] [] [] [] [] []] f]; try reflexivity). destruct (after_last dot input) as [e|]; [|reflexivity].
    unfold resdet_parameters_set_compression_filter. match goal with |- context [if ?b then _ else _] => destruct b end; reflexivity. }
  pose proof (used_range_pos E width height (Some Msign) _ HC) as RG. cbn [used_range used_method] in RG. rewrite PG in RG.
  destruct (gr_size _ _ _ _ _ _ _ _ _ GR) as (S1 & S2 & _).
  assert (TW : tables_close (twiddle_table M) (super_table M) (shift_table M) width) by (apply tables_from_libm; [exact LM|lia]).
  assert (TH : tables_close (twiddle_table M) (super_table M) (shift_table M) height) by (apply tables_from_libm; [exact LM|lia]).
  assert (CP : client_params (e_cfg E0) (Some (auto_filter o input p))) by apply HC.
  assert (ST : forall r len l, l = removelast l ++ [own_size len] -> In r l -> r_index r <> len -> (length l =? 1)%nat = false).
  { intros r len l EL I NI. rewrite EL, app_length. apply Nat.eqb_neq. rewrite EL in I. apply in_app_or in I. destruct I as [I|[I|[]]]; [destruct (removelast l); [destruct I|cbn; lia]|]. subst r. elim NI. reflexivity. }
  assert (OT : forall Ds len l, reported E (Some Msign) width height (Some (auto_filter o input p)) used Ds len l -> forall r, In r (removelast l) -> r_index r <> len).
  { intros Ds len l RP. destruct (list_order_claim _ _ _ _ _ _ _ _ _ HC CT RP) as (_ & others & EQ & OT). rewrite EQ, removelast_last. intros r I. apply (OT r I). }
  split; intros N HN HI.
  - assert (I : In (mkRes N (f32_of_Z 1)) rw).
    { apply (interpolated_width_claim E0 (twiddle_table M) (super_table M) (shift_table M) t0 F t (Some Msign) N width height (Some (auto_filter o input p)) used rw); try assumption; try lia; try reflexivity.
      - cbn [used_range used_method]. rewrite PG. exact HN.
      - cbn [used_range used_method]. rewrite PG. exact HI. }
    split.
    + rewrite XS. unfold status_of, own_only. rewrite (ST _ _ _ (pr_own_w _ _ _ _ _ _ PR) I) by (cbn [r_index]; lia). rewrite andb_false_r. reflexivity.
    + apply (width_said _ _ _ _ _ _ _ PR); [lia|exact I|exact (OT _ _ _ R1)].
  - assert (I : In (mkRes N (f32_of_Z 1)) rh).
    { apply (interpolated_height_claim E0 (twiddle_table M) (super_table M) (shift_table M) t0 F t (Some Msign) N width height (Some (auto_filter o input p)) used rh); try assumption; try lia; try reflexivity.
      - cbn [used_range used_method]. rewrite PG. exact HN.
      - cbn [used_range used_method]. rewrite PG. exact HI. }
    split.
    + rewrite XS. unfold status_of, own_only. rewrite (ST _ _ _ (pr_own_h _ _ _ _ _ _ PR) I) by (cbn [r_index]; lia). rewrite !andb_false_r. reflexivity.
    + apply (height_said _ _ _ _ _ _ _ PR); [lia|exact I|exact (OT _ _ _ R2)].
Qed.

(** A concrete case: a PFM file with the line 256 192 65 0, which is the line 256 0 with
    four samples and an error of 1.  The program prints width 2. *)
Definition upscaled_file : list Z := chars "Pf" ++ [10] ++ chars "4 1" ++ [10] ++ chars "-1.0" ++ [10] ++ [0; 0; 128; 67] ++ [0; 0; 64; 67] ++ [0; 0; 130; 66] ++ [0; 0; 0; 0].
Definition upscaled_env (M : libm) : env := kiss_env (e_cfg demo_env) (e_alloc demo_env) (c_ops M) (e_qsort demo_env) f0 (f0, f0) (f0, f0).
Definition upscaled_opts : opts := mkOpts (-1) None None None (Some "1") None None 0 0 false false.
Lemma upscaled_film E : film E demo_host 4 1 upscaled_file "PFM" (within E 4 1 1) [four_samples].
Proof.
  apply (film_pfm _ _ 4 1 false); [|discriminate].
  replace upscaled_file with (upscaled_file ++ []) by apply app_nil_r.
  apply (pfm_frames_one _ _ _ _ _ false); [congruence| |constructor].
  exists true, (firstn 12 upscaled_file), (skipn 12 upscaled_file). split; [|split; [|reflexivity]].
  - exists (chars "-1.0"). split; [exact (demo_scales true)|]. exists [10], [], [], [52], [32], [49], [10], 10.
    assert (W10 : white 10) by (right; lia). assert (W32 : white 32) by (left; reflexivity).
    split; [split; [discriminate|constructor; [exact W10|constructor]]|]. split; [constructor|].
    split; [constructor|]. split; [exact (spells_digit 52 ltac:(unfold digit; lia))|]. split; [split; [discriminate|constructor; [exact W32|constructor]]|].
    split; [exact (spells_digit 49 ltac:(unfold digit; lia))|]. split; [split; [discriminate|constructor; [exact W10|constructor]]|]. split; [exact W10|]. reflexivity.
  - exists [four_samples], [skipn 12 upscaled_file]. split; [reflexivity|]. split; [repeat constructor|]. split; [reflexivity|].
    split; [|reflexivity]. repeat constructor. exists [[0; 0; 128; 67]; [0; 0; 64; 67]; [0; 0; 130; 66]; [0; 0; 0; 0]].
    split; [|reflexivity]. repeat constructor.
Qed.
Lemma upscaled_good M : good_run native_readers (upscaled_env M) (system_of demo_host upscaled_file) upscaled_opts "a.pfm" (file_of upscaled_file) 4 1 [four_samples].
Proof.
  constructor.
  - reflexivity.
  - apply (demo_delivers demo_host upscaled_file "a.pfm"); [reflexivity|vm_compute; discriminate].
  - reflexivity.
  - unfold analysable. vm_compute. intuition discriminate.
  - exists "PFM", (within (upscaled_env M) 4 1 1), [four_samples]. split; [apply upscaled_film|]. split; [vm_compute; intuition discriminate|]. split; [reflexivity|].
    split; [|intros _ Q; elim Q; reflexivity].
    exists "pfm". split; [apply (type_suffix _ "a"); [reflexivity|]; vm_compute; intuition discriminate|].
    exists ["PGM"], ["Y4M"]. split; [reflexivity|]. split; [right; left; split; [reflexivity|vm_compute; reflexivity]|].
    constructor; [|constructor]. unfold reads_type, same_nocase. intros Q. repeat (destruct Q as [Q|Q]; [destruct Q as (A & B); try discriminate A; try discriminate B|]). discriminate Q.
  - discriminate.
  - constructor; [|constructor]. apply valid_forallb. vm_compute. reflexivity.
Qed.
Lemma upscaled_invoked M : exists p w1, invoked native_readers (upscaled_env M) demo_terminal "resdet" ["-r"; "1"; "a.pfm"] w0 upscaled_opts Msign 0 p "a.pfm" w1 /\
  p_range p = 1 /\ p_filter (auto_filter upscaled_opts "a.pfm" p) = 0.
Proof.
  exists (mkParams 1 (p_threshold (default_params default_config)) (p_filter (default_params default_config))), (snd (alloc (e_alloc demo_env) w0)). split; [|split; reflexivity].
  exists [Opt "r" "1"], [], (default_params default_config), [Range 1]. split; [reflexivity|]. split; [reflexivity|]. split; [reflexivity|]. split; [reflexivity|].
  split. { exists [], [Range 1], []. split; [reflexivity|]. split; [reflexivity|]. split; [|reflexivity]. exists 1. split; reflexivity. } split; [reflexivity|left; reflexivity].
Qed.

Example film_run_example : exists R E Y T self args w o m blk p input w1 s width height used, env_ok E /\ machine_ok Y /\
  invoked R E T self args w o m blk p input w1 /\ good_run R E Y o input s width height used.
Proof.
  destruct (upscaled_invoked exact_libm) as (p & w1 & IN & _). do 10 eexists. exists p. eexists. exists w1. do 4 eexists.
  split; [|split; [|split; [exact IN|apply upscaled_good]]]; [apply kiss_env_claim; exact demo_env_ok|]. apply demo_machine; reflexivity.
Qed.
(** with any good C library, "resdet -r 1 a.pfm" prints a line "    2 (100.00%)   ..." *)
Example upscaled_run_example : forall M, libm_ok M -> env_ok demo_env /\ machine_ok (system_of demo_host upscaled_file) /\
  (exists p w1, invoked native_readers (upscaled_env M) demo_terminal "resdet" ["-r"; "1"; "a.pfm"] w0 upscaled_opts Msign 0 p "a.pfm" w1 /\
     p_range p = 1 /\ p_filter (auto_filter upscaled_opts "a.pfm" p) = 0) /\
  good_run native_readers (upscaled_env M) (system_of demo_host upscaled_file) upscaled_opts "a.pfm" (file_of upscaled_file) 4 1 [four_samples] /\
  interpolated_x 2 4 1 1 four_samples /\
  exists x w' rest, cli_main native_readers (upscaled_env M) (system_of demo_host upscaled_file) demo_terminal "resdet" ["-r"; "1"; "a.pfm"] w0 = Ok (x, w') /\
    x_status x = 0 /\ a_line (text (fun _ => "") (x_out x)) (chars "    2 (100.00%)   " ++ rest).
Proof.
  intros M LM. assert (MO : machine_ok (system_of demo_host upscaled_file)) by (apply demo_machine; reflexivity).
  split; [exact demo_env_ok|]. split; [exact MO|]. split; [apply upscaled_invoked|]. split; [apply upscaled_good|]. split; [exact interpolated_width_example|].
  destruct (upscaled_invoked M) as (p & w1 & IN & PR & PF).
  destruct (upscaled_run_claim M native_readers demo_env f0 (f0, f0) (f0, f0) (system_of demo_host upscaled_file) demo_terminal (fun _ => "") "resdet" ["-r"; "1"; "a.pfm"] w0 upscaled_opts
    0%nat p "a.pfm" w1 (file_of upscaled_file) 4 1 [four_samples] LM demo_env_ok MO IN PF (upscaled_good M) ltac:(lia) ltac:(lia) ltac:(cbn; lia)) as (x & w' & Q & W & _).
  rewrite PR in W. destruct (W 2 ltac:(lia)) as (XS & _ & _ & TB). { intros image [<-|[]]. exact interpolated_width_example. }
  destruct TB as (c & rest & (n & a & NN & PA & ->) & AL). { cbn. lia. }
  exists x, w', rest. split; [exact Q|]. split; [exact XS|].
  assert (n = [50]) as ->. { apply (numeral_unique n [50] 2 NN). split; [exact (spells_digit 50 ltac:(unfold digit; lia))|left; reflexivity]. }
  destruct PA as (b & SP & -> & L). rewrite app_length in L. cbn in L.
  assert (b = chars "    ") as ->.
  { unfold spaces in SP. do 5 (destruct b as [|? b]; [try (cbn in L; lia)|]); try (cbn in L; lia). repeat (apply Forall_cons_iff in SP; destruct SP as (-> & SP)). reflexivity. }
  exact AL.
Qed.
