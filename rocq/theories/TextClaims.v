(** @header
    Properties C80-C82: the text that the command line program prints. *)
From Coq Require Import Reals Lra Ascii String.
From Flocq Require Import Core IEEE754.BinarySingleNaN IEEE754.Binary.
From Verif Require Import Base BaseProofs Flt FltProofs Util Methods Analysis History Spec SpecAnalysis SpecUtil SpecReport Stdio Pgm Pfm Y4m Image ImageHistory SpecImage SpecFormats Cli SpecCli Printf SpecText Demo DemoImages DemoFormats.
From Verif Require Import UtilProofs ClientProofs ScanProofs AnalysisClaims CliProofs CliOptions CliRun CliClaims PrintProofs TextProofs TextRuns.
Open Scope string_scope.
Open Scope list_scope.
Open Scope Z_scope.

(** ** Numbers *)
(** C80.  Sizes are printed as decimal numerals without superfluous zeros, in the table
    behind spaces up to five characters. *)
Lemma number_text_claim : forall strerror n, 0 <= n ->
  numeral (text strerror [Num n]) n /\ exists t, numeral t n /\ padded 5 t (text strerror [Num5 n]).
Proof.
  intros se n N. cbn [text flat_map piece_text]. rewrite !app_nil_r. split; [apply number_numeral; exact N|].
  exists (number n). split; [apply number_numeral; exact N|apply right_justified_padded].
Qed.

Example number_text_example : text (fun _ => "") [Num 0; Str " "; Num 18446744073709551615; Str " "; Num5 640; Num5 123456] = chars "0 18446744073709551615   640123456".
Proof. vm_compute. reflexivity. Qed.

(** C80.  Finite numbers are printed with a minus sign if negative, and the decimal
    fraction nearest to their absolute value. *)
Lemma fraction_text_claim : forall strerror (x : f64), is_finite 53 1024 x = true ->
  let s := minus_sign (Bsign 53 1024 x) in let r := B2R 53 1024 x in
  (exists t, text strerror [Fixed6 x] = s ++ t /\ fraction 6 t (rounded 6 r)) /\
  (exists t, padded 5 (s ++ t) (text strerror [Fixed2 x]) /\ fraction 2 t (rounded 2 r)) /\
  (exists t, text strerror [Fixed0 x] = s ++ t /\ numeral t (rounded 0 r)).
Proof.
  intros se x F s r. cbn [text flat_map piece_text]. rewrite !app_nil_r.
  split; [exact (fixed_fraction 6 x ltac:(discriminate) F)|]. split; [|exact (fixed_whole x F)].
  destruct (fixed_fraction 2 x ltac:(discriminate) F) as (t & E & FR). exists t. split; [|exact FR]. fold s in E. rewrite E. apply right_justified_padded.
Qed.

Example fraction_text_example :
  text (fun _ => "") [Fixed6 (f64_of_f32 (f32_of_Z (-1))); Str " "; Fixed2 (dlit 1 8); Str " "; Fixed0 (dlit 5 2); Str " "; Fixed6 (dlit 2 3)] = chars "-1.000000  0.12 2 0.666667".
Proof. vm_compute. reflexivity. Qed.

(** ** The text of runs *)
Lemma run_prints R E Y T se self args w o m blk p input w1 : env_ok E -> machine_ok Y -> invoked R E T self args w o m blk p input w1 ->
  (match cli_main R E Y T self args w with Ok (x, _) => match x_out x with [] => false | _ => true end | _ => false end) = true ->
  exists x w' width height rw rh, cli_main R E Y T self args w = Ok (x, w') /\ prints (o_verbosity o) (text se (x_out x)) width height rw rh.
Proof.
  intros EO MO IN S. destruct (run_results_claim R E Y T self args w o m blk p input w1 EO MO IN) as (x & w' & Q & C). rewrite Q in S.
  destruct C as [(width & height & used & rw & rh & D & _)|(_ & _ & X & _)]; [|rewrite X in S; discriminate].
  exists x, w', width, height, rw, rh. split; [exact Q|]. exists R, E, Y, T, se, self, args, w, o, m, blk, p, input, w1, x, w', used. auto 10.
Qed.
(** a PFM image of 4x4 samples 1 and -1 *)
Definition plus : list Z := [63; 128; 0; 0].
Definition less : list Z := [191; 128; 0; 0].
Definition table_file : list Z := chars "Pf" ++ [10] ++ chars "4 4" ++ [10] ++ chars "1.0" ++ [10] ++
  (plus ++ plus ++ less ++ plus) ++ (plus ++ plus ++ less ++ less) ++ (less ++ less ++ plus ++ plus) ++ (less ++ less ++ plus ++ plus).
Lemma table_invoked : invoked native_readers demo_env demo_terminal "resdet" ["-r1"; "a.pfm"] w0 (mkOpts (-1) None None None (Some "1") None None 0 0 false false) Msign 0 (mkParams 1 (f32_of_Z (-1)) 0) "a.pfm" (snd (alloc (e_alloc demo_env) w0)).
Proof.
  exists [Opt "r" "1"], [], (default_params default_config), [Range 1]. split; [reflexivity|]. split; [reflexivity|]. split; [reflexivity|]. split; [reflexivity|].
  split. { exists [], [Range 1], []. split; [reflexivity|]. split; [reflexivity|]. split; [exists 1; split; reflexivity|reflexivity]. }
  split; [reflexivity|left; reflexivity].
Qed.
Definition nl : list Z := [10].
Lemma table_prints : exists width height rw rh, prints (-1) (chars "given: 4x4" ++ nl ++ chars "best guess: 1x1" ++ nl ++ chars "all width        height" ++ nl ++
    chars "    1 (100.00%)       1 (100.00%)" ++ nl ++ chars "    2 (75.00%)       2 (75.00%)" ++ nl) width height rw rh.
Proof.
  assert (MO : machine_ok (system_of demo_host table_file)) by (apply demo_machine; vm_compute; reflexivity).
  assert (SO : (match cli_main native_readers demo_env (system_of demo_host table_file) demo_terminal "resdet" ["-r1"; "a.pfm"] w0 with Ok (x, _) => match x_out x with [] => false | _ => true end | _ => false end) = true) by (vm_compute; reflexivity).
  destruct (run_prints native_readers demo_env (system_of demo_host table_file) demo_terminal (fun _ => "") _ _ _ _ _ _ _ _ _ demo_env_ok MO table_invoked SO)
    as (x & w' & width & height & rw & rh & Q & P).
  assert (E : match cli_main native_readers demo_env (system_of demo_host table_file) demo_terminal "resdet" ["-r1"; "a.pfm"] w0 with Ok (x, _) => text (fun _ => "") (x_out x) | _ => [] end =
    chars "given: 4x4" ++ nl ++ chars "best guess: 1x1" ++ nl ++ chars "all width        height" ++ nl ++ chars "    1 (100.00%)       1 (100.00%)" ++ nl ++ chars "    2 (75.00%)       2 (75.00%)" ++ nl) by (vm_compute; reflexivity).
  rewrite Q in E. rewrite E in P. exists width, height, rw, rh. exact P.
Qed.
Lemma list_prints : exists t width height rw rh, prints 3 t width height rw rh.
Proof.
  assert (MO : machine_ok (system_of demo_host demo_pgm_file)) by (apply demo_machine; vm_compute; reflexivity).
  assert (SO : (match cli_main native_readers demo_env (system_of demo_host demo_pgm_file) demo_terminal "resdet" demo_args w0 with Ok (x, _) => match x_out x with [] => false | _ => true end | _ => false end) = true) by (vm_compute; reflexivity).
  destruct (run_prints native_readers demo_env (system_of demo_host demo_pgm_file) demo_terminal (fun _ => "") _ _ _ _ _ _ _ _ _ demo_env_ok MO demo_invoked SO)
    as (x & w' & width & height & rw & rh & _ & P). exists (text (fun _ => "") (x_out x)), width, height, rw, rh. exact P.
Qed.

(** C80.  With -v 1 the best width and height are printed, with a space between them. *)
Lemma brief_text_claim : forall t width height rw rh, prints 1 t width height rw rh ->
  exists tw th, t = tw ++ [32] ++ th ++ [10] /\ numeral tw (best rw) /\ numeral th (best rh).
Proof. intros t width height rw rh P. exact (brief_run _ _ _ _ _ (prints_run _ _ _ _ _ _ P)). Qed.

Example brief_text_example : exists t width height rw rh, prints 1 t width height rw rh.
Proof.
  assert (IN : invoked native_readers demo_env demo_terminal "resdet" ["-v"; "1"; "a.pgm"] w0 (mkOpts 1 None None None None None None 0 0 false false) Msign 0 (default_params default_config) "a.pgm" (snd (alloc (e_alloc demo_env) w0))).
  { exists [Opt "v" "1"], [], (default_params default_config), []. split; [reflexivity|]. split; [reflexivity|]. split; [reflexivity|]. split; [reflexivity|].
    split. { exists [], [], []. repeat split; reflexivity. } split; [reflexivity|left; reflexivity]. }
  assert (MO : machine_ok (system_of demo_host demo_pgm_file)) by (apply demo_machine; vm_compute; reflexivity).
  assert (SO : (match cli_main native_readers demo_env (system_of demo_host demo_pgm_file) demo_terminal "resdet" ["-v"; "1"; "a.pgm"] w0 with Ok (x, _) => match x_out x with [] => false | _ => true end | _ => false end) = true) by (vm_compute; reflexivity).
  destruct (run_prints native_readers demo_env (system_of demo_host demo_pgm_file) demo_terminal (fun _ => "") _ _ _ _ _ _ _ _ _ demo_env_ok MO IN SO)
    as (x & w' & width & height & rw & rh & _ & P). exists (text (fun _ => "") (x_out x)), width, height, rw, rh. exact P.
Qed.

(** C80.  With -v 2 and -v 3 the widths are printed on one line and the heights on the
    next, with a space behind each, with -v 3 with the confidence behind a colon. *)
Lemma list_text_claim : forall v t width height rw rh, v = 2 \/ v = 3 -> prints v t width height rw rh ->
  exists tw th, t = tw ++ [10] ++ th ++ [10] /\ listed v rw tw /\ listed v rh th.
Proof. intros v t width height rw rh V P. exact (list_run _ _ _ _ _ _ V (prints_run _ _ _ _ _ _ P)). Qed.

Example list_text_example : exists t width height rw rh, prints 3 t width height rw rh.
Proof. exact list_prints. Qed.

(** C80.  At the default verbosity the sizes, the best guesses and a table are printed.
    The heights are aligned if all widths have at most five digits and no confidence is
    printed as 100.00%. *)
Lemma table_text_claim : forall v t width height rw rh, ~ 0 <= v <= 3 -> prints v t width height rw rh ->
  exists s ls u, t = s ++ u /\ summary_text width height rw rh s /\
    rows_text (removelast rw) (removelast rh) 0 (Nat.max (length (removelast rw)) (length (removelast rh))) ls u /\
    (Forall narrow (removelast rw) -> Forall (fun l => length l = 17%nat) ls).
Proof. intros v t width height rw rh V P. exact (table_run _ _ _ _ _ _ V (prints_run _ _ _ _ _ _ P)). Qed.

Example table_text_example : exists t width height rw rh, prints (-1) t width height rw rh.
Proof. destruct table_prints as (width & height & rw & rh & P). eexists _, _, _, _, _. exact P. Qed.

(** C80, finding: a confidence of 100% moves the height out of its column. *)
Lemma table_alignment_refuted_claim : exists t width height rw rh s a b, prints (-1) t width height rw rh /\
  t = s ++ a ++ chars "    1 (100.00%)" ++ [10] ++ b ++ chars "    2 (75.00%)" ++ [10] /\ (length a = 18 /\ length b = 17)%nat.
Proof.
  destruct table_prints as (width & height & rw & rh & P). eexists _, width, height, rw, rh, (chars "given: 4x4" ++ nl ++ chars "best guess: 1x1" ++ nl ++ chars "all width        height" ++ nl), (chars "    1 (100.00%)   "), (chars "    2 (75.00%)   ").
  split; [exact P|]. repeat split; reflexivity.
Qed.

(** C80.  The text determines what is reported: with -v 1 and more the best guesses, with
    -v 2 and 3 the sizes in the lists, with -v 3 the confidences to six digits, in the
    table the size of the image, the sizes and the confidences to four digits. *)
Lemma text_unambiguous_claim : forall v t width height rw rh width' height' rw' rh',
  prints v t width height rw rh -> prints v t width' height' rw' rh' ->
  (v <> 0 -> best rw = best rw' /\ best rh = best rh') /\
  (v = 2 \/ v = 3 -> map r_index rw = map r_index rw' /\ map r_index rh = map r_index rh') /\
  (v = 3 -> Forall2 (close_to (/ IZR (10 ^ 6))) rw rw' /\ Forall2 (close_to (/ IZR (10 ^ 6))) rh rh') /\
  (~ 0 <= v <= 3 -> width = width' /\ height = height' /\ Forall2 (close_to (101 / 1000000)) rw rw' /\ Forall2 (close_to (101 / 1000000)) rh rh').
Proof.
  intros v t width height rw rh width' height' rw' rh' P P'. apply prints_run in P, P'. split; [intros V; exact (runs_agree _ _ _ _ _ _ _ _ _ _ V P P')|].
  split; [intros V; destruct (list_runs_agree _ _ _ _ _ _ _ _ _ _ V P P') as (A & B & _); auto|].
  split; [intros V; destruct (list_runs_agree _ _ _ _ _ _ _ _ _ _ (or_intror V) P P') as (_ & _ & C); auto|].
  intros V. exact (table_runs_agree _ _ _ _ _ _ _ _ _ _ V P P').
Qed.

Example text_unambiguous_example : (exists t width height rw rh, prints (-1) t width height rw rh) /\ (exists t width height rw rh, prints 3 t width height rw rh).
Proof. split; [|exact list_prints]. destruct table_prints as (width & height & rw & rh & P). eexists _, _, _, _, _. exact P. Qed.

(** ** Thresholds *)
(** C81.  If -x gives a percentage with up to two digits behind the point, no result
    (other than the size of the image) is printed with a smaller one. *)
Lemma threshold_text_claim : forall R E Y T self args w o m blk p input w1 width height used rw rh a k r, env_ok E -> machine_ok Y -> reads_numerals T ->
  invoked R E T self args w o m blk p input w1 -> o_threshold o = Some a -> percent_numeral a k ->
  detects R E Y o m (auto_filter o input p) input w1 width height used rw rh ->
  In r rw /\ r_index r <> width \/ In r rh /\ r_index r <> height ->
  k <= rounded 2 (percentage r) /\ 100 * k <= rounded 6 (conf_real r).
Proof.
  intros R E Y T self args w o m blk p input w1 width height used rw rh a k r EO MO RN IN OT PN D IR.
  destruct (invoked_threshold _ _ _ _ _ _ _ _ _ _ _ _ _ IN OT) as (d & TD & U & UT). pose proof (threshold_low T a k d RN PN TD U) as LOW.
  destruct (run_reported_claim _ _ _ _ _ _ _ _ _ _ _ _ _ _ _ _ _ _ EO MO IN D) as (HC & CT & _ & R1 & R2).
  assert (G : confident r /\ (B2R 24 128 (option_threshold d) <= conf_real r)%R).
  { destruct IR as [(I & NE)|(I & NE)].
    - destruct (reported_results _ _ _ _ _ _ _ _ _ HC CT R1) as (_ & CF & EQ & TH). rewrite EQ in I. apply in_app_or in I. destruct I as [I|[<-|[]]]; [|elim NE; reflexivity].
      rewrite Forall_forall in CF. split; [apply CF; exact I|]. rewrite <- UT. apply TH. exact I.
    - destruct (reported_results _ _ _ _ _ _ _ _ _ HC CT R2) as (_ & CF & EQ & TH). rewrite EQ in I. apply in_app_or in I. destruct I as [I|[<-|[]]]; [|elim NE; reflexivity].
      rewrite Forall_forall in CF. split; [apply CF; exact I|]. rewrite <- UT. apply TH. exact I. }
  destruct G as (CF & GE). destruct (percentage_near r CF) as (P0 & PNR). apply Rabs_le_inv in PNR. destruct U as (_ & U0 & _).
  split; apply rounded_lower; [exact P0| |unfold conf_real in *; lra|].
  - change (10 ^ Z.of_nat 2) with 100. lra.
  - change (10 ^ Z.of_nat 6) with 1000000. rewrite mult_IZR. lra.
Qed.

(** a strtod for decimal fractions *)
Definition exact_strtod (s : string) : option f64 :=
  let ti := take_while is_digit (chars s) in
  let tf := match skipn (length ti) (chars s) with 46 :: l => take_while is_digit l | _ => [] end in
  match ti with [] => None | _ => Some (dlit (digits_value (ti ++ tf)) (10 ^ Z.of_nat (length tf))) end.
Lemma exact_strtod_reads permute : reads_numerals (mkTerminal exact_strtod permute).
Proof.
  intros a ti tf i f EQ SI SF L. cbn [t_strtod]. unfold exact_strtod. rewrite EQ.
  pose proof (spells_digits _ _ SI) as DI. pose proof (spells_length _ _ SI) as LI.
  assert (DF : Forall digit tf) by (destruct SF as [(-> & _)|SF]; [constructor|exact (spells_digits _ _ SF)]).
  assert (TD : forall t l, Forall digit t -> match l with c :: _ => ~ digit c | [] => True end -> take_while is_digit (t ++ l) = t).
  { intros t l F. induction F as [|c t D _ IH]; intros N; [destruct l as [|c l]; [reflexivity|]; cbn; rewrite (not_digit _ N); reflexivity|].
    cbn. rewrite (proj2 (digit_is c) D), IH by exact N. reflexivity. }
  assert (T1 : take_while is_digit (ti ++ (if (length tf =? 0)%nat then [] else 46 :: tf)) = ti).
  { apply TD; [exact DI|]. destruct (length tf =? 0)%nat; [exact I|unfold digit; lia]. }
  rewrite T1, skipn_app, skipn_all, Nat.sub_diag. cbn [app skipn].
  assert (T2 : match (if (length tf =? 0)%nat then [] else 46 :: tf) with 46 :: l => take_while is_digit l | _ => [] end = tf).
  { destruct tf as [|c tf]; [reflexivity|]. cbn [length Nat.eqb]. rewrite <- (app_nil_r (c :: tf)) at 1. apply TD; [exact DF|exact I]. }
  rewrite T2. destruct ti as [|c ti]; [contradiction|]. set (t := c :: ti) in *.
  assert (GU : forall t v, spells t v -> v < 10 ^ Z.of_nat (length t)).
  { induction 1 as [c0 D|l v c0 S IH D]; [unfold digit in D; cbn; lia|]. rewrite app_length. cbn [length]. rewrite Nat.add_1_r, Nat2Z.inj_succ, Z.pow_succ_r by lia. unfold digit in D. lia. }
  assert (V : digits_value (t ++ tf) = i * 10 ^ Z.of_nat (length tf) + f /\ 0 <= f < 10 ^ Z.of_nat (length tf)).
  { destruct SF as [(-> & ->)|SF]; [rewrite app_nil_r, (spells_value _ _ SI); cbn; lia|]. pose proof (spells_nonneg _ _ SF). pose proof (GU _ _ SF). split; [|lia].
    clear - SI SF. rewrite <- (spells_value _ _ SI). unfold digits_value at 1. rewrite fold_left_app. fold (digits_value t).
    induction SF as [x D|l v x S IH D]; [cbn; lia|]. rewrite fold_left_app, IH. cbn [fold_left]. rewrite app_length. cbn [length]. rewrite Nat.add_1_r, Nat2Z.inj_succ, Z.pow_succ_r by lia. lia. }
  destruct V as (V & F0). rewrite V. pose proof (GU _ _ SI) as IU. pose proof (spells_nonneg _ _ SI) as I0.
  assert (PB : 1 <= 10 ^ Z.of_nat (length tf) <= 10 ^ 15) by (split; [apply (Z.pow_le_mono_r 10 0); lia|apply Z.pow_le_mono_r; lia]).
  assert (NB : 0 <= i * 10 ^ Z.of_nat (length tf) + f < 10 ^ 15).
  { split; [nia|]. apply Z.lt_le_trans with (10 ^ (Z.of_nat (length t) + Z.of_nat (length tf))); [rewrite Z.pow_add_r by lia; nia|apply Z.pow_le_mono_r; lia]. }
  set (n := i * 10 ^ Z.of_nat (length tf) + f) in *. set (b := 10 ^ Z.of_nat (length tf)) in *. change (10 ^ 15) with 1000000000000000 in *.
  pose proof (f64_of_Z_exact n ltac:(lia)) as DN. pose proof (f64_of_Z_exact b ltac:(lia)) as DB. exists (dlit n b). split; [reflexivity|].
  assert (B1 : (1 <= IZR b)%R) by (apply IZR_le; lia).
  assert (Q : (IZR n / IZR b <= bpow radix2 1023)%R).
  { apply Rle_trans with (IZR (2 ^ 60)); [|change (IZR (2 ^ 60)) with (bpow radix2 60); apply bpow_le; lia]. apply Rle_trans with (IZR n); [|apply IZR_le; lia].
    assert (N0 : (0 <= IZR n)%R) by (apply IZR_le; lia). apply Rmult_le_reg_r with (IZR b); [lra|]. unfold Rdiv. rewrite Rmult_assoc, Rinv_l by lra. nra. }
  destruct (ddiv_val _ _ _ _ DN DB ltac:(lra) Q) as (A1 & A2 & A3). split; [exact A1|]. split; [exact A2|exact A3].
Qed.
Lemma threshold_invoked : invoked native_readers demo_env (mkTerminal exact_strtod true) "resdet" ["-r1"; "-x"; "62.5"; "a.pfm"] w0
  (mkOpts (-1) None None None (Some "1") (Some "62.5") None 0 0 false false) Msign 0 (mkParams 1 (option_threshold (dlit 625 10)) 0) "a.pfm" (snd (alloc (e_alloc demo_env) w0)).
Proof.
  exists [Opt "r" "1"; Opt "x" "62.5"], [], (default_params default_config), [Threshold (option_threshold (dlit 625 10)); Range 1]. split; [reflexivity|]. split; [reflexivity|]. split; [reflexivity|]. split; [reflexivity|].
  split. { exists [Threshold (option_threshold (dlit 625 10))], [Range 1], []. split; [reflexivity|]. split; [exists (dlit 625 10); split; reflexivity|]. split; [exists 1; split; reflexivity|reflexivity]. }
  split; [|left; reflexivity]. cbn [set_all set_param]. unfold resdet_parameters_set_threshold.
  match goal with |- context [if ?b then _ else _] => assert (B : b = false) by (vm_compute; reflexivity); rewrite B end. reflexivity.
Qed.

Example threshold_text_example : reads_numerals (mkTerminal exact_strtod true) /\ percent_numeral "62.5" 6250 /\
  exists o m blk p w1 x w' width height rw rh, invoked native_readers demo_env (mkTerminal exact_strtod true) "resdet" ["-r1"; "-x"; "62.5"; "a.pfm"] w0 o m blk p "a.pfm" w1 /\ o_threshold o = Some "62.5" /\
  cli_main native_readers demo_env (system_of demo_host table_file) (mkTerminal exact_strtod true) "resdet" ["-r1"; "-x"; "62.5"; "a.pfm"] w0 = Ok (x, w') /\
  prints (-1) (text (fun _ => "") (x_out x)) width height rw rh.
Proof.
  split; [apply exact_strtod_reads|]. split.
  { exists (chars "62"), (chars "5"), 62, 5. split; [reflexivity|]. split; [exact (spells_next [54] 6 50 (spells_digit 54 ltac:(unfold digit; lia)) ltac:(unfold digit; lia))|].
    split; [right; exact (spells_digit 53 ltac:(unfold digit; lia))|]. cbn. lia. }
  assert (MO : machine_ok (system_of demo_host table_file)) by (apply demo_machine; vm_compute; reflexivity).
  assert (SO : (match cli_main native_readers demo_env (system_of demo_host table_file) (mkTerminal exact_strtod true) "resdet" ["-r1"; "-x"; "62.5"; "a.pfm"] w0 with Ok (x, _) => match x_out x with [] => false | _ => true end | _ => false end) = true) by (vm_compute; reflexivity).
  destruct (run_prints native_readers demo_env (system_of demo_host table_file) (mkTerminal exact_strtod true) (fun _ => "") _ _ _ _ _ _ _ _ _ demo_env_ok MO threshold_invoked SO)
    as (x & w' & width & height & rw & rh & Q & P).
  eexists _, _, _, _, _, x, w', width, height, rw, rh. split; [exact threshold_invoked|]. split; [reflexivity|]. split; [exact Q|exact P].
Qed.

(** ** Help *)
Lemma piece_occurs se s u v l : In (Str s) l -> chars s = u ++ v -> occurs u (text se l).
Proof.
  intros I E. destruct (in_split _ _ I) as (l1 & l2 & ->). exists (text se l1), (v ++ text se l2). rewrite text_app. cbn [text flat_map piece_text]. rewrite E, <- app_assoc. reflexivity.
Qed.
Fixpoint leads (u t : list Z) : bool :=
  match u, t with
  | [], _ => true
  | a :: u, b :: t => (a =? b) && leads u t
  | _, [] => false
  end.
Lemma leads_app u : forall t, leads u t = true -> exists v, t = u ++ v.
Proof.
  induction u as [|a u IH]; intros t H; [exists t; reflexivity|]. destruct t as [|b t]; [discriminate|]. cbn in H. apply andb_prop in H. destruct H as (H & L).
  apply Z.eqb_eq in H. subst b. destruct (IH t L) as (v & ->). exists v. reflexivity.
Qed.
Definition leads_piece (u : list Z) (p : piece) : bool := match p with Str s => leads u (chars s) | _ => false end.
Lemma leads_occurs se u k l : existsb (leads_piece u) (skipn k l) = true -> occurs u (text se l).
Proof.
  intros H. apply existsb_exists in H. destruct H as (p & I & L). destruct p as [s| | | | | | | |]; try discriminate. destruct (leads_app u _ L) as (v & E).
  apply (piece_occurs se s u v); [|exact E]. rewrite <- (firstn_skipn k l). apply in_or_app. right. exact I.
Qed.
Lemma occurs_inside u l a b : occurs u l -> occurs u (a ++ l ++ b).
Proof. intros (x & y & ->). exists (a ++ x), (y ++ b). rewrite <- !app_assoc. reflexivity. Qed.
Fixpoint found (u t : list Z) : bool := leads u t || match t with [] => false | _ :: t => found u t end.
Lemma found_occurs u : forall t, found u t = true -> occurs u t.
Proof.
  induction t as [|c t IH]; cbn; intros H; apply orb_prop in H; destruct H as [H|H]; try discriminate; [destruct (leads_app u _ H) as (v & E); exists [], v; exact E..|].
  destruct (IH H) as (a & b & ->). exists (c :: a), b. reflexivity.
Qed.
Lemma occurs_found u t : occurs u t -> found u t = true.
Proof.
  intros (a & b & ->). induction a as [|c a IH]; cbn.
  - assert (L : leads u (u ++ b) = true) by (induction u as [|x u IH]; [reflexivity|]; cbn; rewrite Z.eqb_refl; exact IH). destruct (u ++ b); cbn; rewrite L; reflexivity.
  - rewrite IH, orb_true_r. reflexivity.
Qed.

(** C82.  The help text has an entry for each option. *)
Lemma help_entries_claim : forall strerror config self c, find_option optstring c <> None ->
  x_status (help config self) = 0 /\ occurs (option_entry c) (text strerror (x_out (help config self))).
Proof.
  intros se cf self c O. split; [reflexivity|]. apply (leads_occurs se _ 2).
  destruct c as [[] [] [] [] [] [] [] []]; first [elim O; reflexivity|vm_compute; reflexivity].
Qed.

Example help_entries_example : find_option optstring "x" <> None /\ find_option optstring "R" <> None /\ find_option optstring "z" = None.
Proof. repeat split; discriminate. Qed.

Lemma chars_app a b : chars (a ++ b)%string = chars a ++ chars b.
Proof. unfold chars. induction a; [reflexivity|]. cbn. f_equal. exact IHa. Qed.
Lemma version_readers strerror l k n : n = (k + length l)%nat -> l <> [] ->
  text strerror (flat_map (fun '(i, r) => [Str r; Str (if (i <? n)%nat then ", " else newline)]) (combine (seq (S k) (length l)) l)) = chars (String.concat ", " l) ++ [10].
Proof.
  revert k. induction l as [|r l IH]; intros k Hn NE; [congruence|]. cbn [length seq combine flat_map app].
  destruct l as [|r' l'].
  - cbn [length combine seq flat_map app String.concat]. replace (S k <? n)%nat with false by (symmetry; apply Nat.ltb_ge; cbn in Hn; lia).
    unfold text. cbn [flat_map piece_text]. rewrite app_nil_r. reflexivity.
  - replace (S k <? n)%nat with true by (symmetry; apply Nat.ltb_lt; cbn in Hn; lia).
    change (String.concat ", " (r :: r' :: l')) with (r ++ ", " ++ String.concat ", " (r' :: l'))%string. rewrite !chars_app.
    unfold text in *. cbn [flat_map]. rewrite (IH (S k)); [|cbn [length] in *; lia|discriminate]. cbn [piece_text]. rewrite <- !app_assoc. reflexivity.
Qed.
(** C82.  -V prints the versions and the names of the readers, separated by commas. *)
Lemma version_text_claim : forall R c self a evs strerror, resdet_list_image_readers R <> [] ->
  exists x, take_options R c self (Opt "V" a :: evs) no_opts = inl x /\ x_status x = 0 /\ x_err x = [] /\
    text strerror (x_out x) = chars "resdet version 2.4.1" ++ [10] ++ chars "libresdet version 3.1.1" ++ [10] ++
      chars "Built with image readers: " ++ chars (String.concat ", " (resdet_list_image_readers R)) ++ [10].
Proof.
  intros R c self a evs strerror NE. eexists. split; [reflexivity|]. split; [reflexivity|]. split; [reflexivity|].
  cbn [version x_out]. unfold text. rewrite flat_map_app.
  pose proof (version_readers strerror (resdet_list_image_readers R) 0 _ eq_refl NE) as V. unfold text in V. cbn [Nat.add] in V. rewrite V.
  reflexivity.
Qed.
Example version_text_example : resdet_list_image_readers native_readers <> [].
Proof. discriminate. Qed.

(** C82.  -R list prints the names of the readers, a line each, and succeeds; so does a reader
    that does not exist, with a message, and fails. *)
Lemma reader_list_text_claim : forall R c self a evs strerror, ~ reader_named R a ->
  exists x, take_options R c self (Opt "R" a :: evs) no_opts = inl x /\
    text strerror (x_out x) = List.concat (map (fun r => chars r ++ [10]) (resdet_list_image_readers R)) /\
    (a = "list" -> x_status x = 0 /\ x_err x = []) /\
    (a <> "list" -> x_status x = 1 /\ text strerror (x_err x) = chars "No image reader """ ++ chars a ++ chars """, use one of:" ++ [10]).
Proof.
  intros R c self a evs strerror NR. cbn [take_options take_option no_opts].
  destruct (existsb (fun name => strcaseeq name a) (resdet_list_image_readers R)) eqn:EX; [apply named_spec in EX; contradiction|]. cbn [orb].
  eexists. split; [reflexivity|]. unfold list_readers. cbn [x_out x_status x_err]. split.
  { clear. unfold text. induction (resdet_list_image_readers R) as [|r l IH]; [reflexivity|]. cbn [flat_map app map List.concat piece_text] in *. rewrite IH.
    change (chars newline) with [10]. rewrite <- app_assoc. reflexivity. }
  destruct (String.eqb_spec a "list") as [->|N]; split; intros H; try congruence; try contradiction; split; try reflexivity.
Qed.
Example reader_list_text_example : ~ reader_named native_readers "list" /\ ~ reader_named native_readers "tiff".
Proof. split; intros (n & I & Q); cbn in I; repeat destruct I as [<-|I]; try contradiction; discriminate Q. Qed.

(** C82.  The message about wrong arguments names exactly the options, and an argument of
    exactly those that take one. *)
Lemma usage_options_claim : forall strerror self, exists rest, x_status (usage self) = 1 /\ x_out (usage self) = [] /\
  text strerror (x_err (usage self)) = chars "Usage: " ++ chars self ++ rest /\
  forall c, (find_option optstring c = Some true <-> occurs (chars (String "-" (String c " <"))) rest) /\
            (find_option optstring c <> None <-> occurs (chars (String "-" (String c " "))) rest).
Proof.
  intros se self. exists (text (fun _ => "") (skipn 2 (x_err (usage "")))). split; [reflexivity|]. split; [reflexivity|]. split; [reflexivity|]. intros c.
  assert (D : forall u t, found u t = false -> ~ occurs u t) by (intros u t F O; apply occurs_found in O; congruence).
  destruct c as [[] [] [] [] [] [] [] []];
    (split; split; intros H; first [discriminate H|elim H; reflexivity|apply found_occurs; vm_compute; reflexivity|reflexivity|discriminate|apply occurs_found in H; vm_compute in H; discriminate H]).
Qed.

(** C82, finding: the first line of the help text omits an option. *)
Lemma help_synopsis_refuted_claim : exists config first rest c, find_option optstring c <> None /\
  text (fun _ => "") (x_out (help config "resdet")) = first ++ 10 :: rest /\ ~ In 10 first /\ occurs (chars "Usage:") first /\
  ~ occurs (chars (String "-" (String c ""))) first.
Proof.
  exists default_config, (chars "Usage: resdet [-h -V -m <method> -v <verbosity> -t <filetype> -r <range> -x <threshold> -f <value> -p -o <offset> -n <nframes>] image"). eexists. exists "R"%char.
  split; [discriminate|]. split; [vm_compute; reflexivity|]. split; [intros I; vm_compute in I; repeat (destruct I as [I|I]; [discriminate|]); exact I|].
  split; [exists []; eexists; vm_compute; reflexivity|]. intros O. apply occurs_found in O. vm_compute in O. discriminate.
Qed.

(** C82, finding: an entry is printed behind another, not on a line of its own. *)
Lemma help_lines_refuted_claim : exists config c, find_option optstring c <> None /\
  ~ begins_line (option_entry c) (text (fun _ => "") (x_out (help config "resdet"))).
Proof.
  exists default_config, "p"%char. split; [discriminate|]. intros (a & b & E & B).
  assert (O : occurs (10 :: option_entry "p") (10 :: text (fun _ => "") (x_out (help default_config "resdet")))).
  { rewrite E. destruct B as [->|(a' & ->)]; [exists [], b; reflexivity|]. exists (10 :: a'), b. rewrite <- app_assoc. reflexivity. }
  apply occurs_found in O. vm_compute in O. discriminate.
Qed.

Lemma method_percent m : exists k, numeral (text (fun _ => "") [Fixed0 (percent (method_threshold m))]) k /\ (Rabs (B2R 24 128 (method_threshold m) - IZR k / 100) <= / 10000000)%R.
Proof.
  exists (match m with Msign => 55 | Mmag => 40 | Morig => 64 | Mzerox => 50 end). split.
  - assert (E : text (fun _ => "") [Fixed0 (percent (method_threshold m))] = number (match m with Msign => 55 | Mmag => 40 | Morig => 64 | Mzerox => 50 end)) by (destruct m; vm_compute; reflexivity).
    rewrite E. apply number_numeral. destruct m; lia.
  - assert (G : forall a b k, 0 < a < b -> b <= 100 -> (IZR a / IZR b = IZR k / 100)%R -> (Rabs (B2R 24 128 (f32_of_f64 (dlit a b)) - IZR k / 100) <= / 10000000)%R).
    { intros a b k A B K. assert (A0 : (0 < IZR a)%R) by (apply IZR_lt; lia). assert (B0 : (IZR a < IZR b)%R) by (apply IZR_lt; lia).
      assert (Q1 : (0 <= IZR a / IZR b <= 1)%R) by (split; [apply Rlt_le, Rdiv_lt_0_compat; lra|apply Rmult_le_reg_r with (IZR b); [lra|]; unfold Rdiv; rewrite Rmult_assoc, Rinv_l by lra; lra]).
      assert (D : dval (dlit a b) (rnd64 (IZR a / IZR b))).
      { apply ddiv_val; [apply f64_of_Z_exact; lia|apply f64_of_Z_exact; lia|lra|]. apply Rle_trans with 1%R; [lra|]. change 1%R with (bpow radix2 0). apply bpow_le. lia. }
      rewrite K in *. pose proof (rnd64_error _ 1 Q1 ltac:(lra)) as E1. apply Rabs_le_inv in E1.
      assert (Q2 : (0 <= rnd64 (IZR k / 100) <= 1)%R) by (split; [apply rnd64_nonneg; lra|rewrite <- rnd64_1; apply rnd64_le; lra]).
      destruct (f32_of_f64_val _ _ D) as (_ & _ & V); [apply Rle_trans with 1%R; [lra|]; change 1%R with (bpow radix2 0); apply bpow_le; lia|].
      change (B2R 24 128 (f32_of_f64 (dlit a b)) = rnd32 (rnd64 (IZR k / 100))) in V. rewrite V.
      assert (Q3 : (Rabs (rnd64 (IZR k / 100)) <= 1)%R) by (rewrite Rabs_pos_eq; lra). pose proof (RoundProofs.rnd32_err _ 1 Q3 ltac:(lra)) as E2. apply Rabs_le_inv in E2. unfold RoundProofs.ulp1 in E2.
      apply Rabs_le. split; lra. }
    destruct m; cbn [method_threshold]; apply G; try lia; lra.
Qed.
Lemma number_occurs se s n s' l a u v w : chars s = a ++ u -> chars s' = v ++ w -> occurs (u ++ number n ++ v) (text se (Str s :: Num n :: Str s' :: l)).
Proof.
  intros E E'. exists a, (w ++ text se l). cbn [text flat_map piece_text]. rewrite E, E', <- !app_assoc. reflexivity.
Qed.
(** C82.  The defaults in the help text are those in effect: the range, and for each method
    its threshold in percent; the method used by default is marked. *)
Lemma help_defaults_claim : forall strerror config self, 0 <= c_default_range config ->
  let t := text strerror (x_out (help config self)) in
  (exists n, numeral n (p_range (default_params config)) /\ occurs (chars "search (" ++ n ++ chars ").") t) /\
  (forall m, exists k n b note, numeral n k /\ (Rabs (B2R 24 128 (method_threshold m) - IZR k / 100) <= / 10000000)%R /\
     spaces b /\ length (chars (method_name m) ++ b) = 5%nat /\
     (resdet_get_method None = Some m /\ note = chars " (default method)" \/ resdet_get_method None <> Some m /\ note = []) /\
     occurs ([10] ++ chars "   " ++ chars (method_name m) ++ b ++ chars " - " ++ n ++ chars "%" ++ note ++ [10]) t).
Proof.
  intros se cf self C0 t. split.
  - exists (number (c_default_range cf)). split; [apply number_numeral; exact C0|].
    unfold t, help. cbn [x_out]. rewrite text_app. apply (occurs_inside _ _ [] (text se help_methods)).
    assert (S : exists l1 l2, help_options cf self = l1 ++ Str " -r   range: Number of neighboring values to search (" :: Num (c_default_range cf) :: Str ")." :: l2).
    { exists (firstn 27 (help_options cf self)), (skipn 30 (help_options cf self)). reflexivity. }
    destruct S as (l1 & l2 & E). rewrite E. clear E. rewrite text_app. rewrite <- (app_nil_r (text se (_ :: _))). apply occurs_inside.
    apply (number_occurs se _ _ _ _ (chars " -r   range: Number of neighboring values to ") (chars "search (") (chars ").") []); reflexivity.
  - intros m. destruct (method_percent m) as (k & N & K).
    exists k, (text (fun _ => "") [Fixed0 (percent (method_threshold m))]), (repeat 32 (5 - length (chars (method_name m)))), (if String.eqb (method_name m) "sign" then chars " (default method)" else []).
    split; [exact N|]. split; [exact K|]. split; [apply spaces_repeat|]. split; [destruct m; reflexivity|].
    split; [destruct m; [left; split; reflexivity|right; split; [discriminate|reflexivity]..]|].
    unfold t, help. cbn [x_out]. rewrite text_app. rewrite <- (app_nil_r (text se help_methods)). apply occurs_inside.
    assert (E : text se help_methods = text (fun _ => "") help_methods) by reflexivity. rewrite E. clear E. apply found_occurs. destruct m; vm_compute; reflexivity.
Qed.

Example help_defaults_example : occurs (chars "search (12).") (text (fun _ => "") (x_out (help default_config "resdet"))) /\
  occurs ([10] ++ chars "   sign  - 55% (default method)" ++ [10] ++ chars "   mag   - 40%" ++ [10]) (text (fun _ => "") (x_out (help default_config "resdet"))).
Proof. split; apply found_occurs; vm_compute; reflexivity. Qed.
