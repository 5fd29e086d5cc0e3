(** From the bytes of a file to the text printed. *)
From Coq Require Import Ascii String Permutation Lia.
From Flocq Require Import IEEE754.Binary.
From Verif Require Import Base BaseProofs Flt Util Methods Analysis History Spec SpecAnalysis SpecUtil SpecReport Stdio Pgm Pfm Y4m Image ImageHistory SpecImage SpecFormats Cli SpecCli.
From Verif Require Import UtilProofs WorldProofs AnalysisProofs ResultsProofs ClientProofs ProgramProofs FileProofs CliProofs CliFilm CliRun SpecEnd.
Open Scope list_scope.
Open Scope Z_scope.

Lemma analysable_fits E width height : analysable E width height -> plan_fits E width height.
Proof.
  unfold analysable, plan_fits, plan_limit, SIZE_MAX, INT_MAX. destruct (c_backend (e_cfg E)); cbn; intros (A & B & C & D); repeat split; try lia; try exact C.
Qed.
(** with memory enough and valid frames there are results *)
Lemma by_hand_succeeds E used width height m p wd : client_ok E width height p -> analysable E width height -> (forall k, e_alloc E k = true) ->
  Forall (fun f => width * height <= zlen f) used -> countable used -> used <> [] -> Forall (valid_image width height) used ->
  exists o' wd', by_hand_file E used RDEOK width height everything m p no_outs wd = Ok (RDEOK, o', wd').
Proof.
  intros HC AN AL FB CT NU VI. apply (proj1 (countable_zlen _)) in CT. destruct (client_sizes _ _ _ _ HC) as (Hw & Hh). unfold by_hand_file.
  assert (NA : ~ exists k, e_alloc E k = false) by (intros (k & Q); rewrite AL in Q; discriminate).
  pose proof (analysable_fits _ _ _ AN) as PF.
  destruct (create_ok E m width height p wd (eo_config _ (proj1 HC)) Hw Hh (client_valid _ _ _ _ HC)) as (ao & e & wd1 & EC & HCR). rewrite EC. cbn [bind].
  destruct ao as [a|].
  2: { exfalso. destruct HCR as (CE & _). destruct PF as (P1 & P2 & P3 & P4).
       destruct CE as [(_ & Q)|[(_ & _ & Q)|[(_ & [Q|Q])|(_ & _ & _ & Q)]]]; [contradiction|contradiction|lia|lia|]. apply Q. repeat split; try lia. }
  assert (R0 : reaches E m width height p [] a) by (destruct HCR as (-> & _); econstructor; exact EC). destruct HCR as (_ & _ & _ & OW).
  destruct (analyze_frames_ok E m width height p used HC FB [] a wd1 R0) as (e1 & a1 & wd2 & EQ1 & O1 & AB & H'). { change (zlen []) with 0. lia. }
  rewrite EQ1. cbn [bind].
  destruct H' as [(-> & R1 & _)|[(_ & _ & Q)|(_ & Q)]]; [|contradiction|contradiction]. cbn [Z.eqb RDEOK app] in *.
  destruct (history_results E m width height p used a1 everything no_outs wd2 HC R1 CT) as (e3 & o3 & wd3 & EQ3 & HR). rewrite EQ3. cbn [bind].
  destruct HR as [(_ & Q & _)|[(_ & _ & Q & _)|[(_ & _ & _ & _ & _ & Q)|(-> & _ & _ & bs & FL & OB)]]]; [discriminate|contradiction|contradiction|].
  assert (O2 : owns wd2 wd (an_blocks a1)) by (rewrite AB; exact (owns_trans _ _ _ [] _ O1 OW)).
  assert (O3 : owns wd3 wd (an_blocks a1 ++ bs)).
  { eapply owns_perm; [eapply owns_trans; [exact OB|exact O2]|]. apply Permutation_app_comm. }
  destruct (destroy_ok _ _ _ _ O3) as (wd4 & EQ4 & _). rewrite EQ4. cbn [bind]. eauto.
Qed.


Lemma good_run_detects R E Y T self args w o m blk p input w1 s width height used : env_ok E -> machine_ok Y ->
  invoked R E T self args w o m blk p input w1 -> good_run R E Y o input s width height used ->
  exists rw rh, detects R E Y o m (auto_filter o input p) input w1 width height used rw rh.
Proof.
  intros EO MO IN [AL DL WH SZ (name & limit & fs & FM & LM & -> & SL & SK) NU VA].
  destruct (invoked_run R E Y T self args w o m blk p input w1 (eo_config _ EO) IN) as (_ & _ & CP & _ & O0).
  assert (SZ' := SZ). destruct SZ' as (S1 & S2 & S3 & S4).
  assert (B1 : 1 <= width <= SIZE_MAX) by (unfold SIZE_MAX; destruct (c_backend (e_cfg E)); cbn in S1; lia).
  assert (B2 : 1 <= height <= SIZE_MAX) by (unfold SIZE_MAX; destruct (c_backend (e_cfg E)); cbn in S2; lia).
  destruct (film_supplies R E Y o input w1 s width height name limit fs EO MO O0 FM B1 B2 DL SL SK) as (A & B).
  assert (OF : o_offset o <= Z.of_nat (length fs)).
  { destruct (Z.le_gt_cases (o_offset o) (Z.of_nat (length fs))) as [Q|Q]; [exact Q|]. exfalso. apply NU. unfold selected.
    rewrite skipn_all2 by lia. unfold first_frames. destruct (_ =? 0); [reflexivity|apply firstn_nil]. }
  destruct (B LM AL OF) as (er & wd & SU). destruct (A _ _ _ _ _ SU) as (_ & _ & _ & _ & _ & ER).
  assert (ER0 : er = RDEOK).
  { rewrite ER. unfold end_error, film_end, end_of. rewrite WH. destruct (_ && _); [reflexivity|]. destruct (String.eqb name "PGM"); reflexivity. }
  subst er. rewrite ER0 in SU. destruct (supplied _ _ _ _ _ _ _ _ _ _ _ EO MO SU) as (_ & _ & _ & CT & FB).
  pose proof (client_sized E width height _ EO CP ltac:(lia) ltac:(lia) ltac:(unfold SIZE_MAX; lia)) as HC.
  destruct (by_hand_succeeds E (selected o fs) width height (Some m) (Some (auto_filter o input p)) wd HC SZ AL FB CT NU VA) as (out & wd' & BH).
  destruct (by_hand_reported _ _ _ _ _ _ _ _ _ _ _ HC FB CT BH) as (_ & _ & bw & rw & bh & rh & Q1 & Q2 & _).
  exists rw, rh, RDEOK, wd, out, bw, bh, wd'. auto.
Qed.
