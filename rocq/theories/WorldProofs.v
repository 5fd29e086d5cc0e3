(** Heap accounting. *)
From Coq Require Import Permutation.
From Verif Require Import Base BaseProofs Util Methods Analysis History.

Lemma owns_refl w : owns w w [].
Proof. split; [apply Permutation_refl|split; reflexivity]. Qed.

Lemma owns_perm w w0 bs bs' : owns w w0 bs -> Permutation bs bs' -> owns w w0 bs'.
Proof.
  intros (P & N & F) Q. split; [|split; assumption].
  eapply Permutation_trans; [exact P|]. apply Permutation_app_tail. exact Q.
Qed.

Lemma owns_trans w w1 w0 bs bs' : owns w w1 bs -> owns w1 w0 bs' -> owns w w0 (bs ++ bs').
Proof.
  intros (P & N & F) (P' & N' & F'). split; [|split; congruence].
  eapply Permutation_trans; [exact P|]. rewrite <- app_assoc. apply Permutation_app_head. exact P'.
Qed.

Lemma owns_alloc al w w0 bs : owns w w0 bs ->
  match alloc al w with
  | (Some b, w') => owns w' w0 (b :: bs) /\ w_count w' = S (w_count w) /\ al (w_count w) = true /\ b = w_count w
  | (None, w') => owns w' w0 bs /\ w_count w' = S (w_count w) /\ al (w_count w) = false
  end.
Proof.
  intros (P & N & F). unfold alloc. destruct (al (w_count w)) eqn:E; simpl.
  - repeat split; simpl; try assumption. apply perm_skip. exact P.
  - repeat split; assumption.
Qed.

Lemma owns_free w w0 b bs : owns w w0 (b :: bs) ->
  exists w', free_block b w = Ok w' /\ owns w' w0 bs /\ w_count w' = w_count w.
Proof.
  intros (P & N & F). destruct (remove1_in b (w_live w)) as (l & E & Q).
  - eapply Permutation_in; [apply Permutation_sym; exact P|]. left; reflexivity.
  - unfold free_block. rewrite E. eexists. split; [reflexivity|]. split; [|reflexivity].
    split; [|split; assumption]. simpl w_live.
    apply (Permutation_cons_inv (a := b)). eapply Permutation_trans; [apply Permutation_sym; exact Q|exact P].
Qed.

Definition opt_list {A} (o : option A) : list A := match o with Some a => [a] | None => [] end.

Lemma owns_free_opt w w0 o bs : owns w w0 (opt_list o ++ bs) ->
  exists w', free_opt o w = Ok w' /\ owns w' w0 bs /\ w_count w' = w_count w.
Proof.
  destruct o as [b|]; simpl; intros H.
  - apply owns_free. exact H.
  - exists w. auto.
Qed.

(** the blocks a plan owns, in the order resdet_free_plan releases them *)
Definition plan_blocks (p : option plan) : list nat :=
  match p with
  | None => []
  | Some (KPlan k) =>
      opt_list (kp_cfg0 k) ++ opt_list (kp_shift0 k) ++
      (if negb (kp_width k =? kp_height k) then opt_list (kp_cfg1 k) ++ opt_list (kp_shift1 k) else []) ++
      opt_list (kp_mirror k) ++ opt_list (kp_F k) ++ [kp_blk k]
  | Some (FPlan b fp) => opt_list fp ++ [b]
  end.

Lemma free_plan_ok p w w0 bs : owns w w0 (plan_blocks p ++ bs) ->
  exists w', resdet_free_plan p w = Ok w' /\ owns w' w0 bs /\ w_count w' = w_count w.
Proof.
  destruct p as [[k|b fp]|]; simpl; intros H.
  - rewrite <- !app_assoc in H.
    destruct (owns_free_opt _ _ _ _ H) as (w1 & E1 & H1 & C1). rewrite E1. cbn [bind].
    destruct (owns_free_opt _ _ _ _ H1) as (w2 & E2 & H2 & C2). rewrite E2. cbn [bind].
    destruct (negb (kp_width k =? kp_height k)).
    + rewrite <- !app_assoc in H2.
      destruct (owns_free_opt _ _ _ _ H2) as (w3 & E3 & H3 & C3). rewrite E3. cbn [bind].
      destruct (owns_free_opt _ _ _ _ H3) as (w4 & E4 & H4 & C4). rewrite E4. cbn [bind].
      destruct (owns_free_opt _ _ _ _ H4) as (w5 & E5 & H5 & C5). rewrite E5. cbn [bind].
      destruct (owns_free_opt _ _ _ _ H5) as (w6 & E6 & H6 & C6). rewrite E6. cbn [bind].
      destruct (owns_free _ _ _ _ H6) as (w7 & E7 & H7 & C7). rewrite E7.
      exists w7. repeat split; try congruence; apply H7.
    + cbn [bind app] in *.
      destruct (owns_free_opt _ _ _ _ H2) as (w5 & E5 & H5 & C5). rewrite E5. cbn [bind].
      destruct (owns_free_opt _ _ _ _ H5) as (w6 & E6 & H6 & C6). rewrite E6. cbn [bind].
      destruct (owns_free _ _ _ _ H6) as (w7 & E7 & H7 & C7). rewrite E7.
      exists w7. repeat split; try congruence; apply H7.
  - rewrite <- app_assoc in H.
    destruct (owns_free_opt _ _ _ _ H) as (w1 & E1 & H1 & C1). rewrite E1. cbn [bind].
    destruct (owns_free _ _ _ _ H1) as (w7 & E7 & H7 & C7). rewrite E7.
    exists w7. repeat split; try congruence; apply H7.
  - exists w. auto.
Qed.

(** the blocks an analysis owns, in the order resdet_destroy_analysis releases them *)
Definition an_blocks (a : analysis) : list nat :=
  opt_list (option_map fst (an_xresult a)) ++ opt_list (option_map fst (an_yresult a)) ++
  plan_blocks (an_p a) ++ opt_list (option_map fst (an_f a)) ++ [an_blk a].

Lemma destroy_ok a w w0 bs : owns w w0 (an_blocks a ++ bs) ->
  exists w', resdet_destroy_analysis (Some a) w = Ok w' /\ owns w' w0 bs /\ w_count w' = w_count w.
Proof.
  unfold an_blocks, resdet_destroy_analysis. rewrite <- !app_assoc. intros H.
  destruct (owns_free_opt _ _ _ _ H) as (w1 & E1 & H1 & C1). rewrite E1. cbn [bind].
  destruct (owns_free_opt _ _ _ _ H1) as (w2 & E2 & H2 & C2). rewrite E2. cbn [bind].
  destruct (free_plan_ok _ _ _ _ H2) as (w3 & E3 & H3 & C3). rewrite E3. cbn [bind].
  destruct (owns_free_opt _ _ _ _ H3) as (w4 & E4 & H4 & C4). rewrite E4. cbn [bind].
  destruct (owns_free _ _ _ _ H4) as (w7 & E7 & H7 & C7). rewrite E7.
  exists w7. repeat split; try congruence; apply H7.
Qed.

(** ** Creating a plan.  The only way to lose a block: KISS backend, width and
    height differ, and the last of the seven requests fails. *)
Definition plan_leak (E : env) (width height : Z) (w : world) : bool :=
  match c_backend (e_cfg E) with
  | FFTW => false
  | KISS => negb (width =? height) &&
            forallb (fun k => e_alloc E (w_count w + k)%nat) [0;1;2;3;4;5]%nat &&
            negb (e_alloc E (w_count w + 6)%nat) 
  end.

Ltac addn := repeat first [rewrite Nat.add_0_r | rewrite Nat.add_succ_r].

(** permutations of concrete lists over a common tail *)
Ltac split_at a r k :=
  lazymatch r with
  | a :: ?t => k (@nil nat) t
  | ?h :: ?t => split_at a t ltac:(fun l1 l2 => k (h :: l1) l2)
  end.
Ltac perm := cbn [app opt_list option_map fst]; repeat first
  [ apply Permutation_refl | apply perm_skip
  | match goal with |- Permutation (?a :: ?l) ?r =>
      split_at a r ltac:(fun l1 l2 => change r with (app l1 (a :: l2));
                          apply Permutation_cons_app; cbn [app]) end ].

(** the largest side the transform backend takes *)
Definition plan_limit (c : config) : Z :=
  match c_backend c with KISS => INT_MAX / 3 | FFTW => INT_MAX end.

Lemma create_plan_ok E width height w w0 bs :
  owns w w0 bs ->
  exists p e w', resdet_create_plan E width height w = Ok (p, e, w') /\
   ((e = RDEOK /\ p <> None /\ owns w' w0 (plan_blocks p ++ bs) /\ width <= plan_limit (e_cfg E) /\ height <= plan_limit (e_cfg E)) \/
    (e = RDETOOBIG /\ p = None /\ owns w' w0 bs /\
       (width > plan_limit (e_cfg E) \/ height > plan_limit (e_cfg E))) \/
    ((e = RDENOMEM \/ (e = RDEINTERNAL /\ c_backend (e_cfg E) = FFTW)) /\ p = None /\
       (exists k, e_alloc E k = false) /\
       exists leak, owns w' w0 (leak ++ bs) /\
         (if plan_leak E width height w then exists b, leak = [b] else leak = []))).
Proof.
  intros H. unfold resdet_create_plan, plan_leak, plan_limit. destruct (c_backend (e_cfg E)).
  - unfold kiss_create_plan.
    destruct ((width >? INT_MAX / 3) || (height >? INT_MAX / 3)) eqn:Big.
    { exists None, RDETOOBIG, w. split; [reflexivity|]. right; left. repeat split; try apply H. lia. }
    assert (WB : width <= INT_MAX / 3 /\ height <= INT_MAX / 3) by lia.
    unfold kiss_tower. set (al := e_alloc E).
    Ltac failcase k HH TT al :=
      destruct (free_plan_ok (Some (KPlan k)) _ _ _ HH) as (w' & E' & H' & C');
      cbn [option_map]; cbv iota beta zeta; cbn [option_map]; rewrite E'; cbn [bind]; do 3 eexists; split; [reflexivity|];
      right; right; split; [left; reflexivity|]; split; [reflexivity|]; split; [eexists; exact TT|]; exists []; split; [exact H'|];
      cbn [forallb]; addn; fold al; rewrite TT; rewrite ?andb_false_l, ?andb_false_r; reflexivity.
    pose proof (owns_alloc al w w0 bs H) as A0. destruct (alloc al w) as [[b0|] w1];
      [destruct A0 as (H0 & C0 & T0 & _)|destruct A0 as (H0 & C0 & T0)].
    2:{ simpl. do 3 eexists. split; [reflexivity|]. right; right. split; [left; reflexivity|].
        split; [reflexivity|]. split; [eexists; exact T0|]. exists []. split; [exact H0|].
        simpl. addn. fold al. rewrite T0. rewrite ?andb_false_l, ?andb_false_r. reflexivity. }
    pose proof (owns_alloc al w1 w0 _ H0) as A1. destruct (alloc al w1) as [[b1|] w2];
      [destruct A1 as (H1 & C1 & T1 & _)|destruct A1 as (H1 & C1 & T1)]; rewrite C0 in T1.
    2:{ failcase (mkKplan b0 0 0 None None None None None None) H1 T1 al. }
    pose proof (owns_alloc al w2 w0 _ H1) as A2. destruct (alloc al w2) as [[b2|] w3];
      [destruct A2 as (H2 & C2 & T2 & _)|destruct A2 as (H2 & C2 & T2)]; rewrite C1, C0 in T2.
    2:{ failcase (mkKplan b0 0 0 (Some b1) None None None None None) H2 T2 al. }
    pose proof (owns_alloc al w3 w0 _ H2) as A3. destruct (alloc al w3) as [[b3|] w4];
      [destruct A3 as (H3 & C3 & T3 & _)|destruct A3 as (H3 & C3 & T3)]; rewrite C2, C1, C0 in T3.
    2:{ assert (H3' : owns w4 w0 (plan_blocks (Some (KPlan (mkKplan b0 0 0 (Some b1) (Some b2) None None None None))) ++ bs))
          by (eapply owns_perm; [exact H3|simpl; perm]).
        failcase (mkKplan b0 0 0 (Some b1) (Some b2) None None None None) H3' T3 al. }
    pose proof (owns_alloc al w4 w0 _ H3) as A4. destruct (alloc al w4) as [[b4|] w5];
      [destruct A4 as (H4 & C4 & T4 & _)|destruct A4 as (H4 & C4 & T4)]; rewrite C3, C2, C1, C0 in T4.
    2:{ assert (H4' : owns w5 w0 (plan_blocks (Some (KPlan (mkKplan b0 0 0 (Some b1) (Some b2) (Some b3) None None None))) ++ bs))
          by (eapply owns_perm; [exact H4|simpl; perm]).
        failcase (mkKplan b0 0 0 (Some b1) (Some b2) (Some b3) None None None) H4' T4 al. }
    destruct (width =? height) eqn:WH.
    { cbv iota beta zeta. cbn. do 3 eexists. split; [reflexivity|]. left. split; [reflexivity|].
      split; [discriminate|]. split; [|exact WB]. simpl. rewrite WH. eapply owns_perm; [exact H4|]. simpl. perm. }
    pose proof (owns_alloc al w5 w0 _ H4) as A5. destruct (alloc al w5) as [[b5|] w6];
      [destruct A5 as (H5 & C5 & T5 & _)|destruct A5 as (H5 & C5 & T5)]; rewrite C4, C3, C2, C1, C0 in T5.
    2:{ assert (H5' : owns w6 w0 (plan_blocks (Some (KPlan (mkKplan b0 0 0 (Some b1) (Some b2) (Some b3) (Some b4) None None))) ++ bs))
          by (eapply owns_perm; [exact H5|simpl; perm]).
        failcase (mkKplan b0 0 0 (Some b1) (Some b2) (Some b3) (Some b4) None None) H5' T5 al. }
    pose proof (owns_alloc al w6 w0 _ H5) as A6. destruct (alloc al w6) as [[b6|] w7];
      [destruct A6 as (H6 & C6 & T6 & _)|destruct A6 as (H6 & C6 & T6)]; rewrite C5, C4, C3, C2, C1, C0 in T6.
    2:{ assert (H6' : owns w7 w0 (plan_blocks (Some (KPlan (mkKplan b0 0 0 (Some b1) (Some b2) (Some b3) (Some b4) (Some b5) None))) ++ b5 :: bs))
          by (eapply owns_perm; [exact H6|simpl; perm]).
        destruct (free_plan_ok _ _ _ _ H6') as (w' & E' & H' & C').
        cbn [option_map]. cbv iota beta zeta. cbn [option_map]. rewrite E'. cbn [bind]. do 3 eexists. split; [reflexivity|].
        right; right. split; [left; reflexivity|]. split; [reflexivity|]. split; [eexists; exact T6|]. exists [b5]. split; [exact H'|].
        cbn [forallb]. addn. fold al. rewrite T0, T1, T2, T3, T4, T5, T6. simpl. exists b5. reflexivity. }
    cbv iota beta zeta. cbn. do 3 eexists. split; [reflexivity|]. left. split; [reflexivity|].
    split; [discriminate|]. split; [|exact WB]. simpl. rewrite WH. eapply owns_perm; [exact H6|]. simpl. perm.
  - unfold fftw_create_plan.
    destruct ((width >? INT_MAX) || (height >? INT_MAX)) eqn:Big.
    { exists None, RDETOOBIG, w. split; [reflexivity|]. right; left. repeat split; try apply H.
      lia. }
    set (al := e_alloc E).
    pose proof (owns_alloc al w w0 bs H) as A0. destruct (alloc al w) as [[b0|] w1];
      [destruct A0 as (H0 & C0 & T0 & _)|destruct A0 as (H0 & C0 & T0)].
    2:{ do 3 eexists. split; [reflexivity|]. right; right. split; [left; reflexivity|].
        split; [reflexivity|]. split; [eexists; exact T0|]. exists []. split; [exact H0|]. reflexivity. }
    pose proof (owns_alloc al w1 w0 _ H0) as A1. destruct (alloc al w1) as [[b1|] w2];
      [destruct A1 as (H1 & C1 & T1 & _)|destruct A1 as (H1 & C1 & T1)].
    + do 3 eexists. split; [reflexivity|]. left. split; [reflexivity|]. split; [discriminate|].
      split; [exact H1|lia].
    + destruct (free_plan_ok (Some (FPlan b0 None)) _ _ _ H1) as (w' & E' & H' & C').
      rewrite E'. cbn [bind]. do 3 eexists. split; [reflexivity|]. right; right.
      split; [right; split; reflexivity|]. split; [reflexivity|]. split; [eexists; exact T1|]. exists []. split; [exact H'|]. reflexivity.
Qed.
