(** @header
    Property C89: several clients of the library at once. *)
From Coq Require Import Permutation Lia Ascii String.
From Verif Require Import Base Flt Util Methods Analysis Resdetect History Spec SpecReport Stdio Pgm Pfm Y4m Image ImageHistory SpecImage Session SpecSession.
From Verif Require Import BaseProofs WorldProofs AnalysisProofs ClientProofs Demo DemoImages SessionProofs.
Open Scope list_scope.
Open Scope Z_scope.

(** C89.  Any number of clients, each with an analysis or an image of its own, in any order
    of their calls and whatever allocations fail: every call is defined and has a documented
    outcome.  A client whose turn came often enough is done, and result lists and buffers
    stay allocated whatever the others do. *)
Lemma clients_safe_claim : forall R E Y ts schedule wd,
  env_ok E -> system_ok Y -> relaxed Y -> Forall (task_ok R E Y) ts ->
  exists ss wd', together R E Y schedule (map Waiting ts) wd = Ok (ss, wd') /\ length ss = length ts /\
    incl (flat_map given ss) (w_live wd') /\
    forall i t, nth_error ts i = Some t -> exists s, nth_error ss i = Some s /\
      ((calls_of t <= count_occ Nat.eq_dec schedule i)%nat -> account_of s <> None) /\
      (account_of s <> None -> finished t s).
Proof.
  intros R E Y ts schedule wd HE SY RX TS.
  destruct (session_ok R E Y ts schedule wd HE (eo_config E HE) SY RX TS) as (ss & wd' & EQ & LEN & IN & L & _).
  exists ss, wd'. split; [exact EQ|]. split; [exact LEN|]. split; [exact IN|].
  intros i t T. destruct (L i t T) as (s & N & A & B & _). exists s. auto.
Qed.

(** As long as memory does not run out and files do not change, every client that is done
    was told exactly what it would have been told with the library to itself. *)
Lemma clients_undisturbed_claim : forall R E Y ts schedule wd ss wd' i t s acc,
  env_ok E -> system_ok Y -> relaxed Y -> Forall (task_ok R E Y) ts -> plenty E -> steady Y ->
  together R E Y schedule (map Waiting ts) wd = Ok (ss, wd') ->
  nth_error ts i = Some t -> nth_error ss i = Some s -> account_of s = Some acc ->
  alone R E Y t = Ok acc.
Proof.
  intros R E Y ts schedule wd ss wd' i t s acc HE SY RX TS PL ST EQ T N AC.
  destruct (session_ok R E Y ts schedule wd HE (eo_config E HE) SY RX TS) as (ss1 & wd1 & EQ1 & _ & _ & L & _).
  rewrite EQ in EQ1. inversion EQ1; subst ss1 wd1. destruct (L i t T) as (s1 & N1 & _ & _ & S1).
  rewrite N in N1. inversion N1; subst s1. exact (S1 PL ST acc AC).
Qed.

(** So the order of the calls of different clients does not show. *)
Lemma order_hidden_claim : forall R E Y ts schedule schedule' wd wd0 ss ss' wd' wd0' i s s' acc acc',
  env_ok E -> system_ok Y -> relaxed Y -> Forall (task_ok R E Y) ts -> plenty E -> steady Y ->
  together R E Y schedule (map Waiting ts) wd = Ok (ss, wd') ->
  together R E Y schedule' (map Waiting ts) wd0 = Ok (ss', wd0') ->
  nth_error ss i = Some s -> nth_error ss' i = Some s' -> account_of s = Some acc -> account_of s' = Some acc' ->
  acc = acc'.
Proof.
  intros R E Y ts schedule schedule' wd wd0 ss ss' wd' wd0' i s s' acc acc' HE SY RX TS PL ST EQ EQ' N N' AC AC'.
  assert (T : exists t, nth_error ts i = Some t).
  { destruct (session_ok R E Y ts schedule wd HE (eo_config E HE) SY RX TS) as (ss1 & wd1 & EQ1 & LEN & _).
    rewrite EQ in EQ1. inversion EQ1; subst ss1 wd1. destruct (nth_error ts i) eqn:T; [eauto|]. apply nth_error_None in T.
    assert (nth_error ss i = None) by (apply nth_error_None; lia). congruence. }
  destruct T as (t & T).
  pose proof (clients_undisturbed_claim R E Y ts schedule wd ss wd' i t s acc HE SY RX TS PL ST EQ T N AC) as P.
  pose proof (clients_undisturbed_claim R E Y ts schedule' wd0 ss' wd0' i t s' acc' HE SY RX TS PL ST EQ' T N' AC') as P'.
  rewrite P in P'. inversion P'. reflexivity.
Qed.

(** When all clients are done, no file is open and what is allocated is what the clients
    were handed; the blocks of finding C08 may be lost if memory ran out. *)
Lemma clients_leave_claim : forall R E Y ts schedule wd ss wd',
  env_ok E -> system_ok Y -> relaxed Y -> Forall (task_ok R E Y) ts ->
  together R E Y schedule (map Waiting ts) wd = Ok (ss, wd') -> Forall (fun s => account_of s <> None) ss ->
  exists lost, holds wd' wd (flat_map given ss ++ lost) [] /\ (plenty E -> lost = []).
Proof.
  intros R E Y ts schedule wd ss wd' HE SY RX TS EQ D.
  destruct (session_ok R E Y ts schedule wd HE (eo_config E HE) SY RX TS) as (ss1 & wd1 & EQ1 & _ & _ & _ & L).
  rewrite EQ in EQ1. inversion EQ1; subst ss1 wd1. exact (L D).
Qed.

(** three clients: two analyses of the same size and one image *)
Definition three_tasks : list task :=
  [ Analysing None 7 5 demo_params [CAnalyze demo_image; CResults (mkWants true true true true) (mkOuts None 0 None 0)];
    Reading (Some "a.pgm"%string) (ByType None) true true [IRead (Some (repeat None 6)); IRead None];
    Analysing None 7 5 demo_params [CAnalyze demo_image; CResults (mkWants true true true true) (mkOuts None 0 None 0)] ].
Lemma open_size_pgm w im width height buf e w' :
  open_by native_readers demo_env demo_pgm_system (Some "a.pgm"%string) (ByType None) true true w = Ok (im, width, height, buf, e, w') ->
  width = 3 /\ height = 2.
Proof.
  intros Q. assert (PL : plenty demo_env) by (intros k; reflexivity). assert (ST : steady demo_pgm_system) by (split; intros; reflexivity).
  assert (NE : Some "a.pgm"%string <> Some "-"%string) by discriminate.
  destruct (open_by native_readers demo_env demo_pgm_system (Some "a.pgm"%string) (ByType None) true true world0) as [r|] eqn:Q0; [|vm_compute in Q0; discriminate Q0].
  pose proof (open_by_both demo_env demo_pgm_system PL ST native_readers (Some "a.pgm"%string) (ByType None) true true w world0 NE _ _ Q Q0) as B.
  vm_compute in Q0. inversion Q0; subst r. cbn in B. inversion B. split; reflexivity.
Qed.
Definition three_schedule : list nat := [0; 1; 2; 0; 9; 2; 1; 1; 0; 2; 1; 0; 2; 0]%nat.
Example clients_safe_example :
  env_ok demo_env /\ system_ok demo_pgm_system /\ relaxed demo_pgm_system /\ plenty demo_env /\ steady demo_pgm_system /\
  Forall (task_ok native_readers demo_env demo_pgm_system) three_tasks /\
  Forall (fun i => match nth_error three_tasks i with Some t => (calls_of t <= count_occ Nat.eq_dec three_schedule i)%nat | None => True end) [0; 1; 2]%nat /\
  match together native_readers demo_env demo_pgm_system three_schedule (map Waiting three_tasks) world0 with
  | Ok (ss, w) => forallb (fun s => present (account_of s)) ss = true /\ length (flat_map given ss) = 5%nat /\ length (w_live w) = 5%nat /\ w_files w = []
  | _ => False
  end.
Proof.
  split; [exact demo_env_ok|]. split; [exact demo_pgm_system_ok|]. split; [reflexivity|]. split; [intros k; reflexivity|].
  split; [split; intros; reflexivity|]. split; [|split].
  - repeat (apply Forall_cons || apply Forall_nil).
    + split; [exact demo_client|]. split; [repeat constructor; vm_compute; congruence|]. vm_compute; congruence.
    + split; [discriminate|]. intros w im width height buf e w' Q.
      destruct (open_size_pgm _ _ _ _ _ _ _ Q) as (-> & ->). repeat constructor; vm_compute; congruence.
    + split; [exact demo_client|]. split; [repeat constructor; vm_compute; congruence|]. vm_compute; congruence.
  - repeat constructor; vm_compute; lia.
  - vm_compute. repeat split.
Qed.
