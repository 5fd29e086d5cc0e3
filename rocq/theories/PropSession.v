(**     Property C89: several clients of the library at once. *)
From Coq Require Import Permutation Lia Ascii String.
From Verif Require Import Base Flt Util Methods Analysis Resdetect History Spec SpecReport Stdio Pgm Pfm Y4m Image ImageHistory SpecImage Session SpecSession.
From Verif Require Import BaseProofs WorldProofs AnalysisProofs ClientProofs Demo DemoImages SessionProofs.
Open Scope list_scope.
Open Scope Z_scope.
From Verif Require Import SessionClaims.

(** C89.  Any number of clients, each with an analysis or an image of its own, in any order
    of their calls and whatever allocations fail: every call is defined and has a documented
    outcome.  A client whose turn came often enough is done, and result lists and buffers
    stay allocated whatever the others do. *)
Theorem clients_safe : forall R E Y ts schedule wd,
  env_ok E -> system_ok Y -> relaxed Y -> Forall (task_ok R E Y) ts ->
  exists ss wd', together R E Y schedule (map Waiting ts) wd = Ok (ss, wd') /\ length ss = length ts /\
    incl (flat_map given ss) (w_live wd') /\
    forall i t, nth_error ts i = Some t -> exists s, nth_error ss i = Some s /\
      ((calls_of t <= count_occ Nat.eq_dec schedule i)%nat -> account_of s <> None) /\
      (account_of s <> None -> finished t s).
Proof. exact clients_safe_claim. Qed.
Print Assumptions clients_safe.

(** As long as memory does not run out and files do not change, every client that is done
    was told exactly what it would have been told with the library to itself. *)
Theorem clients_undisturbed : forall R E Y ts schedule wd ss wd' i t s acc,
  env_ok E -> system_ok Y -> relaxed Y -> Forall (task_ok R E Y) ts -> plenty E -> steady Y ->
  together R E Y schedule (map Waiting ts) wd = Ok (ss, wd') ->
  nth_error ts i = Some t -> nth_error ss i = Some s -> account_of s = Some acc ->
  alone R E Y t = Ok acc.
Proof. exact clients_undisturbed_claim. Qed.
Print Assumptions clients_undisturbed.

(** So the order of the calls of different clients does not show. *)
Theorem order_hidden : forall R E Y ts schedule schedule' wd wd0 ss ss' wd' wd0' i s s' acc acc',
  env_ok E -> system_ok Y -> relaxed Y -> Forall (task_ok R E Y) ts -> plenty E -> steady Y ->
  together R E Y schedule (map Waiting ts) wd = Ok (ss, wd') ->
  together R E Y schedule' (map Waiting ts) wd0 = Ok (ss', wd0') ->
  nth_error ss i = Some s -> nth_error ss' i = Some s' -> account_of s = Some acc -> account_of s' = Some acc' ->
  acc = acc'.
Proof. exact order_hidden_claim. Qed.
Print Assumptions order_hidden.

(** When all clients are done, no file is open and what is allocated is what the clients
    were handed; the blocks of finding C08 may be lost if memory ran out. *)
Theorem clients_leave : forall R E Y ts schedule wd ss wd',
  env_ok E -> system_ok Y -> relaxed Y -> Forall (task_ok R E Y) ts ->
  together R E Y schedule (map Waiting ts) wd = Ok (ss, wd') -> Forall (fun s => account_of s <> None) ss ->
  exists lost, holds wd' wd (flat_map given ss ++ lost) [] /\ (plenty E -> lost = []).
Proof. exact clients_leave_claim. Qed.
Print Assumptions clients_leave.

Example clients_safe_witness :
  env_ok demo_env /\ system_ok demo_pgm_system /\ relaxed demo_pgm_system /\ plenty demo_env /\ steady demo_pgm_system /\
  Forall (task_ok native_readers demo_env demo_pgm_system) three_tasks /\
  Forall (fun i => match nth_error three_tasks i with Some t => (calls_of t <= count_occ Nat.eq_dec three_schedule i)%nat | None => True end) [0; 1; 2]%nat /\
  match together native_readers demo_env demo_pgm_system three_schedule (map Waiting three_tasks) world0 with
  | Ok (ss, w) => forallb (fun s => present (account_of s)) ss = true /\ length (flat_map given ss) = 5%nat /\ length (w_live w) = 5%nat /\ w_files w = []
  | _ => False
  end.
Proof. exact clients_safe_example. Qed.
