(** Proofs about the targets that install and remove files. *)
From Coq Require Import Ascii String Lia.
From Verif Require Import Base Flt Util Methods Stdio Pgm Y4m Image Precision Build SpecBuild.
From Verif Require Import BuildProofs BuildResultProofs BuildSettingProofs.
Import ListNotations.
Open Scope list_scope.
Open Scope Z_scope.

Lemma substring_all s : forall t, substring 0 (String.length s) (s ++ t) = s.
Proof. induction s as [|c s IH]; intros t; [destruct t; reflexivity|]. cbn. rewrite IH. reflexivity. Qed.
Lemma append_length s t : String.length (s ++ t) = (String.length s + String.length t)%nat.
Proof. induction s as [|c s IH]; [reflexivity|]. cbn. rewrite IH. reflexivity. Qed.
Lemma index_split x : forall s m, String.index 0 x s = Some m -> exists a b, s = (a ++ x ++ b)%string.
Proof.
  assert (P : forall x s, prefix x s = true -> exists b, s = (x ++ b)%string).
  { clear. induction x as [|c x IH]; intros s H; [exists s; reflexivity|]. destruct s as [|d s]; [discriminate|].
    cbn in H. destruct (ascii_dec c d) as [<-|]; [|discriminate]. destruct (IH s H) as [b ->]. exists b. reflexivity. }
  induction s as [|c s IH]; intros m H.
  - cbn in H. destruct x as [|d x]; [|discriminate]. exists ""%string, ""%string. reflexivity.
  - cbn [index] in H. destruct (prefix x (String c s)) eqn:E.
    + destruct (P _ _ E) as [b ->]. exists ""%string, b. reflexivity.
    + destruct (index 0 x s) as [n|] eqn:J; [|discriminate]. destruct (IH n eq_refl) as (a & b & ->).
      exists (String c a), b. reflexivity.
Qed.
Lemma contains_split x s : contains x s = true -> exists a b, s = (a ++ x ++ b)%string.
Proof. unfold contains. destruct (index 0 x s) as [m|] eqn:E; [|discriminate]. intros _. apply (index_split x s m E). Qed.

Section Install.
Context {M : machine} {env : vars} {args : list string} {old : option mak} {k : mak} (rn : run M env args old k).
Local Notation V := (completed M (rn_args rn) (rn_triple rn)).

Lemma version_suffix : libversion_built (macros env k) = pc_version M.
Proof.
  unfold libversion_built, pc_version. rewrite (def_suffix rn). destruct (h_suffix M) as [s|]; [|reflexivity].
  cbn [option_map]. f_equal. cbn [append String.length]. rewrite append_length. cbn [String.length].
  replace (S (String.length s + 1) - 2)%nat with (String.length s) by lia. apply substring_all.
Qed.
Lemma shared_iff : unset env result_names -> (ifdef env k "SHARED" = true <-> asked args "--enable-shared").
Proof.
  intros un. rewrite (if_shared rn un), (is_shared rn), (asked_mentions args ["--enable-shared"%string] eq_refl).
  split; [intros (o & [<-|[]] & A); exact A|intros A; exists "--enable-shared"%string; split; [left; reflexivity|exact A]].
Qed.
Lemma soext_value : ifdef env k "SHARED" = true -> unset env result_names -> mkvar env k "SOEXT" = soext (rn_triple rn).
Proof.
  intros S un. rewrite (if_shared rn un) in S. rewrite (mkvar_line (k:=k)), (line_soext rn), S. reflexivity.
Qed.
Lemma so_value : unlike_these M ["mingw32"; "windows"; "darwin"]%string -> soext (rn_triple rn) = "so"%string.
Proof.
  intros U. pose proof (rn_machine rn) as H.
  assert (N : forall x, In x ["mingw32"; "windows"; "darwin"]%string -> contains x (rn_triple rn) = false).
  { intros x I. destruct (contains x (rn_triple rn)) eqn:C; [|reflexivity].
    apply contains_split in C. destruct C as (a & b & E). destruct (U _ _ a b x H I E). }
  unfold soext. rewrite !N by (cbn; tauto). reflexivity.
Qed.
Lemma removes : unset env result_names -> ~ asked args "--enable-shared" \/ unlike_these M ["mingw32"; "windows"; "darwin"]%string ->
  forall f, In f (installed_program env k :: installed_lib M env k) -> In f (uninstalled M env k).
Proof.
  intros un H f [<-|I]; [left; reflexivity|]. apply in_or_app. left. unfold installed_lib in I. unfold uninstalled_lib. cbv zeta in *.
  destruct (ifdef env k "SHARED") eqn:S.
  - assert (E : mkvar env k "SOEXT" = "so"%string).
    { rewrite (soext_value S un). apply so_value. destruct H as [H|H]; [|exact H]. destruct H. apply (shared_iff un), S. }
    rewrite E in I. cbn [String.eqb Ascii.eqb Bool.eqb] in I.
    destruct (empty (mkvar env k "PCPREFIX")); cbn [app In] in I |- *; tauto.
  - destruct (empty (mkvar env k "PCPREFIX")); cbn [app In] in I |- *; tauto.
Qed.
Lemma loads f : loaded_as M env k = Some f -> In f (installed_lib M env k).
Proof.
  unfold loaded_as, installed_lib. cbv zeta. destruct (ifdef env k "SHARED"); [|discriminate]. cbn [negb].
  destruct (String.eqb_spec (mkvar env k "SOEXT") "dylib") as [->|_]; [intros [= <-]; cbn; tauto|].
  destruct (String.eqb_spec (mkvar env k "SOEXT") "so") as [->|_]; [intros [= <-]; cbn; tauto|discriminate].
Qed.
Lemma moved_none v x d : v x = ""%string -> or_default v x d = d.
Proof. unfold or_default. intros ->. reflexivity. Qed.
Lemma taken x opt : assigns x opt -> plain opt = true -> initial env x = env x -> env x = ""%string -> ~ asked args opt ->
  rn_args rn x = ""%string.
Proof.
  intros A P I E N. rewrite (take_args_final args (initial env) _ _ (rn_taken rn)), I, E. apply (final_none x opt args A P N).
Qed.
Lemma libprefix_default : env "LIBPREFIX"%string = ""%string -> ~ asked args "--libprefix" ->
  mkvar env k "LIBPREFIX" = pc_libdir env k.
Proof.
  intros E N. unfold pc_libdir. rewrite !(mkvar_line (k:=k)), (line_libprefix rn), (line_prefix rn).
  unfold completed. cbn. apply moved_none, (taken "LIBPREFIX" "--libprefix"); [apply assigns_libprefix|reflexivity|reflexivity|exact E|exact N].
Qed.
Lemma incprefix_default : env "INCPREFIX"%string = ""%string -> ~ asked args "--incprefix" ->
  mkvar env k "INCPREFIX" = pc_includedir env k.
Proof.
  intros E N. unfold pc_includedir. rewrite !(mkvar_line (k:=k)), (line_incprefix rn), (line_prefix rn).
  unfold completed. cbn. apply moved_none, (taken "INCPREFIX" "--incprefix"); [apply assigns_incprefix|reflexivity|reflexivity|exact E|exact N].
Qed.
Lemma libprefix_moved a : setting args env "--libprefix" "LIBPREFIX" a -> a <> ""%string -> mkvar env k "LIBPREFIX" = a.
Proof.
  intros S N. rewrite (mkvar_line (k:=k)), (line_libprefix rn). unfold completed. cbn. unfold or_default.
  rewrite (take_args_final args (initial env) _ _ (rn_taken rn)). change (initial env "LIBPREFIX"%string) with (env "LIBPREFIX"%string).
  rewrite (final_setting args env "LIBPREFIX" "--libprefix" a assigns_libprefix eq_refl S).
  destruct (empty a) eqn:E; [|reflexivity]. apply String.eqb_eq in E. contradiction.
Qed.
End Install.
