(** Lemmas about Base.v and Spec.v. *)
From Coq Require Import Permutation.
From Verif Require Import Base Spec.
From Coq Require Export ZifyBool.

Ltac inv H := inversion H; subst; clear H.

(** ** bind *)
Lemma bind_ok {A B} (m : res A) (k : A -> res B) b :
  bind m k = Ok b <-> exists a, m = Ok a /\ k a = Ok b.
Proof.
  destruct m as [a|u]; simpl; split.
  - intros H; eauto.
  - intros (a' & H1 & H2). inv H1. exact H2.
  - discriminate.
  - intros (a' & H1 & H2). discriminate.
Qed.

Lemma bind_assoc {A B C} (m : res A) (k : A -> res B) (g : B -> res C) :
  bind (bind m k) g = bind m (fun a => bind (k a) g).
Proof. destruct m; reflexivity. Qed.

Lemma bind_ext {A B} (m : res A) (k k' : A -> res B) :
  (forall a, m = Ok a -> k a = k' a) -> bind m k = bind m k'.
Proof. destruct m; simpl; auto. Qed.

(** ** Buffers *)
Lemma zlen_nonneg {A} (l : list A) : 0 <= zlen l.
Proof. unfold zlen; lia. Qed.

Lemma zlen_nil {A} : zlen (@nil A) = 0. Proof. reflexivity. Qed.
Lemma zlen_cons {A} (a : A) l : zlen (a :: l) = zlen l + 1.
Proof. unfold zlen; simpl List.length; lia. Qed.
Lemma zlen_app {A} (l l' : list A) : zlen (l ++ l') = zlen l + zlen l'.
Proof. unfold zlen; rewrite app_length; lia. Qed.
Lemma zlen_map {A B} (f : A -> B) l : zlen (map f l) = zlen l.
Proof. unfold zlen; rewrite map_length; lia. Qed.
Lemma zlen_repeat {A} (a : A) n : zlen (repeat a n) = Z.of_nat n.
Proof. unfold zlen; rewrite repeat_length; lia. Qed.

Lemma in_range_spec {A} (l : list A) i : in_range l i = true <-> 0 <= i < zlen l.
Proof. unfold in_range; lia. Qed.

Lemma get_at {A} (d : A) (l : list A) i : 0 <= i < zlen l -> get l i = Ok (at_ d l i).
Proof.
  intros H. unfold get. rewrite (proj2 (in_range_spec l i) H).
  unfold at_. rewrite (nth_error_nth' l d).
  - reflexivity.
  - unfold zlen in H; lia.
Qed.

Lemma get_ok_range {A} (l : list A) i a : get l i = Ok a -> 0 <= i < zlen l.
Proof.
  unfold get. destruct (in_range l i) eqn:E; [|discriminate].
  intros _. apply in_range_spec; exact E.
Qed.

Lemma get_out {A} (l : list A) i : ~ (0 <= i < zlen l) -> get l i = Undef OutOfBounds.
Proof.
  intros H. unfold get. destruct (in_range l i) eqn:E; [|reflexivity].
  apply in_range_spec in E. contradiction.
Qed.

Lemma length_upd {A} (l : list A) n a : List.length (upd l n a) = List.length l.
Proof. revert n; induction l as [|h t IH]; intros [|n]; simpl; auto. Qed.
Lemma zlen_upd {A} (l : list A) n a : zlen (upd l n a) = zlen l.
Proof. unfold zlen; rewrite length_upd; reflexivity. Qed.

Lemma nth_upd {A} (d : A) (l : list A) n m a : (n < List.length l)%nat ->
  nth m (upd l n a) d = if Nat.eqb m n then a else nth m l d.
Proof.
  revert n m; induction l as [|h t IH]; intros n m Hn; simpl in Hn; [lia|].
  destruct n as [|n]; destruct m as [|m]; simpl; try reflexivity.
  apply IH; lia.
Qed.

Lemma set_upd {A} (l : list A) i a : 0 <= i < zlen l -> set l i a = Ok (upd l (Z.to_nat i) a).
Proof. intros H. unfold set. rewrite (proj2 (in_range_spec l i) H). reflexivity. Qed.

Lemma set_out {A} (l : list A) i a : ~ (0 <= i < zlen l) -> set l i a = Undef OutOfBounds.
Proof.
  intros H. unfold set. destruct (in_range l i) eqn:E; [|reflexivity].
  apply in_range_spec in E. contradiction.
Qed.

Lemma set_zlen {A} (l : list A) i a l' : set l i a = Ok l' -> zlen l' = zlen l.
Proof.
  unfold set. destruct (in_range l i); [|discriminate]. intros H; inv H. apply zlen_upd.
Qed.

Lemma at_upd {A} (d : A) (l : list A) i j a : 0 <= i < zlen l -> 0 <= j ->
  at_ d (upd l (Z.to_nat i) a) j = if j =? i then a else at_ d l j.
Proof.
  intros Hi Hj. unfold at_. rewrite nth_upd by (unfold zlen in Hi; lia).
  destruct (Nat.eqb_spec (Z.to_nat j) (Z.to_nat i)); destruct (Z.eqb_spec j i); try lia; reflexivity.
Qed.

Lemma at_repeat {A} (d : A) n i : at_ d (repeat d n) i = d.
Proof.
  unfold at_. generalize (Z.to_nat i). induction n as [|n IH]; intros [|m]; simpl; auto.
Qed.

Lemma at_app_l {A} (d : A) l l' i : 0 <= i < zlen l -> at_ d (l ++ l') i = at_ d l i.
Proof. intros H. unfold at_, zlen in *. apply app_nth1. lia. Qed.
Lemma at_app_r {A} (d : A) l l' i : zlen l <= i -> at_ d (l ++ l') i = at_ d l' (i - zlen l).
Proof.
  intros H. unfold at_, zlen in *. rewrite app_nth2 by lia. f_equal. lia.
Qed.

Lemma at_map {A B} (d : A) (d' : B) (f : A -> B) l i : 0 <= i < zlen l ->
  at_ d' (map f l) i = f (at_ d l i).
Proof.
  intros H. unfold at_. rewrite (nth_indep _ d' (f d)).
  - apply map_nth.
  - rewrite map_length. unfold zlen in H. lia.
Qed.

Lemma list_ext_at {A} (d : A) (l l' : list A) :
  zlen l = zlen l' -> (forall i, 0 <= i < zlen l -> at_ d l i = at_ d l' i) -> l = l'.
Proof.
  intros Hl H. apply (nth_ext l l' d d).
  - unfold zlen in Hl; lia.
  - intros n Hn. specialize (H (Z.of_nat n)). unfold at_, zlen in H.
    rewrite Nat2Z.id in H. apply H. lia.
Qed.

(** ** Machine integers *)
Lemma wrap_small z : 0 <= z < 2^64 -> wrap z = z.
Proof. intros H. unfold wrap. apply Z.mod_small. exact H. Qed.
Lemma wrap_range z : 0 <= wrap z < 2^64.
Proof. unfold wrap. apply Z.mod_pos_bound. reflexivity. Qed.

(** ** Loops *)
Lemma for_n_inv {S} (P : Z -> S -> Prop) body : forall n i s,
  P i s ->
  (forall j s, i <= j < i + Z.of_nat n -> P j s -> exists s', body j s = Ok s' /\ P (j + 1) s') ->
  exists s', for_n n i body s = Ok s' /\ P (i + Z.of_nat n) s'.
Proof.
  induction n as [|n IH]; intros i s H0 Hs; cbn [for_n].
  - exists s. split; [reflexivity|]. replace (i + Z.of_nat 0) with i by lia. exact H0.
  - destruct (Hs i s) as (s' & E & H1); [lia|exact H0|].
    rewrite E. cbn [bind]. destruct (IH (i + 1) s' H1) as (s'' & E' & H2).
    + intros j t Hj. apply Hs. lia.
    + exists s''. split; [exact E'|].
      replace (i + Z.of_nat (Datatypes.S n)) with (i + 1 + Z.of_nat n) by lia. exact H2.
Qed.

Lemma for_range_inv {S} (P : Z -> S -> Prop) body lo hi s :
  lo <= hi -> P lo s ->
  (forall j s, lo <= j < hi -> P j s -> exists s', body j s = Ok s' /\ P (j + 1) s') ->
  exists s', for_range lo hi body s = Ok s' /\ P hi s'.
Proof.
  intros Hle H0 Hs. unfold for_range.
  destruct (for_n_inv P body (Z.to_nat (hi - lo)) lo s H0) as (s' & E & H1).
  - intros j t Hj. apply Hs. lia.
  - exists s'. split; [exact E|]. replace hi with (lo + Z.of_nat (Z.to_nat (hi - lo))) by lia. exact H1.
Qed.

Lemma for_n_ext {S} (b1 b2 : Z -> S -> res S) : forall n i s,
  (forall j s, i <= j < i + Z.of_nat n -> b1 j s = b2 j s) ->
  for_n n i b1 s = for_n n i b2 s.
Proof.
  induction n as [|n IH]; intros i s H; simpl; [reflexivity|].
  rewrite H by lia. destruct (b2 i s) as [s'|u]; simpl; [|reflexivity].
  apply IH. intros j t Hj. apply H. lia.
Qed.

Lemma for_range_ext {S} (b1 b2 : Z -> S -> res S) lo hi s :
  (forall j s, lo <= j < hi -> b1 j s = b2 j s) ->
  for_range lo hi b1 s = for_range lo hi b2 s.
Proof. intros H. apply for_n_ext. intros; apply H; lia. Qed.

Lemma for_range_empty {S} lo hi (b : Z -> S -> res S) s : hi <= lo -> for_range lo hi b s = Ok s.
Proof. intros H. unfold for_range. replace (Z.to_nat (hi - lo)) with O by lia. reflexivity. Qed.

Lemma for_range_step {S} lo hi (b : Z -> S -> res S) s : lo < hi ->
  for_range lo hi b s = bind (b lo s) (fun s' => for_range (lo + 1) hi b s').
Proof.
  intros H. unfold for_range. replace (Z.to_nat (hi - lo)) with (Datatypes.S (Z.to_nat (hi - (lo + 1)))) by lia.
  reflexivity.
Qed.

(** a loop whose body never fails is a fold *)
Lemma for_n_fold {S} (g : Z -> S -> S) body : forall n i s,
  (forall j s, i <= j < i + Z.of_nat n -> body j s = Ok (g j s)) ->
  for_n n i body s = Ok (fold_left (fun s j => g j s) (zseq n i) s).
Proof.
  induction n as [|n IH]; intros i s H; simpl; [reflexivity|].
  rewrite H by lia. simpl. apply IH. intros j t Hj. apply H. lia.
Qed.
Lemma for_range_fold {S} (g : Z -> S -> S) body lo hi s :
  (forall j s, lo <= j < hi -> body j s = Ok (g j s)) ->
  for_range lo hi body s = Ok (fold_left (fun s j => g j s) (zrange lo hi) s).
Proof. intros H. apply for_n_fold. intros; apply H; lia. Qed.

(** ** Ranges *)
Lemma in_zseq n lo x : In x (zseq n lo) <-> lo <= x < lo + Z.of_nat n.
Proof.
  revert lo; induction n as [|n IH]; intros lo; simpl; [lia|].
  rewrite IH. lia.
Qed.
Lemma in_zrange lo hi x : In x (zrange lo hi) <-> lo <= x < hi.
Proof. unfold zrange. rewrite in_zseq. lia. Qed.
Lemma length_zseq n lo : List.length (zseq n lo) = n.
Proof. revert lo; induction n; simpl; auto. Qed.
Lemma zlen_zrange lo hi : lo <= hi -> zlen (zrange lo hi) = hi - lo.
Proof. intros. unfold zlen, zrange. rewrite length_zseq. lia. Qed.
Lemma nodup_zseq n lo : NoDup (zseq n lo).
Proof.
  revert lo; induction n as [|n IH]; intros lo; simpl; constructor; auto.
  rewrite in_zseq. lia.
Qed.
Lemma nodup_zrange lo hi : NoDup (zrange lo hi).
Proof. apply nodup_zseq. Qed.
Lemma zrange_empty lo hi : hi <= lo -> zrange lo hi = [].
Proof. intros. unfold zrange. replace (Z.to_nat (hi - lo)) with O by lia. reflexivity. Qed.
Lemma zrange_cons lo hi : lo < hi -> zrange lo hi = lo :: zrange (lo + 1) hi.
Proof.
  intros. unfold zrange. replace (Z.to_nat (hi - lo)) with (S (Z.to_nat (hi - (lo + 1)))) by lia.
  reflexivity.
Qed.
Lemma zseq_app n m lo : zseq (n + m) lo = zseq n lo ++ zseq m (lo + Z.of_nat n).
Proof.
  revert lo; induction n as [|n IH]; intros lo; simpl.
  - f_equal. lia.
  - rewrite IH. do 3 f_equal. lia.
Qed.
Lemma zrange_app lo mid hi : lo <= mid <= hi -> zrange lo hi = zrange lo mid ++ zrange mid hi.
Proof.
  intros. unfold zrange. replace (Z.to_nat (hi - lo)) with (Z.to_nat (mid - lo) + Z.to_nat (hi - mid))%nat by lia.
  rewrite zseq_app. do 2 f_equal. lia.
Qed.
Lemma zrange_snoc lo hi : lo <= hi -> zrange lo (hi + 1) = zrange lo hi ++ [hi].
Proof.
  intros. rewrite (zrange_app lo hi (hi + 1)) by lia. f_equal.
  rewrite zrange_cons by lia. rewrite zrange_empty by lia. reflexivity.
Qed.
Lemma at_zrange d lo hi i : 0 <= i < hi - lo -> at_ d (zrange lo hi) i = lo + i.
Proof.
  intros H. unfold at_, zrange.
  assert (G : forall n lo k, (k < n)%nat -> nth k (zseq n lo) d = lo + Z.of_nat k).
  { induction n as [|n IH]; intros l [|k] Hk; simpl; try lia. rewrite IH by lia. lia. }
  rewrite G by lia. lia.
Qed.

Lemma map_zseq_shift {A} (f : Z -> A) k n lo :
  map f (zseq n (lo + k)) = map (fun i => f (i + k)) (zseq n lo).
Proof.
  revert lo; induction n as [|n IH]; intros lo; simpl; [reflexivity|].
  f_equal. rewrite <- IH. do 2 f_equal. lia.
Qed.
Lemma map_zrange_shift {A} (f : Z -> A) k lo hi :
  map f (zrange (lo + k) (hi + k)) = map (fun i => f (i + k)) (zrange lo hi).
Proof. unfold zrange. replace (hi + k - (lo + k)) with (hi - lo) by lia. apply map_zseq_shift. Qed.

(** ** Counting *)
Lemma how_many_step P lo hi : lo < hi ->
  how_many P lo hi = (if P lo then 1 else 0) + how_many P (lo + 1) hi.
Proof.
  intros H. unfold how_many. rewrite (zrange_cons lo hi H). simpl.
  destruct (P lo); simpl List.length; lia.
Qed.
Lemma how_many_empty P lo hi : hi <= lo -> how_many P lo hi = 0.
Proof. intros H. unfold how_many. rewrite zrange_empty by lia. reflexivity. Qed.
Lemma length_filter_le {A} (P : A -> bool) l : (List.length (filter P l) <= List.length l)%nat.
Proof. induction l as [|h t IH]; simpl; [lia|]. destruct (P h); simpl; lia. Qed.
Lemma how_many_bounds P lo hi : lo <= hi -> 0 <= how_many P lo hi <= hi - lo.
Proof.
  intros H. unfold how_many. pose proof (length_filter_le P (zrange lo hi)) as L.
  pose proof (zlen_zrange lo hi H) as Z. unfold zlen in Z. lia.
Qed.

Lemma filter_list_prod_cons (P : Z -> Z -> bool) y ys is :
  List.length (filter (fun p => P (fst p) (snd p)) (list_prod (y :: ys) is)) =
  (List.length (filter (P y) is) +
   List.length (filter (fun p => P (fst p) (snd p)) (list_prod ys is)))%nat.
Proof.
  simpl. rewrite filter_app, app_length. f_equal.
  induction is as [|i is IH]; simpl; [reflexivity|].
  destruct (P y i); simpl; rewrite IH; reflexivity.
Qed.

Lemma how_many_pairs_bounds P n range : 0 <= n -> 0 <= range ->
  0 <= how_many_pairs P n range <= n * range.
Proof.
  intros Hn Hr. unfold how_many_pairs. split; [lia|].
  pose proof (length_filter_le (fun p => P (fst p) (snd p)) (list_prod (zrange 0 n) (zrange 1 (range + 1)))) as L.
  rewrite prod_length in L. unfold zrange in L. rewrite !length_zseq in L.
  apply Nat2Z.inj_le in L. rewrite Nat2Z.inj_mul in L. rewrite !Z2Nat.id in L by lia.
  unfold zrange. lia.
Qed.

(** ** all_init-like helpers: in Analysis.v; see AnalysisProofs.v *)

(** ** World *)
Lemma remove1_in n l : In n l -> exists l', remove1 n l = Some l' /\ Permutation l (n :: l').
Proof.
  induction l as [|h t IH]; intros H; [inversion H|]. simpl.
  destruct (Nat.eqb_spec h n) as [->|Hne].
  - exists t. split; [reflexivity|apply Permutation_refl].
  - destruct H as [->|H]; [congruence|]. destruct (IH H) as (l' & E & P). rewrite E.
    exists (h :: l'). split; [reflexivity|].
    eapply Permutation_trans; [apply perm_skip; exact P|apply perm_swap].
Qed.

Lemma remove1_head n l : remove1 n (n :: l) = Some l.
Proof. simpl. rewrite Nat.eqb_refl. reflexivity. Qed.
