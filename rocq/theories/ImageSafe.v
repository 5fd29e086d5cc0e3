(** The image API is safe on every input and releases what it acquires. *)
From Coq Require Import Permutation.
From Verif Require Import Base BaseProofs Spec Flt Util UtilProofs Methods Analysis WorldProofs
  Stdio StdioProofs Pgm Pfm Y4m Image ImageHistory.
Open Scope list_scope.
Open Scope Z_scope.

(** ** Blocks and files *)
Lemma holds_refl w : holds w w [] [].
Proof. split; apply Permutation_refl. Qed.
Lemma holds_alloc al w w0 bs fs : holds w w0 bs fs ->
  match alloc al w with
  | (Some b, w') => holds w' w0 (b :: bs) fs
  | (None, w') => holds w' w0 bs fs /\ al (w_count w) = false
  end.
Proof.
  intros (P & F). unfold alloc. destruct (al (w_count w)); [|repeat split; assumption].
  split; [apply perm_skip|]; assumption.
Qed.
Lemma holds_free w w0 b bs fs : holds w w0 (b :: bs) fs -> exists w', free_block b w = Ok w' /\ holds w' w0 bs fs.
Proof.
  intros (P & F). destruct (remove1_in b (w_live w)) as (l & E & Q).
  - eapply Permutation_in; [apply Permutation_sym; exact P|]. left; reflexivity.
  - unfold free_block. rewrite E. eexists. split; [reflexivity|]. split; [|exact F]. cbn.
    apply (Permutation_cons_inv (a := b)). eapply Permutation_trans; [apply Permutation_sym; exact Q|exact P].
Qed.
Lemma holds_free_opt w w0 o bs fs : holds w w0 (opt_list o ++ bs) fs -> exists w', free_opt o w = Ok w' /\ holds w' w0 bs fs.
Proof. destruct o as [b|]; cbn; intros H; [apply holds_free; exact H|eauto]. Qed.
Lemma holds_close w w0 f bs fs : holds w w0 bs (f :: fs) -> exists w', close_file f w = Ok w' /\ holds w' w0 bs fs.
Proof.
  intros (P & F). destruct (remove1_in f (w_files w)) as (l & E & Q).
  - eapply Permutation_in; [apply Permutation_sym; exact F|]. left; reflexivity.
  - unfold close_file. rewrite E. eexists. split; [reflexivity|]. split; [exact P|]. cbn.
    apply (Permutation_cons_inv (a := f)). eapply Permutation_trans; [apply Permutation_sym; exact Q|exact F].
Qed.
Lemma holds_close_stream w w0 f bs fs : holds w w0 bs (opt_list f ++ fs) -> exists w', close_stream f w = Ok w' /\ holds w' w0 bs fs.
Proof. destruct f as [b|]; cbn; intros H; [apply holds_close; exact H|eauto]. Qed.
Lemma holds_perm w w0 bs bs' fs : holds w w0 bs fs -> Permutation bs bs' -> holds w w0 bs' fs.
Proof.
  intros (P & F) Q. split; [|exact F]. eapply Permutation_trans; [exact P|]. apply Permutation_app_tail; exact Q.
Qed.

Lemma open_stream_ok Y filename w w0 bs fs : system_ok Y -> holds w w0 bs fs ->
  match open_stream Y filename w with
  | (inr errno, w') => 0 < errno /\ holds w' w0 bs fs
  | (inl (f, s), w') => stream_ok s /\ holds w' w0 bs (opt_list f ++ fs) /\ (f = None <-> filename = "-"%string)
  end.
Proof.
  intros (I & F & N & _) H. unfold open_stream. destruct (String.eqb_spec filename "-"%string) as [->|D].
  - split; [apply I|]. split; [exact H|]. tauto.
  - destruct (y_fopen Y (w_count w) filename) as [s|errno] eqn:Q.
    + cbn. split; [eapply F; exact Q|]. split; [|split; [discriminate|congruence]].
      destruct H as (P & FF). split; [exact P|]. cbn. apply perm_skip. exact FF.
    + split; [eapply N; exact Q|exact H].
Qed.

(** ** Small pieces *)
Lemma after_comments_skipn b l r : after_comments b l = Some r -> exists k, r = skipn k l.
Proof.
  revert b. induction l as [|c l IH]; intros b; cbn; [discriminate|]. destruct b.
  - intros H. apply IH in H. destruct H as [k ->]. exists (S k). reflexivity.
  - destruct (c =? 35); intros H.
    + apply IH in H. destruct H as [k ->]. exists (S k). reflexivity.
    + inversion H; subst. exists 0%nat. reflexivity.
Qed.
Lemma later_skip_comments s b s' : stream_ok s -> skip_comments s = (b, s') -> later s s'.
Proof.
  intros K. unfold skip_comments. destruct (after_comments false (s_rest s)) eqn:E; intros Q; inversion Q; subst.
  - apply after_comments_skipn in E. destruct E as [k ->]. apply later_with_rest; exact K.
  - apply later_at_end; exact K.
Qed.
Lemma later_get_space s b s' : stream_ok s -> get_space s = (b, s') -> later s s'.
Proof.
  intros K. unfold get_space. destruct (fgetc s) as [o s1] eqn:E. pose proof (later_fgetc _ _ _ K E).
  destruct o; intros Q; inversion Q; subst; assumption.
Qed.
Lemma fskip_ok s off buf : stream_ok s -> 0 <= off ->
  (match buf with Some size => off <= size | None => off <= LONG_MAX end) ->
  exists e s', resdet_fskip s off buf = Ok (e, s') /\ later s s'.
Proof.
  intros K O B. unfold resdet_fskip. destruct buf as [size|].
  - destruct (off >? size) eqn:G; [lia|]. destruct (fread off s) as [l s'] eqn:F.
    eexists _, _. split; [reflexivity|]. eapply later_fread; eassumption.
  - destruct (off >? LONG_MAX) eqn:G; [lia|]. destruct (fseek_cur off s) as [[e|] s'] eqn:F;
      (eexists _, _; split; [reflexivity|eapply later_fseek; eassumption]).
Qed.

Lemma set_some_ok (image : list (option f32)) i v : 0 <= i < zlen image ->
  exists image', set image i (Some v) = Ok image' /\ zlen image' = zlen image.
Proof. intros H. rewrite set_upd by exact H. eexists. split; [reflexivity|]. apply zlen_upd. Qed.

(** ** PGM *)
Definition pgm_ok (c : pgm_context) : Prop := stream_ok (pg_s c) /\ 0 <= pg_depth c <= 255.

Lemma pgm_header_ok H s : h_strict H = false -> stream_ok s ->
  exists h s', pgm_header H s = Ok (h, s') /\ later s s' /\
    match h with Some (width, height, depth) => is_size width /\ is_size height /\ 0 <= depth <= 255 | None => True end.
Proof.
  intros R K. unfold pgm_header.
  destruct (fscanf_ok H [Lit 80; Lit 53; Space] s R K) as (n & vs & s1 & E1). rewrite E1. cbn [bind].
  pose proof (fscanf_later _ _ _ _ _ _ K E1) as L1. pose proof (later_ok _ _ L1) as K1.
  destruct (n <? 0). { eexists _, _. split; [reflexivity|]. split; [exact L1|exact I]. }
  destruct (skip_comments s1) as [b s2] eqn:E2. pose proof (later_skip_comments _ _ _ K1 E2) as L2.
  pose proof (later_ok _ _ L2) as K2. assert (L12 := later_trans _ _ _ L1 L2).
  destruct b; cbn [negb]. 2: { eexists _, _. split; [reflexivity|]. split; [exact L12|exact I]. }
  destruct (fscanf_ok H [Zu; Space; Zu; Space; Hu] s2 R K2) as (n3 & vs3 & s3 & E3). rewrite E3. cbn [bind].
  pose proof (fscanf_later _ _ _ _ _ _ K2 E3) as L3. pose proof (later_ok _ _ L3) as K3. assert (L13 := later_trans _ _ _ L12 L3).
  destruct (n3 =? 3) eqn:N3; cbn [negb]. 2: { eexists _, _. split; [reflexivity|]. split; [exact L13|exact I]. }
  assert (V : values_ok [Zu; Space; Zu; Space; Hu] vs3).
  { apply (fscanf_full _ _ _ _ _ _ K2 E3); cbn; lia. }
  apply zu_zu_hu in V. destruct V as (a & b & c & -> & A & B & C).
  destruct (get_space s3) as [g s4] eqn:E4. pose proof (later_get_space _ _ _ K3 E4) as L4. assert (L14 := later_trans _ _ _ L13 L4).
  destruct g; cbn [negb]. 2: { eexists _, _. split; [reflexivity|]. split; [exact L14|exact I]. }
  destruct (c >? 255) eqn:G; (eexists _, _; split; [reflexivity|]; split; [exact L14|]); [exact I|].
  split; [exact A|]. split; [exact B|]. lia.
Qed.

Lemma pgm_close_ok c w w0 bs fs : holds w w0 (pg_blk c :: bs) (opt_list (pg_file c) ++ fs) ->
  exists w', pgm_close c w = Ok w' /\ holds w' w0 bs fs.
Proof.
  intros H. unfold pgm_close. destruct (holds_close_stream _ _ _ _ _ H) as (w1 & -> & H1). cbn [bind].
  apply holds_free. exact H1.
Qed.

Lemma pgm_samples_ok depth : forall n i image s, stream_ok s -> 0 <= i -> i + Z.of_nat n <= zlen image ->
  exists b image' s', pgm_samples n i depth image s = Ok (b, image', s') /\ later s s' /\ zlen image' = zlen image.
Proof.
  induction n as [|n IH]; intros i image s K I B.
  { exists true, image, s. split; [reflexivity|]. split; [apply later_refl; exact K|reflexivity]. }
  cbn [pgm_samples]. destruct (fgetc s) as [[c|] s1] eqn:E; pose proof (later_fgetc _ _ _ K E) as L1.
  2: { exists false, image, s1. auto. }
  destruct (set_some_ok image i (fdiv (f32_of_Z c) (f32_of_Z depth))) as (im1 & -> & Z1); [lia|]. cbn [bind].
  destruct (IH (i + 1) im1 s1 (later_ok _ _ L1)) as (b & im2 & s2 & -> & L2 & Z2); [lia|lia|].
  exists b, im2, s2. split; [reflexivity|]. split; [eapply later_trans; eassumption|lia].
Qed.

(** dimensions an opened image can have *)
Definition sane (width height : Z) : Prop := 1 <= width /\ 1 <= height /\ width * height * 4 <= SIZE_MAX.
Lemma dims_wrap width height : sane width height -> wrap (width * height) = width * height.
Proof. intros (A & B & C). apply wrap_small. unfold SIZE_MAX in C. nia. Qed.

Definition same_size {A} (l l' : list A) := zlen l' = zlen l.

Lemma pgm_read_ok c image width height : pgm_ok c -> sane width height -> width * height <= zlen image ->
  exists b e image' c', pgm_read c image width height = Ok (b, e, image', c') /\
    pgm_ok c' /\ zlen image' = zlen image /\ (b = true -> e = RDEOK) /\
    pg_blk c' = pg_blk c /\ pg_file c' = pg_file c /\ later (pg_s c) (pg_s c').
Proof.
  intros (K & D) W L. unfold pgm_read. destruct (pg_eof c).
  { eexists _, _, _, _. split; [reflexivity|]. repeat split; try assumption; try apply K; try apply D; try congruence; apply later_refl; exact K. }
  rewrite dims_wrap by exact W. assert (0 <= width * height) by (destruct W as (? & ? & ?); nia).
  destruct (pgm_samples_ok (pg_depth c) (Z.to_nat (width * height)) 0 image (pg_s c) K) as (b & im & s & -> & LT & Z1); [lia|lia|].
  cbn [bind]. eexists _, _, _, _. split; [reflexivity|]. split; [split; [exact (later_ok _ _ LT)|exact D]|].
  split; [exact Z1|]. split; [destruct b; cbn; congruence|]. split; [reflexivity|]. split; [reflexivity|exact LT].
Qed.

(** ** PFM *)
Definition pfm_ok (c : pfm_context) : Prop := stream_ok (pf_s c) /\ is_format (pf_format c) = true.

Lemma pfm_rest_ok H s : h_strict H = false -> stream_ok s ->
  exists h s', pfm_rest H s = Ok (h, s') /\ later s s' /\
    match h with Some (width, height, _) => is_size width /\ is_size height | None => True end.
Proof.
  intros R K. unfold pfm_rest.
  destruct (fscanf_ok H [Space] s R K) as (n & vs & s1 & E1). rewrite E1. cbn [bind].
  pose proof (fscanf_later _ _ _ _ _ _ K E1) as L1. pose proof (later_ok _ _ L1) as K1.
  destruct (n =? -1). { eexists _, _. split; [reflexivity|]. split; [exact L1|exact I]. }
  destruct (skip_comments s1) as [b s2] eqn:E2. pose proof (later_skip_comments _ _ _ K1 E2) as L2.
  pose proof (later_ok _ _ L2) as K2. assert (L12 := later_trans _ _ _ L1 L2).
  destruct b; cbn [negb]. 2: { eexists _, _. split; [reflexivity|]. split; [exact L12|exact I]. }
  destruct (fscanf_ok H [Zu; Space; Zu; Space; Fl] s2 R K2) as (n3 & vs3 & s3 & E3). rewrite E3. cbn [bind].
  pose proof (fscanf_later _ _ _ _ _ _ K2 E3) as L3. pose proof (later_ok _ _ L3) as K3. assert (L13 := later_trans _ _ _ L12 L3).
  destruct (n3 =? 3) eqn:N3; cbn [negb]. 2: { eexists _, _. split; [reflexivity|]. split; [exact L13|exact I]. }
  assert (V : values_ok [Zu; Space; Zu; Space; Fl] vs3).
  { apply (fscanf_full _ _ _ _ _ _ K2 E3); cbn; lia. }
  apply zu_zu_fl in V. destruct V as (a & b & c & -> & A & B).
  destruct (get_space s3) as [g s4] eqn:E4. pose proof (later_get_space _ _ _ K3 E4) as L4. assert (L14 := later_trans _ _ _ L13 L4).
  destruct g; cbn [negb]; (eexists _, _; split; [reflexivity|]; split; [exact L14|]); [split; assumption|exact I].
Qed.
Lemma pfm_header_ok H s : h_strict H = false -> stream_ok s ->
  exists h s', pfm_header H s = Ok (h, s') /\ later s s' /\
    match h with Some (format, (width, height, _)) => is_format format = true /\ is_size width /\ is_size height | None => True end.
Proof.
  intros R K. unfold pfm_header.
  destruct (fscanf_ok H [Lit 80; Ch] s R K) as (n & vs & s1 & E1). rewrite E1. cbn [bind].
  pose proof (fscanf_later _ _ _ _ _ _ K E1) as L1. pose proof (later_ok _ _ L1) as K1.
  destruct (n =? 1) eqn:N; cbn [negb]. 2: { eexists _, _. split; [reflexivity|]. split; [exact L1|exact I]. }
  assert (V : values_ok ([Lit 80] ++ [Ch]) vs) by (apply (fscanf_full _ _ _ _ _ _ K E1); cbn; lia).
  apply ch_one in V; [|repeat constructor]. destruct V as (f & -> & B).
  destruct (is_format f) eqn:F; cbn [negb]. 2: { eexists _, _. split; [reflexivity|]. split; [exact L1|exact I]. }
  destruct (pfm_rest_ok H s1 R K1) as (h & s2 & -> & L2 & V). cbn [bind].
  eexists _, _. split; [reflexivity|]. split; [eapply later_trans; eassumption|].
  destruct h as [[[a b] c]|]; cbn; [|exact I]. split; [exact F|exact V].
Qed.
Lemma pfm_close_ok c w w0 bs fs : holds w w0 (pf_blk c :: bs) (opt_list (pf_file c) ++ fs) ->
  exists w', pfm_close c w = Ok w' /\ holds w' w0 bs fs.
Proof.
  intros H. unfold pfm_close. destruct (holds_close_stream _ _ _ _ _ H) as (w1 & -> & H1). cbn [bind].
  apply holds_free. exact H1.
Qed.

Lemma words_len l : (4 * length (words l) <= length l)%nat.
Proof.
  enough (H : forall n l, (length l < n)%nat -> (4 * length (words l) <= length l)%nat) by (apply (H (S (length l))); lia).
  induction n as [|n IH]; intros l0 B; [lia|]. destruct l0 as [|a [|b [|c [|d l0]]]]; cbn [words length]; try lia.
  cbn [length] in B. specialize (IH l0). lia.
Qed.
Lemma fread4_ok n s l s' : stream_ok s -> 0 <= n -> fread4 n s = (l, s') -> later s s' /\ zlen l <= n.
Proof.
  intros K N. unfold fread4. destruct (fread (4 * n) s) as [l0 s0] eqn:E. intros Q; inversion Q; subst.
  split; [eapply later_fread; eassumption|]. apply fread_len in E; [|lia]. pose proof (words_len l0). unfold zlen in *. lia.
Qed.
Lemma store_ok : forall l image i, 0 <= i -> i + zlen l <= zlen image ->
  exists image', store image i l = Ok image' /\ zlen image' = zlen image.
Proof.
  induction l as [|v l IH]; intros image i I B; [exists image; split; reflexivity|].
  rewrite zlen_cons in B. pose proof (zlen_nonneg l). cbn [store].
  destruct (set_some_ok image i v) as (im1 & -> & Z1); [lia|]. cbn [bind].
  destruct (IH im1 (i + 1)) as (im2 & -> & Z2); [lia|lia|]. exists im2. split; [reflexivity|lia].
Qed.

Lemma all_of_inv {A} (P : A -> Prop) body : forall n i (a : A), P a ->
  (forall j a, i <= j < i + Z.of_nat n -> P a -> exists b a', body j a = Ok (b, a') /\ P a') ->
  exists b a', all_of n i body a = Ok (b, a') /\ P a'.
Proof.
  induction n as [|n IH]; intros i a PA H; [exists true, a; auto|].
  cbn [all_of]. destruct (H i a) as (b & a1 & -> & P1); [lia|exact PA|]. cbn [bind].
  destruct b; [|exists false, a1; auto]. apply IH; [exact P1|]. intros j a0 J. apply H. lia.
Qed.

Definition plane_inv (s0 : stream) (n : Z) (a : plane_state) : Prop := later s0 (snd a) /\ zlen (fst a) = n.

Lemma row_index width height j i : sane width height -> 0 <= j < height -> 0 <= i <= width ->
  wrap ((height - j - 1) * width + i) = (height - j - 1) * width + i /\
  0 <= (height - j - 1) * width /\ (height - j - 1) * width + width <= width * height.
Proof.
  intros (A & B & C) J I. unfold SIZE_MAX in C.
  assert (0 <= (height - j - 1) * width) by nia.
  assert ((height - j - 1) * width + width <= width * height) by nia.
  split; [apply wrap_small; lia|]. split; assumption.
Qed.

Lemma read_gray_ok H width height scale image s : sane width height -> stream_ok s -> width * height <= zlen image ->
  exists b a, read_gray H width height scale (image, s) = Ok (b, a) /\ plane_inv s (zlen image) a.
Proof.
  intros D K L. assert (D' := D). destruct D' as (W1 & H1 & _). unfold read_gray.
  assert (P0 : plane_inv s (zlen image) (image, s)) by (split; [apply later_refl; exact K|reflexivity]).
  destruct (host_order H scale).
  - apply all_of_inv; [exact P0|]. intros j [im s1] J (L1 & Z1). cbn [fst snd] in *.
    destruct (fread4 width s1) as [l s2] eqn:F. destruct (fread4_ok width _ _ _ (later_ok _ _ L1) ltac:(lia) F) as (L2 & ZL).
    destruct (row_index width height j 0 D) as (R1 & R2 & R3); [lia|lia|]. rewrite Z.add_0_r in R1. rewrite R1.
    destruct (store_ok (map (float_of_bytes H) l) im ((height - j - 1) * width)) as (im2 & -> & Z2); [lia|rewrite zlen_map; lia|].
    cbn [bind]. eexists _, _. split; [reflexivity|]. split; cbn [fst snd]; [eapply later_trans; eassumption|lia].
  - apply all_of_inv; [exact P0|]. intros j [im s1] J (L1 & Z1). cbn [fst snd] in *.
    apply all_of_inv; [split; assumption|]. intros i [im2 s2] I (L2 & Z2). cbn [fst snd] in *.
    destruct (fread4 1 s2) as [l s3] eqn:F. destruct (fread4_ok 1 _ _ _ (later_ok _ _ L2) ltac:(lia) F) as (L3 & _).
    destruct l as [|b l]. { eexists _, _. split; [reflexivity|]. split; cbn [fst snd]; [eapply later_trans; eassumption|lia]. }
    destruct (row_index width height j i D) as (R1 & R2 & R3); [lia|lia|]. rewrite R1.
    destruct (set_some_ok im2 ((height - j - 1) * width + i) (float_of_bytes H (rev b))) as (im3 & -> & Z3); [lia|].
    cbn [bind]. eexists _, _. split; [reflexivity|]. split; cbn [fst snd]; [eapply later_trans; eassumption|lia].
Qed.
Lemma read_rgb_ok H width height scale image s : sane width height -> stream_ok s -> width * height <= zlen image ->
  exists b a, read_rgb H width height scale (image, s) = Ok (b, a) /\ plane_inv s (zlen image) a.
Proof.
  intros D K L. assert (D' := D). destruct D' as (W1 & H1 & _). unfold read_rgb.
  assert (P0 : plane_inv s (zlen image) (image, s)) by (split; [apply later_refl; exact K|reflexivity]).
  apply all_of_inv; [exact P0|]. intros j [im s1] J (L1 & Z1). cbn [fst snd] in *.
  apply all_of_inv; [split; assumption|]. intros i [im2 s2] I (L2 & Z2). cbn [fst snd] in *.
  destruct (fread4 3 s2) as [l s3] eqn:F. destruct (fread4_ok 3 _ _ _ (later_ok _ _ L2) ltac:(lia) F) as (L3 & _).
  assert (PF : exists b a, Ok (false, (im2, s3)) = Ok (b, a) /\ plane_inv s (zlen image) a).
  { eexists _, _. split; [reflexivity|]. split; cbn [fst snd]; [eapply later_trans; eassumption|lia]. }
  destruct l as [|r [|g [|b [|]]]]; try exact PF.
  destruct (row_index width height j i D) as (R1 & R2 & R3); [lia|lia|]. rewrite R1.
  match goal with |- context [set im2 ?k (Some ?v)] => destruct (set_some_ok im2 k v) as (im3 & -> & Z3) end; [lia|].
  cbn [bind]. eexists _, _. split; [reflexivity|]. split; cbn [fst snd]; [eapply later_trans; eassumption|lia].
Qed.

Definition same_pfm (c c' : pfm_context) : Prop :=
  pfm_ok c' /\ pf_blk c' = pf_blk c /\ pf_file c' = pf_file c /\ later (pf_s c) (pf_s c').
Lemma same_pfm_trans a b c : same_pfm a b -> same_pfm b c -> same_pfm a c.
Proof.
  intros (_ & B & F & L) (O & B' & F' & L'). split; [exact O|]. split; [congruence|]. split; [congruence|].
  eapply later_trans; eassumption.
Qed.
Lemma same_pfm_refl c : pfm_ok c -> same_pfm c c.
Proof. intros H. split; [exact H|]. repeat split; try reflexivity; try apply H. exists 0%nat; reflexivity. Qed.

Lemma pfm_next_header_ok H c width height : h_strict H = false -> pfm_ok c ->
  exists b e c', pfm_next_header H c width height = Ok (b, e, c') /\ same_pfm c c' /\ (b = true -> e = RDEOK) /\
    (b = true -> pf_consumed c = false -> (length (s_rest (pf_s c')) < length (s_rest (pf_s c)))%nat).
Proof.
  intros R (K & F). unfold pfm_next_header. destruct (pf_consumed c) eqn:HC.
  { eexists _, _, _. split; [reflexivity|]. split; [apply same_pfm_refl; split; assumption|]. split; [reflexivity|discriminate]. }
  destruct (fgetc (pf_s c)) as [o s1] eqn:E1. pose proof (later_fgetc _ _ _ K E1) as L1. pose proof (later_ok _ _ L1) as K1.
  assert (FIN : forall e s2, later s1 s2 ->
    exists b e' c', Ok (false, e, mkPfm (pf_blk c) (pf_file c) s2 (pf_scale c) (pf_format c) false) = Ok (b, e', c') /\
      same_pfm c c' /\ (b = true -> e' = RDEOK) /\ (b = true -> false = false -> (length (s_rest (pf_s c')) < length (s_rest (pf_s c)))%nat)).
  { intros e s2 L2. eexists _, _, _. split; [reflexivity|]. split; [|split; discriminate].
    split; [split; [exact (later_ok _ _ L2)|exact F]|]. split; [reflexivity|]. split; [reflexivity|].
    eapply later_trans; eassumption. }
  destruct o as [p|]; [|apply FIN; apply later_refl; exact K1].
  destruct (p =? 80); cbn [negb]; [|apply FIN; apply later_refl; exact K1].
  destruct (fscanf_ok H [Ch] s1 R K1) as (n & vs & s2 & E2). rewrite E2. cbn [bind].
  pose proof (fscanf_later _ _ _ _ _ _ K1 E2) as L2. pose proof (later_ok _ _ L2) as K2.
  destruct (n =? 1) eqn:N; cbn [negb]; [|apply FIN; exact L2].
  assert (V : values_ok ([] ++ [Ch]) vs) by (apply (fscanf_full _ _ _ _ _ _ K1 E2); cbn; lia).
  apply ch_one in V; [|constructor]. destruct V as (f & -> & B).
  destruct (is_format f) eqn:FF; cbn [negb]; [|apply FIN; exact L2].
  destruct (pfm_rest_ok H s2 R K2) as (h & s3 & -> & L3 & V). cbn [bind]. assert (L23 := later_trans _ _ _ L2 L3).
  destruct h as [[[nw nh] sc]|]; [|apply FIN; exact L23].
  destruct (negb (nw =? width) || negb (nh =? height)); [apply FIN; exact L23|].
  eexists _, _, _. split; [reflexivity|]. split; [|split; [reflexivity|]].
  - split; [split; [exact (later_ok _ _ L23)|exact FF]|]. split; [reflexivity|]. split; [reflexivity|]. eapply later_trans; eassumption.
  - intros _ _. cbn. apply later_len in L23. unfold fgetc in E1. destruct (s_rest (pf_s c)) as [|q r]; inversion E1; subst.
    cbn in *. lia.
Qed.

Lemma pfm_read_ok H c image width height : h_strict H = false -> pfm_ok c -> sane width height -> width * height <= zlen image ->
  exists b e image' c', pfm_read H c image width height = Ok (b, e, image', c') /\
    same_pfm c c' /\ zlen image' = zlen image /\ (b = true -> e = RDEOK) /\
    (b = true -> pf_consumed c' = false /\ (pf_consumed c = false -> (length (s_rest (pf_s c')) < length (s_rest (pf_s c)))%nat)).
Proof.
  intros R K D L. unfold pfm_read. destruct (pfm_next_header_ok H c width height R K) as (b & e & c1 & -> & S1 & E1 & T1).
  cbn [bind]. destruct b; cbn [negb].
  2: { eexists _, _, _, _. split; [reflexivity|]. split; [exact S1|]. split; [reflexivity|]. split; discriminate. }
  assert (P : exists b a, read_plane H width height (pf_scale c1) (pf_format c1) (image, pf_s c1) = Ok (b, a) /\ plane_inv (pf_s c1) (zlen image) a).
  { unfold read_plane. destruct (pf_format c1 =? 102); [apply read_gray_ok|apply read_rgb_ok]; try assumption; apply S1. }
  destruct P as (b & [im s] & -> & LP & ZP). cbn [bind fst snd] in *.
  assert (S2 : forall q, same_pfm c (mkPfm (pf_blk c1) (pf_file c1) s (pf_scale c1) (pf_format c1) q)).
  { intros q. destruct S1 as ((_ & F1) & B1 & FF & L1). split; [split; [exact (later_ok _ _ LP)|exact F1]|].
    split; [exact B1|]. split; [exact FF|]. eapply later_trans; eassumption. }
  destruct b; (eexists _, _, _, _; split; [reflexivity|]; split; [apply S2|]; split; [exact ZP|]); [|split; discriminate].
  split; [reflexivity|]. intros _. split; [reflexivity|]. intros HC. specialize (T1 eq_refl HC). apply later_len in LP. cbn. lia.
Qed.

Lemma pfm_skip_ok H width height size buf : h_strict H = false -> 0 <= size ->
  (match buf with Some n => size <= n | None => size <= LONG_MAX end) ->
  forall n i calls c, pfm_ok c ->
  exists b e calls' c', pfm_skip n i H width height size buf calls c = Ok (b, e, calls', c') /\ same_pfm c c' /\ (b = true -> e = RDEOK).
Proof.
  intros R SZ B. induction n as [|n IH]; intros i calls c K.
  { eexists _, _, _, _. split; [reflexivity|]. split; [apply same_pfm_refl; exact K|reflexivity]. }
  cbn [pfm_skip]. destruct (pfm_next_header_ok H c width height R K) as (b & e & c1 & -> & S1 & E1 & _). cbn [bind].
  destruct b; cbn [negb]. 2: { eexists _, _, _, _. split; [reflexivity|]. split; [exact S1|discriminate]. }
  destruct (fskip_ok (pf_s c1) size buf) as (e2 & s2 & -> & L2); [apply S1|exact SZ|exact B|]. cbn [bind].
  assert (S2 : forall q, same_pfm c (mkPfm (pf_blk c1) (pf_file c1) s2 (pf_scale c1) (pf_format c1) q)).
  { intros q. destruct S1 as ((_ & F1) & B1 & FF & L1). split; [split; [exact (later_ok _ _ L2)|exact F1]|].
    split; [exact B1|]. split; [exact FF|]. eapply later_trans; eassumption. }
  destruct (e2 =? 0); cbn [negb]. 2: { eexists _, _, _, _. split; [reflexivity|]. split; [apply S2|discriminate]. }
  destruct (IH (i + 1) (calls ++ [i + 1]) (mkPfm (pf_blk c1) (pf_file c1) s2 (pf_scale c1) (pf_format c1) false)) as (b3 & e3 & cs & c2 & -> & S3 & E3).
  { apply (S2 false). }
  eexists _, _, _, _. split; [reflexivity|]. split; [eapply same_pfm_trans; [apply S2|exact S3]|exact E3].
Qed.

Lemma pfm_seek_ok E Y c offset width height w w0 bs fs : relaxed Y -> pfm_ok c -> holds w w0 bs fs ->
  exists b e calls c' w', pfm_seek E Y c offset width height w = Ok (b, e, calls, c', w') /\ same_pfm c c' /\ (b = true -> e = RDEOK) /\
    holds w' w0 bs fs.
Proof.
  intros R K HW. unfold pfm_seek. cbv zeta.
  set (size := wrap (_ * 4)). assert (SZ : 0 <= size) by apply wrap_range. clearbody size.
  set (put := fun s => mkPfm (pf_blk c) (pf_file c) s (pf_scale c) (pf_format c) (pf_consumed c)).
  assert (Q : exists seekable c1, (if size <=? LONG_MAX
       then match fseek_cur 0 (pf_s c) with
            | (Some _, s) => (false, put s)
            | (None, s) => (true, put s)
            end
       else (false, c)) = (seekable, c1) /\ same_pfm c c1 /\ (seekable = true -> size <= LONG_MAX)).
  { destruct (size <=? LONG_MAX) eqn:G.
    - destruct (fseek_cur 0 (pf_s c)) as [[e|] s] eqn:F;
        (eexists _, _; split; [reflexivity|]; split; [|intros; try discriminate; lia];
         pose proof (later_fseek 0 _ _ _ (proj1 K) ltac:(lia) F) as LS;
         split; [split; [exact (later_ok _ _ LS)|apply K]|]; split; [reflexivity|]; split; [reflexivity|exact LS]).
    - eexists _, _. split; [reflexivity|]. split; [apply same_pfm_refl; exact K|discriminate]. }
  destruct Q as (seekable & c1 & Q & S1 & SK). unfold put in Q. rewrite Q. clear Q put.
  destruct seekable.
  - cbn [negb andb option_map]. specialize (SK eq_refl).
    destruct (pfm_skip_ok (y_host Y) width height size None R SZ SK (Z.to_nat offset) 0 [] c1 (proj1 S1)) as (b & e & calls & c2 & -> & S2 & E2).
    cbn [bind free_opt]. eexists _, _, _, _, _. split; [reflexivity|].
    assert (S12 := same_pfm_trans _ _ _ S1 S2). split; [|split; assumption]. exact S12.
  - pose proof (holds_alloc (e_alloc E) w w0 bs fs HW) as HA. destruct (alloc (e_alloc E) w) as [[b|] w1].
    2: { cbn [negb andb]. eexists _, _, _, _, _. split; [reflexivity|]. split; [exact S1|]. split; [discriminate|apply HA]. }
    cbn [negb andb option_map].
    destruct (pfm_skip_ok (y_host Y) width height size (Some size) R SZ ltac:(cbn; lia) (Z.to_nat offset) 0 [] c1 (proj1 S1)) as (b' & e & calls & c2 & -> & S2 & E2).
    cbn [bind free_opt]. destruct (holds_free _ _ _ _ _ HA) as (w2 & -> & H2). cbn [bind].
    eexists _, _, _, _, _. split; [reflexivity|].
    assert (S12 := same_pfm_trans _ _ _ S1 S2). split; [|split; assumption]. exact S12.
Qed.

(** ** Y4M *)
Definition bytes_per (depth : Z) : Z := (depth + 7) / 8.
Definition y4m_ok (width height : Z) (c : y4m_context) : Prop :=
  stream_ok (ym_s c) /\ 8 <= ym_depth c <= 16 /\ ym_y c = width * height * bytes_per (ym_depth c) /\
  0 <= ym_uv c /\ (ym_seekable c = true -> ym_y c <= LONG_MAX /\ ym_uv c <= LONG_MAX) /\
  exists b size, ym_buf c = Some (b, size) /\ ym_y c <= size /\ (ym_seekable c = false -> ym_uv c <= size).

(** a char array with a terminator *)
Definition terminated (a : list Z) : Prop := In 0 a.

Lemma store_word_ok buf w : zlen buf = 10 -> (length w <= 9)%nat -> exists b, store_word buf w = Ok b /\ zlen b = 10 /\ terminated b.
Proof.
  intros Z10 L. unfold store_word. destruct (zlen buf <=? zlen w) eqn:G; [unfold zlen in *; lia|].
  eexists. split; [reflexivity|]. split.
  - unfold zlen in *. rewrite app_length. cbn [length]. rewrite skipn_length. lia.
  - unfold terminated. apply in_or_app. right. left. reflexivity.
Qed.

Lemma strncmp_ok : forall n a b, (n <= length a)%nat -> exists r, strncmp_eq n a b = Ok r.
Proof.
  induction n as [|n IH]; intros a b L; [cbn; eauto|]. destruct a as [|c a]; cbn [length] in L; [lia|]. cbn [strncmp_eq].
  destruct b as [|d b]; [eauto|]. destruct (c =? d); [apply IH; lia|eauto].
Qed.
Lemma number_at_ok : forall a v, terminated a -> exists r, number_at a v = Ok r.
Proof.
  induction a as [|c a IH]; intros v T; [destruct T|]. cbn [number_at].
  destruct (is_digit c) eqn:D; [|eauto]. apply IH. destruct T as [->|T]; [discriminate D|exact T].
Qed.
Lemma strncmp_true : forall n a b, strncmp_eq n a b = Ok true -> Forall (fun c => c <> 0) (firstn n b) -> (n <= length b)%nat ->
  firstn n a = firstn n b.
Proof.
  induction n as [|n IH]; intros a b E F L; [reflexivity|]. destruct b as [|d b]; [cbn in L; lia|].
  cbn [strncmp_eq] in E. destruct a as [|c a]; [discriminate|]. destruct (Z.eqb_spec c d) as [->|]; [|discriminate].
  cbn [firstn] in *. inversion F; subst. f_equal. apply IH; try assumption. cbn in L. lia.
Qed.

Lemma half_le z : 1 <= z -> 0 <= (z + 1) / 2 <= z.
Proof. intros H. split; [apply Z.div_pos; lia|]. apply Z.div_le_upper_bound; lia. Qed.
Lemma colour_space_ok H csp width height : h_strict H = false -> zlen csp = 10 -> terminated csp -> sane width height ->
  exists r, colour_space H csp width height = Ok r /\ match r with Some (uv, depth) => 0 <= uv <= 3 * (width * height) | None => True end.
Proof.
  intros R Z10 T D.
  assert (WH : 0 <= width * height /\ width <= width * height /\ height <= width * height) by (destruct D as (? & ? & ?); nia).
  assert (B420 : 0 <= wrap (wrap (wrap (width + 1) / 2 * (wrap (height + 1) / 2)) * 2) <= 3 * (width * height)).
  { destruct D as (D1 & D2 & D3). unfold SIZE_MAX in D3. rewrite !(wrap_small (_ + 1)) by lia.
    pose proof (half_le _ D1). pose proof (half_le _ D2).
    assert (0 <= (width + 1) / 2 * ((height + 1) / 2) <= width * height) by nia.
    rewrite (wrap_small ((width + 1) / 2 * _)) by lia. rewrite wrap_small by lia. lia. }
  assert (B422 : 0 <= wrap (wrap (wrap (width + 1) / 2 * height) * 2) <= 3 * (width * height)).
  { destruct D as (D1 & D2 & D3). unfold SIZE_MAX in D3. rewrite !(wrap_small (_ + 1)) by lia.
    pose proof (half_le _ D1). assert (0 <= (width + 1) / 2 * height <= width * height) by nia.
    rewrite (wrap_small ((width + 1) / 2 * _)) by lia. rewrite wrap_small by lia. lia. }
  assert (B444 : 0 <= wrap (wrap (width * height) * 2) <= 3 * (width * height)).
  { rewrite (dims_wrap _ _ D). destruct D as (D1 & D2 & D3). unfold SIZE_MAX in D3. rewrite wrap_small by lia. lia. }
  assert (BA : 0 <= wrap (wrap (width * height) * 3) <= 3 * (width * height)).
  { rewrite (dims_wrap _ _ D). destruct D as (D1 & D2 & D3). unfold SIZE_MAX in D3. rewrite wrap_small by lia. lia. }
  unfold colour_space. cbv zeta.
  assert (L : length csp = 10%nat) by (unfold zlen in Z10; lia).
  assert (G : forall i, 0 <= i < 10 -> exists c, get csp i = Ok c).
  { intros i I. rewrite (get_at 0) by lia. eauto. }
  assert (DIG : forall c, isdigit H c = Ok (is_digit c)).
  { intros c. unfold isdigit, ctype_arg. rewrite R. reflexivity. }
  assert (DF : firstn 4 csp <> [] -> Forall (fun c => c <> 0) (firstn 4 csp) ->
     exists d, (c <- get csp 4 ;; d <- isdigit H c ;; (if d : bool then number_at (skipn (Z.to_nat 4) csp) 0 else Ok 8)) = Ok d).
  { intros _ F. destruct (G 4) as [c Hc]; [lia|]. rewrite Hc. cbn [bind]. rewrite DIG. cbn [bind].
    destruct (is_digit c); [|eauto]. apply number_at_ok. unfold terminated in *. rewrite <- (firstn_skipn 4 csp) in T.
    apply in_app_or in T. destruct T as [T|T]; [|exact T]. rewrite Forall_forall in F. elim (F 0 T). reflexivity. }
  destruct (strncmp_ok 4 csp (chars "mono")) as [mono EM]; [lia|]. rewrite EM. cbn [bind].
  destruct mono.
  { apply strncmp_true in EM; [|repeat constructor; discriminate|cbn; lia].
    destruct DF as [d HD]. { rewrite EM. discriminate. } { rewrite EM. repeat constructor; discriminate. }
    rewrite HD. cbn [bind]. eexists. split; [reflexivity|]. cbv beta iota. lia. }
  destruct (strncmp_ok 3 csp (chars "420")) as [c420 E420]; [lia|]. rewrite E420. cbn [bind].
  destruct (strncmp_ok 3 csp (chars "411")) as [c411' E411]; [lia|].
  assert (E411' : exists c411, (if c420 then Ok false else strncmp_eq 3 csp (chars "411")) = Ok c411 /\ (c411 = true -> c411' = true)).
  { destruct c420; [exists false; split; [reflexivity|discriminate]|]. exists c411'. auto. }
  destruct E411' as (c411 & Q & I411). rewrite Q. cbn [bind].
  destruct (strncmp_ok 3 csp (chars "422")) as [c422 E422]; [lia|]. rewrite E422. cbn [bind].
  destruct (strncmp_ok 3 csp (chars "444")) as [c444 E444]; [lia|]. rewrite E444. cbn [bind].
  destruct (strncmp_ok 10 csp (chars "444alpha")) as [alpha EA]; [lia|]. rewrite EA. cbn [bind].
  match goal with |- context [match ?u with Some _ => _ | None => Ok None end] => set (uv := u) end.
  assert (U : match uv with Some u => 0 <= u <= 3 * (width * height) /\ firstn 3 csp <> [] /\ Forall (fun c => c <> 0) (firstn 3 csp) | None => True end).
  { assert (T3 : forall s, strncmp_eq 3 csp s = Ok true -> (3 <= length s)%nat -> Forall (fun c => c <> 0) s -> firstn 3 csp <> [] /\ Forall (fun c => c <> 0) (firstn 3 csp)).
    { intros s ES L3 F. apply strncmp_true in ES; [|apply Forall_firstn; exact F|exact L3]. rewrite ES.
      split; [destruct s; cbn in *; [lia|discriminate]|apply Forall_firstn; exact F]. }
    unfold uv. destruct (c420 || c411) eqn:O.
    - split; [exact B420|]. destruct c420.
      + apply (T3 _ E420); [cbn; lia|repeat constructor; discriminate].
      + cbn in O. specialize (I411 O). subst c411'. apply (T3 _ E411); [cbn; lia|repeat constructor; discriminate].
    - destruct c422. { split; [exact B422|]. apply (T3 _ E422); [cbn; lia|repeat constructor; discriminate]. }
      destruct c444. { split; [exact B444|]. apply (T3 _ E444); [cbn; lia|repeat constructor; discriminate]. }
      destruct alpha; [|exact I]. split; [exact BA|].
      assert (ES : strncmp_eq 3 csp (chars "444") = Ok true).
      { revert EA. clear. destruct csp as [|a [|b [|c l]]]; cbn; repeat (destruct (_ =? _); [|discriminate]); try discriminate; reflexivity. }
      apply (T3 _ ES); [cbn; lia|repeat constructor; discriminate]. }
  destruct uv as [u|]; [|eexists; split; [reflexivity|exact I]]. destruct U as (U0 & _ & U3).
  destruct (G 3) as [c3 G3]; [lia|]. rewrite G3. cbn [bind].
  destruct (c3 =? 112) eqn:P.
  - destruct DF as [d HD].
    { destruct csp; [discriminate L|discriminate]. }
    { assert (F4 : firstn 4 csp = firstn 3 csp ++ [c3]).
      { rewrite (get_at 0) in G3 by lia. inversion G3. unfold at_. cbn.
        destruct csp as [|a [|b [|c [|d l]]]]; try discriminate L. reflexivity. }
      rewrite F4. apply Forall_app. split; [exact U3|]. constructor; [lia|constructor]. }
    rewrite HD. cbn [bind]. eexists. split; [reflexivity|exact U0].
  - cbn [bind]. eexists. split; [reflexivity|exact U0].
Qed.

Lemma y4m_params_ok H : h_strict H = false -> forall fuel width height csp s, stream_ok s -> (length (s_rest s) < fuel)%nat ->
  is_size width -> is_size height -> zlen csp = 10 -> terminated csp ->
  exists h s', y4m_params fuel H width height csp s = Ok (h, s') /\ later s s' /\
    match h with Some (width, height, csp) => is_size width /\ is_size height /\ zlen csp = 10 /\ terminated csp | None => True end.
Proof.
  intros R. induction fuel as [|fuel IH]; intros width height csp s K F W HH Z10 T; [lia|].
  cbn [y4m_params]. destruct (fgetc s) as [o s1] eqn:E1. pose proof (later_fgetc _ _ _ K E1) as L1. pose proof (later_ok _ _ L1) as K1.
  destruct o as [c|]. 2: { eexists _, _. split; [reflexivity|]. split; [exact L1|exact I]. }
  assert (F1 : (length (s_rest s1) < fuel)%nat).
  { unfold fgetc in E1. destruct (s_rest s); inversion E1; subst. cbn in *. lia. }
  assert (ST : forall w h p s2, is_size w -> is_size h -> zlen p = 10 -> terminated p -> later s1 s2 ->
    exists h0 s', y4m_params fuel H w h p s2 = Ok (h0, s') /\ later s s' /\
    match h0 with Some (width, height, csp) => is_size width /\ is_size height /\ zlen csp = 10 /\ terminated csp | None => True end).
  { intros w h p s2 SW SH SP ST L2. pose proof (later_len _ _ L2).
    destruct (IH w h p s2 (later_ok _ _ L2)) as (h0 & s3 & E3 & L3 & V); try assumption; [lia|].
    exists h0, s3. split; [exact E3|]. split; [|exact V]. eapply later_trans; [exact L1|]. eapply later_trans; eassumption. }
  assert (BAD : forall s2, later s1 s2 -> exists h0 s', Ok (@None (Z * Z * list Z), s2) = Ok (h0, s') /\ later s s' /\
    match h0 with Some (width, height, csp) => is_size width /\ is_size height /\ zlen csp = 10 /\ terminated csp | None => True end).
  { intros s2 L2. eexists _, _. split; [reflexivity|]. split; [eapply later_trans; eassumption|exact I]. }
  destruct (c =? 10). { eexists _, _. split; [reflexivity|]. split; [exact L1|auto]. }
  destruct (c =? 87).
  { destruct (fscanf_ok H [Zu] s1 R K1) as (n & vs & s2 & E2). rewrite E2. cbn [bind].
    pose proof (fscanf_later _ _ _ _ _ _ K1 E2) as L2.
    destruct (n =? 1) eqn:N; [|destruct vs as [|[] [|]]; apply BAD; exact L2].
    assert (V : values_ok [Zu] vs) by (apply (fscanf_full _ _ _ _ _ _ K1 E2); cbn; lia).
    apply zu_one in V. destruct V as (v & -> & SV). apply ST; assumption. }
  destruct (c =? 72).
  { destruct (fscanf_ok H [Zu] s1 R K1) as (n & vs & s2 & E2). rewrite E2. cbn [bind].
    pose proof (fscanf_later _ _ _ _ _ _ K1 E2) as L2.
    destruct (n =? 1) eqn:N; [|destruct vs as [|[] [|]]; apply BAD; exact L2].
    assert (V : values_ok [Zu] vs) by (apply (fscanf_full _ _ _ _ _ _ K1 E2); cbn; lia).
    apply zu_one in V. destruct V as (v & -> & SV). apply ST; assumption. }
  destruct (c =? 67).
  { destruct (fscanf_ok H [Word 9] s1 R K1) as (n & vs & s2 & E2). rewrite E2. cbn [bind].
    pose proof (fscanf_later _ _ _ _ _ _ K1 E2) as L2.
    destruct (n =? 1) eqn:N; [|destruct vs as [|[] [|]]; apply BAD; exact L2].
    assert (V : values_ok [Word 9] vs) by (apply (fscanf_full _ _ _ _ _ _ K1 E2); cbn; lia).
    apply word_one in V. destruct V as (v & -> & SV).
    destruct (store_word_ok csp v Z10 SV) as (csp' & -> & Z' & T'). cbn [bind]. apply ST; assumption. }
  destruct (c =? 32); [apply ST; try assumption; apply later_refl; exact K1|].
  destruct (fscanf_ok H [SkipWord] s1 R K1) as (n & vs & s2 & E2). rewrite E2. cbn [bind].
  pose proof (fscanf_later _ _ _ _ _ _ K1 E2) as L2.
  destruct (n <? 0); [apply BAD; exact L2|]. apply ST; assumption.
Qed.

Definition y4m_blocks (c : y4m_context) : list nat := opt_list (option_map fst (ym_buf c)) ++ [ym_blk c].
Lemma y4m_close_ok c w w0 bs fs : holds w w0 (y4m_blocks c ++ bs) (opt_list (ym_file c) ++ fs) ->
  exists w', y4m_close c w = Ok w' /\ holds w' w0 bs fs.
Proof.
  unfold y4m_blocks. rewrite <- app_assoc. intros H. unfold y4m_close.
  destruct (holds_free_opt _ _ _ _ _ H) as (w1 & -> & H1). cbn [bind].
  destruct (holds_close_stream _ _ _ _ _ H1) as (w2 & -> & H2). cbn [bind].
  apply holds_free. exact H2.
Qed.

Lemma fread_rest n s l s1 : fread n s = (l, s1) -> 0 <= n -> zlen (s_rest s1) = zlen (s_rest s) - zlen l.
Proof.
  unfold fread. destruct (zlen (s_rest s) <? n) eqn:G; intros Q N; inversion Q; subst; cbn [s_rest at_end with_rest].
  - change (zlen (@nil Z)) with 0. lia.
  - unfold zlen in *. rewrite skipn_length, firstn_length. lia.
Qed.
Lemma y4m_frame_header_ok s b e s' : stream_ok s -> y4m_frame_header s = (b, e, s') ->
  later s s' /\ (b = true -> e = RDEOK /\ (length (s_rest s') < length (s_rest s))%nat).
Proof.
  intros K. unfold y4m_frame_header. destruct (fread 5 s) as [l s1] eqn:E1. pose proof (later_fread _ _ _ _ K E1) as L1.
  destruct (zlen l <? 5) eqn:G. { intros Q; inversion Q; subst. split; [exact L1|discriminate]. }
  destruct (list_eq_dec Z.eq_dec l (chars "FRAME")); cbn [negb].
  2: { intros Q; inversion Q; subst. split; [exact L1|discriminate]. }
  destruct (after_line (s_rest s1)) as [r|] eqn:A; intros Q; inversion Q; subst.
  2: { split; [|discriminate]. eapply later_trans; [exact L1|]. apply later_at_end. exact (later_ok _ _ L1). }
  assert (AS : exists k, r = skipn k (s_rest s1)).
  { clear -A. revert A. generalize (s_rest s1). induction l as [|c l IH]; cbn; [discriminate|]. destruct (c =? 10); intros Q.
    - inversion Q; subst. exists 1%nat. reflexivity.
    - apply IH in Q. destruct Q as [k ->]. exists (S k). reflexivity. }
  destruct AS as [k ->]. pose proof (later_with_rest s1 k (later_ok _ _ L1)) as L2.
  split; [eapply later_trans; eassumption|]. intros _. split; [reflexivity|]. apply later_len in L2.
  assert (L5 : (length (s_rest s1) < length (s_rest s))%nat); [|cbn [s_rest with_rest] in *; lia].
  apply fread_rest in E1; [|lia]. unfold zlen in *. lia.
Qed.

Definition same_y4m (width height : Z) (c c' : y4m_context) : Prop :=
  y4m_ok width height c' /\ ym_blk c' = ym_blk c /\ ym_file c' = ym_file c /\ ym_buf c' = ym_buf c /\ later (ym_s c) (ym_s c').
Lemma same_y4m_with width height c s : y4m_ok width height c -> later (ym_s c) s -> same_y4m width height c (with_stream c s).
Proof.
  intros (K & D & Y & UV & S & B) L. split; [|split; [reflexivity|split; [reflexivity|split; [reflexivity|exact L]]]].
  split; [exact (later_ok _ _ L)|]. auto 10.
Qed.
Lemma same_y4m_trans width height a b c : same_y4m width height a b -> same_y4m width height b c -> same_y4m width height a c.
Proof.
  intros (_ & B & F & U & L) (O & B' & F' & U' & L'). split; [exact O|]. repeat (split; [congruence|]). eapply later_trans; eassumption.
Qed.
Lemma skip_buf_ok width height c : y4m_ok width height c -> exists sb, skip_buf c = Ok sb /\
  (forall off, off = ym_y c \/ off = ym_uv c -> 0 <= off -> match sb with Some size => off <= size | None => off <= LONG_MAX end).
Proof.
  intros (_ & _ & _ & _ & S & b & size & B & L & LU). unfold skip_buf. destruct (ym_seekable c).
  - eexists. split; [reflexivity|]. specialize (S eq_refl). intros off [-> | ->] _; lia.
  - rewrite B. eexists. split; [reflexivity|]. specialize (LU eq_refl). intros off [-> | ->] _; lia.
Qed.

Lemma y4m_y_nonneg width height c : y4m_ok width height c -> 0 <= width * height -> 0 <= ym_y c.
Proof. intros (_ & D & -> & _) W. unfold bytes_per. assert (0 <= (ym_depth c + 7) / 8) by (apply Z.div_pos; lia). nia. Qed.

Lemma y4m_read_ok H c image width height : y4m_ok width height c -> sane width height -> width * height <= zlen image ->
  exists b e image' c', y4m_read H c image width height = Ok (b, e, image', c') /\
    same_y4m width height c c' /\ zlen image' = zlen image /\ (b = true -> e = RDEOK) /\
    (b = true -> (length (s_rest (ym_s c')) < length (s_rest (ym_s c)))%nat).
Proof.
  intros K D L. unfold y4m_read. destruct (y4m_frame_header (ym_s c)) as [[b e] s1] eqn:E1.
  assert (K0 := K). destruct K0 as (KS & KD & KY & KUV & KSK & bb & size & KB & KL & KLU).
  destruct (y4m_frame_header_ok _ _ _ _ KS E1) as (L1 & T1).
  destruct b; cbn [negb].
  2: { eexists _, _, _, _. split; [reflexivity|]. split; [apply same_y4m_with; assumption|]. split; [reflexivity|]. split; discriminate. }
  destruct (T1 eq_refl) as (-> & T2). rewrite KB. cbn [bind].
  destruct (ym_y c >? size) eqn:G; [lia|].
  assert (WH : 0 <= width * height) by (destruct D as (? & ? & ?); nia).
  pose proof (y4m_y_nonneg width height c K WH) as Y0.
  destruct (fread (ym_y c) s1) as [buf s2] eqn:E2. pose proof (later_fread _ _ _ _ (later_ok _ _ L1) E2) as L2.
  assert (L12 := later_trans _ _ _ L1 L2).
  destruct (zlen buf =? ym_y c) eqn:ZB; cbn [negb].
  2: { eexists _, _, _, _. split; [reflexivity|]. split; [apply same_y4m_with; assumption|]. split; [reflexivity|]. split; discriminate. }
  destruct ((ym_depth c <? 0) || (ym_depth c >=? 32)) eqn:DS; [lia|].
  rewrite dims_wrap by exact D.
  match goal with |- context [for_range 0 (width * height) ?body image] =>
    destruct (for_range_inv (fun _ im => zlen im = zlen image) body 0 (width * height) image) as (im & EI & ZI) end.
  { lia. } { reflexivity. }
  { intros i im I ZI.
    assert (V : exists v, (if ym_depth c >? 8 then
                    a <- get buf (wrap (i * 2)) ;;
                    b <- get buf (wrap (i * 2) + 1) ;;
                    Ok (if h_little H then a + 256 * b else b + 256 * a)
                  else get buf i) = Ok v).
    { destruct D as (D1 & D2 & D3). unfold SIZE_MAX in D3. unfold bytes_per in KY.
      assert (ZBY : zlen buf = width * height * ((ym_depth c + 7) / 8)) by lia.
      destruct (ym_depth c >? 8) eqn:G8.
      - assert ((ym_depth c + 7) / 8 = 2) by (symmetry; apply Z.div_unique with (r := ym_depth c + 7 - 16); lia).
        rewrite wrap_small by lia. rewrite !(get_at 0) by lia. cbn. eauto.
      - assert (D8 : ym_depth c = 8) by lia. rewrite D8 in ZBY. change ((8 + 7) / 8) with 1 in ZBY. rewrite (get_at 0) by lia. eauto. }
    destruct V as [v ->]. cbn [bind]. destruct (set_some_ok im i (fdiv (f32_of_Z v) (f32_of_Z (2 ^ ym_depth c - 1)))) as (im2 & -> & Z2); [lia|].
    eexists. split; [reflexivity|lia]. }
  rewrite EI. cbn [bind]. destruct (skip_buf_ok _ _ _ K) as (sb & -> & SB). cbn [bind].
  destruct (fskip_ok s2 (ym_uv c) sb (later_ok _ _ L2) KUV) as (e3 & s3 & -> & L3). { apply SB; [auto|exact KUV]. }
  cbn [bind]. assert (L13 := later_trans _ _ _ L12 L3).
  eexists _, _, _, _. split; [reflexivity|]. split; [apply same_y4m_with; assumption|]. split; [exact ZI|].
  split; [unfold RDEOK; lia|]. intros _. cbn [ym_s with_stream]. assert (L23 := later_trans _ _ _ L2 L3). apply later_len in L23. lia.
Qed.

Lemma y4m_skip_ok width height : sane width height -> forall n i calls c, y4m_ok width height c ->
  exists b e calls' c', y4m_skip n i calls c = Ok (b, e, calls', c') /\ same_y4m width height c c' /\ (b = true -> e = RDEOK).
Proof.
  intros D. induction n as [|n IH]; intros i calls c K.
  { eexists _, _, _, _. split; [reflexivity|]. split; [|reflexivity]. split; [exact K|]. repeat (split; [reflexivity|]). apply later_refl. apply K. }
  cbn [y4m_skip]. assert (K0 := K). destruct K0 as (KS & KD & KY & KUV & KSK & bb & size & KB & KL & KLU).
  destruct (y4m_frame_header (ym_s c)) as [[b e] s1] eqn:E1. destruct (y4m_frame_header_ok _ _ _ _ KS E1) as (L1 & T1).
  assert (BAD : forall e s, later (ym_s c) s -> exists b' e' calls' c', Ok (false, e, calls, with_stream c s) = Ok (b', e', calls', c') /\ same_y4m width height c c' /\ (b' = true -> e' = RDEOK)).
  { intros e0 s L. eexists _, _, _, _. split; [reflexivity|]. split; [apply same_y4m_with; assumption|discriminate]. }
  destruct b; cbn [negb]; [|apply BAD; exact L1].
  assert (WH : 0 <= width * height) by (destruct D as (? & ? & ?); nia).
  pose proof (y4m_y_nonneg width height c K WH) as Y0.
  destruct (skip_buf_ok _ _ _ K) as (sb & -> & SB). cbn [bind].
  destruct (fskip_ok s1 (ym_y c) sb (later_ok _ _ L1) Y0) as (e2 & s2 & -> & L2). { apply SB; [auto|exact Y0]. }
  cbn [bind]. assert (L12 := later_trans _ _ _ L1 L2).
  destruct (e2 =? 0); cbn [negb]; [|apply BAD; exact L12].
  destruct (fskip_ok s2 (ym_uv c) sb (later_ok _ _ L2) KUV) as (e3 & s3 & -> & L3). { apply SB; [auto|exact KUV]. }
  cbn [bind]. assert (L13 := later_trans _ _ _ L12 L3).
  destruct (e3 =? 0); cbn [negb]; [|apply BAD; exact L13].
  pose proof (same_y4m_with _ _ _ _ K L13) as SW.
  destruct (IH (i + 1) (calls ++ [i + 1]) (with_stream c s3) (proj1 SW)) as (b4 & e4 & cs & c4 & -> & S4 & E4).
  eexists _, _, _, _. split; [reflexivity|]. split; [eapply same_y4m_trans; eassumption|exact E4].
Qed.

(** ** Opening *)
Definition ctx_blocks (c : context) : list nat :=
  match c with CPgm c => [pg_blk c] | CPfm c => [pf_blk c] | CY4m c => y4m_blocks c | CExt _ _ => [] end.
Definition ctx_files (c : context) : list nat :=
  match c with CPgm c => opt_list (pg_file c) | CPfm c => opt_list (pf_file c) | CY4m c => opt_list (ym_file c) | CExt _ _ => [] end.
Definition ext_spec (X : ext_system) (size : nat -> Z) : Prop :=
  (forall n f e, x_open X n f = inr e -> e <> 0) /\
  (forall n f c width height, x_open X n f = inl (c, width, height) ->
     is_size width /\ is_size height /\ size c = width * height) /\
  (forall c b e l c', x_read X c = (b, e, l, c') ->
     size c' = size c /\ zlen l <= size c /\
     (b = true -> e = RDEOK /\ zlen l = size c /\ (x_frames X c' < x_frames X c)%nat)) /\
  (forall c k b e calls c', x_seek X c k = (b, e, calls, c') -> size c' = size c).
Lemma ext_sizes Y : system_ok Y -> exists sz, forall x, ext_spec (y_ext Y x) (sz x).
Proof.
  intros (_ & _ & _ & X). destruct (X Libjpeg) as [a A], (X Libpng) as [b B], (X Ffmpeg) as [c C], (X Magickwand) as [d D].
  exists (fun x => match x with Libjpeg => a | Libpng => b | Ffmpeg => c | Magickwand => d end).
  intros []; assumption.
Qed.
Definition ctx_ok (sz : extern -> nat -> Z) (width height : Z) (c : context) : Prop :=
  match c with
  | CPgm c => pgm_ok c
  | CPfm c => pfm_ok c
  | CY4m c => y4m_ok width height c
  | CExt x c => sz x c = width * height
  end.
(** what is open for a context: nothing for standard input *)
Definition ctx_source (filename : string) (c : context) : Prop :=
  match c with
  | CPgm _ | CPfm _ | CY4m _ => ctx_files c = [] <-> filename = "-"%string
  | CExt _ _ => True
  end.

Definition opens (sz : extern -> nat -> Z) (filename : string) (w0 : world) (bs fs : list nat) (r : option context * Z * Z * Z * world) : Prop :=
  let '(c, width, height, e, w) := r in
  (e = RDEOK /\ exists ctx, c = Some ctx /\ is_size width /\ is_size height /\ ctx_ok sz width height ctx /\
     ctx_source filename ctx /\ holds w w0 (ctx_blocks ctx ++ bs) (ctx_files ctx ++ fs)) \/
  (e <> RDEOK /\ c = None /\ holds w w0 bs fs).

Lemma opt_list_nil {A} (o : option A) : opt_list o = [] <-> o = None.
Proof. destruct o; cbn; split; congruence. Qed.

Lemma pgm_open_ok sz E Y filename w w0 bs fs : system_ok Y -> relaxed Y -> holds w w0 bs fs ->
  exists r, map_open CPgm (pgm_open E Y filename w) = Ok r /\ opens sz filename w0 bs fs r.
Proof.
  intros S R H. unfold pgm_open. pose proof (holds_alloc (e_alloc E) w w0 bs fs H) as HA.
  destruct (alloc (e_alloc E) w) as [[blk|] w1].
  2: { eexists. split; [reflexivity|]. right. split; [discriminate|]. split; [reflexivity|apply HA]. }
  pose proof (open_stream_ok Y filename w1 w0 _ _ S HA) as HO.
  destruct (open_stream Y filename w1) as [[[f s]|errno] w2].
  2: { destruct HO as (P & HO). destruct (holds_free _ _ _ _ _ HO) as (w3 & -> & H3). cbn [bind map_open].
       eexists. split; [reflexivity|]. right. split; [unfold RDEOK; lia|]. split; [reflexivity|exact H3]. }
  destruct HO as (K & HO & FN). destruct (pgm_header_ok (y_host Y) s R K) as (h & s2 & -> & L & V). cbn [bind].
  destruct h as [[[width height] depth]|].
  - cbn. eexists. split; [reflexivity|]. left. split; [reflexivity|]. eexists. split; [reflexivity|].
    destruct V as (V1 & V2 & V3). split; [exact V1|]. split; [exact V2|]. split; [split; [exact (later_ok _ _ L)|exact V3]|].
    split; [cbn; rewrite opt_list_nil; exact FN|exact HO].
  - destruct (pgm_close_ok (mkPgm blk f s2 false 0) w2 w0 bs fs HO) as (w3 & -> & H3). cbn.
    eexists. split; [reflexivity|]. right. split; [discriminate|]. split; [reflexivity|exact H3].
Qed.
Lemma pfm_open_ok sz E Y filename w w0 bs fs : system_ok Y -> relaxed Y -> holds w w0 bs fs ->
  exists r, map_open CPfm (pfm_open E Y filename w) = Ok r /\ opens sz filename w0 bs fs r.
Proof.
  intros S R H. unfold pfm_open. pose proof (holds_alloc (e_alloc E) w w0 bs fs H) as HA.
  destruct (alloc (e_alloc E) w) as [[blk|] w1].
  2: { eexists. split; [reflexivity|]. right. split; [discriminate|]. split; [reflexivity|apply HA]. }
  pose proof (open_stream_ok Y filename w1 w0 _ _ S HA) as HO.
  destruct (open_stream Y filename w1) as [[[f s]|errno] w2].
  2: { destruct HO as (P & HO). destruct (holds_free _ _ _ _ _ HO) as (w3 & -> & H3). cbn [bind map_open].
       eexists. split; [reflexivity|]. right. split; [unfold RDEOK; lia|]. split; [reflexivity|exact H3]. }
  destruct HO as (K & HO & FN). destruct (pfm_header_ok (y_host Y) s R K) as (h & s2 & -> & L & V). cbn [bind].
  destruct h as [[format [[width height] scale]]|].
  - cbn. eexists. split; [reflexivity|]. left. split; [reflexivity|]. eexists. split; [reflexivity|].
    destruct V as (V1 & V2 & V3). split; [exact V2|]. split; [exact V3|]. split; [split; [exact (later_ok _ _ L)|exact V1]|].
    split; [cbn; rewrite opt_list_nil; exact FN|exact HO].
  - destruct (pfm_close_ok (mkPfm blk f s2 f0 0 false) w2 w0 bs fs HO) as (w3 & -> & H3). cbn.
    eexists. split; [reflexivity|]. right. split; [discriminate|]. split; [reflexivity|exact H3].
Qed.

Lemma csp_default_ok : zlen csp_default = 10 /\ terminated csp_default.
Proof. split; [reflexivity|]. unfold terminated. cbn. auto 12. Qed.

Lemma y4m_open_ok sz E Y filename w w0 bs fs : config_ok (e_cfg E) = true -> system_ok Y -> relaxed Y -> holds w w0 bs fs ->
  exists r, map_open CY4m (y4m_open E Y filename w) = Ok r /\ opens sz filename w0 bs fs r.
Proof.
  intros CF S R H. unfold y4m_open. pose proof (holds_alloc (e_alloc E) w w0 bs fs H) as HA.
  destruct (alloc (e_alloc E) w) as [[blk|] w1].
  2: { eexists. split; [reflexivity|]. right. split; [discriminate|]. split; [reflexivity|apply HA]. }
  pose proof (open_stream_ok Y filename w1 w0 _ _ S HA) as HO.
  destruct (open_stream Y filename w1) as [[[f s]|errno] w2].
  2: { destruct HO as (P & HO). destruct (holds_free _ _ _ _ _ HO) as (w3 & -> & H3). cbn [bind map_open].
       eexists. split; [reflexivity|]. right. split; [unfold RDEOK; lia|]. split; [reflexivity|exact H3]. }
  destruct HO as (K & HO & FN). cbv zeta.
  assert (FAIL : forall s width height e w, e <> RDEOK -> holds w w0 (blk :: bs) (opt_list f ++ fs) ->
    exists r, map_open CY4m (w <- y4m_close (mkY4m blk f s None 0 0 0 false) w ;; Ok (None, width, height, e, w)) = Ok r /\ opens sz filename w0 bs fs r).
  { intros s0 width height e w3 NE H3. destruct (y4m_close_ok (mkY4m blk f s0 None 0 0 0 false) w3 w0 bs fs H3) as (w4 & -> & H4).
    cbn. eexists. split; [reflexivity|]. right. auto. }
  destruct (fread 10 s) as [magic s1] eqn:E1. pose proof (later_fread _ _ _ _ K E1) as L1. pose proof (later_ok _ _ L1) as K1.
  destruct (list_eq_dec Z.eq_dec magic (chars "YUV4MPEG2 ")); cbn [negb]; [|apply FAIL; [discriminate|exact HO]].
  destruct csp_default_ok as (CD1 & CD2).
  destruct (y4m_params_ok (y_host Y) R (Datatypes.S (length (s_rest s1))) 0 0 csp_default s1 K1) as (h & s2 & -> & L2 & V);
    try assumption; try (unfold is_size, SIZE_MAX; lia). cbn [bind]. pose proof (later_ok _ _ L2) as K2.
  destruct h as [[[width height] csp]|]; [|apply FAIL; [discriminate|exact HO]].
  destruct V as (V1 & V2 & V3 & V4).
  destruct ((width =? 0) || (height =? 0)) eqn:Z0; [apply FAIL; [discriminate|exact HO]|].
  unfold config_ok in CF. unfold is_size in V1, V2.
  destruct (dims_limit_ok (e_cfg E) width height 4 1) as (big & -> & DL); try lia. cbn [bind].
  destruct big; [apply FAIL; [discriminate|exact HO]|].
  destruct DL as [DL _]. destruct (DL eq_refl) as (D1 & D2 & _ & D4 & D5).
  assert (D : sane width height) by (split; [exact D1|]; split; [exact D2|lia]).
  destruct (colour_space_ok (y_host Y) csp width height R V3 V4 D) as (cs & -> & CS). cbn [bind].
  destruct cs as [[uv depth]|]; [|apply FAIL; [discriminate|exact HO]].
  rewrite (dims_wrap _ _ D).
  destruct ((depth <? 8) || (depth >? 16)) eqn:DP; [apply FAIL; [discriminate|exact HO]|].
  set (bw := (depth + 7) / 8) in *.
  assert (BW : 1 <= bw <= 2).
  { unfold bw. split; [apply Z.div_le_lower_bound; lia|apply Z.lt_succ_r; apply Z.div_lt_upper_bound; lia]. }
  destruct (SIZE_MAX / bw <? wrap (width * height + uv)) eqn:OV; [apply FAIL; [discriminate|exact HO]|].
  assert (WH : 1 <= width * height) by nia. unfold SIZE_MAX in D5.
  rewrite wrap_small in OV by lia.
  assert (TOT : (width * height + uv) * bw <= SIZE_MAX).
  { apply Z.le_trans with (SIZE_MAX / bw * bw); [apply Z.mul_le_mono_nonneg_r; lia|].
    rewrite Z.mul_comm. apply Z.mul_div_le. lia. }
  unfold SIZE_MAX in TOT.
  assert (Y0 : 0 <= width * height * bw) by nia. assert (UV0 : 0 <= uv * bw) by nia.
  rewrite (wrap_small (width * height * bw)) by nia. rewrite (wrap_small (uv * bw)) by nia.
  assert (Q : exists seekable s3, (if wrap (width * height * bw + uv * bw) <=? LONG_MAX then
        match fseek_cur 0 s2 with (None, s) => (true, s) | (Some _, s) => (false, s) end
      else (false, s2)) = (seekable, s3) /\ later s2 s3 /\ (seekable = true -> width * height * bw + uv * bw <= LONG_MAX)).
  { rewrite wrap_small by nia. destruct (_ <=? LONG_MAX) eqn:G.
    - destruct (fseek_cur 0 s2) as [[e0|] s3] eqn:F; (eexists _, _; split; [reflexivity|]; split; [eapply later_fseek; [exact K2| |exact F]; lia|intros; try discriminate; lia]).
    - eexists _, _. split; [reflexivity|]. split; [apply later_refl; exact K2|discriminate]. }
  destruct Q as (seekable & s3 & -> & L3 & SK).
  pose proof (holds_alloc (e_alloc E) w2 w0 _ _ HO) as HB. destruct (alloc (e_alloc E) w2) as [[b|] w3].
  2: { apply FAIL; [discriminate|apply HB]. }
  cbn. eexists. split; [reflexivity|]. left. split; [reflexivity|]. eexists. split; [reflexivity|].
  split; [exact V1|]. split; [exact V2|]. split; [|split; [cbn; rewrite opt_list_nil; exact FN|exact HB]].
  split; [exact (later_ok _ _ L3)|]. cbn [ym_s ym_depth ym_y ym_uv ym_seekable ym_buf]. fold bw. fold (bytes_per depth) in bw. split; [lia|]. split; [reflexivity|]. split; [exact UV0|].
  split; [intros SS; specialize (SK SS); unfold LONG_MAX in *; lia|]. eexists _, _. split; [reflexivity|].
  destruct seekable; [split; [lia|discriminate]|]. destruct (Z.ltb_spec (uv * bw) (width * height * bw)); split; intros; lia.
Qed.

Lemma reader_open_ok sz E Y r filename w w0 bs fs : config_ok (e_cfg E) = true -> system_ok Y -> relaxed Y ->
  (forall x, ext_spec (y_ext Y x) (sz x)) -> holds w w0 bs fs ->
  exists r', reader_open E Y r filename w = Ok r' /\ opens sz filename w0 bs fs r'.
Proof.
  intros CF S R X H. destruct r as [| | |x]; cbn [reader_open].
  - apply pgm_open_ok; assumption.
  - apply pfm_open_ok; assumption.
  - apply y4m_open_ok; assumption.
  - destruct (X x) as (X1 & X2 & _). destruct (x_open (y_ext Y x) (w_count w) filename) as [[[c width] height]|e] eqn:Q.
    + destruct (X2 _ _ _ _ _ Q) as (A & B & C). eexists. split; [reflexivity|]. left. split; [reflexivity|].
      eexists. split; [reflexivity|]. split; [exact A|]. split; [exact B|]. split; [exact C|]. split; [exact I|exact H].
    + eexists. split; [reflexivity|]. right. split; [apply (X1 _ _ _ Q)|]. split; [reflexivity|exact H].
Qed.
Lemma reader_close_ok c w w0 bs fs : holds w w0 (ctx_blocks c ++ bs) (ctx_files c ++ fs) ->
  exists w', reader_close (Some c) w = Ok w' /\ holds w' w0 bs fs.
Proof.
  destruct c as [c|c|c|x c]; cbn [reader_close ctx_blocks ctx_files]; intros H.
  - apply pgm_close_ok; exact H.
  - apply pfm_close_ok; exact H.
  - apply y4m_close_ok; exact H.
  - eauto.
Qed.

(** ** The image API *)
Definition image_ok (sz : extern -> nat -> Z) (im : rdimage) : Prop :=
  sane (im_width im) (im_height im) /\ ctx_ok sz (im_width im) (im_height im) (im_ctx im).
Definition image_blocks (im : rdimage) : list nat := ctx_blocks (im_ctx im) ++ [im_blk im].
Definition image_files (im : rdimage) : list nat := ctx_files (im_ctx im).

Definition open_outcome (sz : extern -> nat -> Z) (E : env) (filename : option string) (want : bool) (w0 : world) (bs fs : list nat) (r : opened) : Prop :=
  let '(im, width, height, buf, e, w) := r in
  (e = RDEOK /\ exists i, im = Some i /\ im_width i = width /\ im_height i = height /\ image_ok sz i /\
     width * height <= c_pixel_max (e_cfg E) /\
     (forall f, filename = Some f -> ctx_source f (im_ctx i)) /\
     (if want then exists b, buf = Some (b, repeat None (Z.to_nat (width * height))) /\ holds w w0 (b :: image_blocks i ++ bs) (image_files i ++ fs)
      else buf = None /\ holds w w0 (image_blocks i ++ bs) (image_files i ++ fs))) \/
  (e <> RDEOK /\ im = None /\ width = 0 /\ height = 0 /\ buf = None /\ holds w w0 bs fs).

Lemma open_image_ok sz E Y r filename want w w0 bs fs : config_ok (e_cfg E) = true -> system_ok Y -> relaxed Y ->
  (forall x, ext_spec (y_ext Y x) (sz x)) -> holds w w0 bs fs ->
  exists o, open_image E Y r filename want w = Ok o /\ open_outcome sz E (Some filename) want w0 bs fs o.
Proof.
  intros CF S R X H. unfold open_image. pose proof (holds_alloc (e_alloc E) w w0 bs fs H) as HA.
  destruct (alloc (e_alloc E) w) as [[blk|] w1].
  2: { eexists. split; [reflexivity|]. right. split; [discriminate|]. repeat (split; [reflexivity|]). apply HA. }
  destruct r as [r|].
  2: { destruct (holds_free _ _ _ _ _ HA) as (w2 & -> & H2). cbn. eexists. split; [reflexivity|]. right. split; [discriminate|].
       repeat (split; [reflexivity|]). exact H2. }
  destruct (reader_open_ok sz E Y r filename w1 w0 _ _ CF S R X HA) as ([[[[c width] height] e] w2] & -> & O). cbn [bind].
  assert (FAIL : forall e w, e <> RDEOK -> holds w w0 (match c with Some c => ctx_blocks c | None => [] end ++ blk :: bs)
      (match c with Some c => ctx_files c | None => [] end ++ fs) ->
    exists o, (w <- reader_close c w ;; w <- free_block blk w ;; Ok (None, 0, 0, None, e, w)) = Ok o /\ open_outcome sz E (Some filename) want w0 bs fs o).
  { intros e0 w3 NE H3. assert (Q : exists w4, reader_close c w3 = Ok w4 /\ holds w4 w0 (blk :: bs) fs).
    { destruct c as [c|]; [apply reader_close_ok; exact H3|exists w3; split; [reflexivity|exact H3]]. }
    destruct Q as (w4 & -> & H4). cbn [bind]. destruct (holds_free _ _ _ _ _ H4) as (w5 & -> & H5). cbn.
    eexists. split; [reflexivity|]. right. auto 10. }
  destruct O as [(-> & ctx & -> & A & B & C & SRC & O)|(NE & -> & O)].
  2: { destruct (Z.eqb_spec e 0) as [->|_]; [elim NE; reflexivity|]. cbn [negb]. apply FAIL; [exact NE|exact O]. }
  cbn [Z.eqb negb RDEOK]. unfold config_ok in CF. unfold is_size in A, B.
  destruct (dims_limit_ok (e_cfg E) width height 1 4) as (big & -> & DL); try lia. cbn [bind].
  destruct big; [apply FAIL; [discriminate|exact O]|].
  destruct DL as [DL _]. destruct (DL eq_refl) as (D1 & D2 & _ & D4 & D5).
  assert (D : sane width height) by (split; [exact D1|]; split; [exact D2|lia]).
  assert (HP : forall w, holds w w0 (ctx_blocks ctx ++ blk :: bs) (ctx_files ctx ++ fs) -> 
     holds w w0 (image_blocks (mkImage blk ctx width height) ++ bs) (image_files (mkImage blk ctx width height) ++ fs)).
  { intros w3 H3. unfold image_blocks, image_files. cbn. rewrite <- app_assoc. exact H3. }
  destruct want.
  - pose proof (holds_alloc (e_alloc E) w2 w0 _ _ O) as HB. destruct (alloc (e_alloc E) w2) as [[b|] w3].
    2: { apply FAIL; [discriminate|apply HB]. }
    eexists. split; [reflexivity|]. left. split; [reflexivity|]. eexists. split; [reflexivity|]. split; [reflexivity|]. split; [reflexivity|].
    split; [split; [exact D|exact C]|]. split; [lia|]. split; [intros f Q; inversion Q; subst; exact SRC|].
    exists b. split.
    + rewrite (dims_wrap _ _ D). destruct D as (_ & _ & D). unfold SIZE_MAX in D. rewrite wrap_small by nia.
      rewrite Z.div_mul by lia. reflexivity.
    + unfold image_blocks, image_files. cbn. rewrite <- app_assoc. exact HB.
  - eexists. split; [reflexivity|]. left. split; [reflexivity|]. eexists. split; [reflexivity|]. split; [reflexivity|]. split; [reflexivity|].
    split; [split; [exact D|exact C]|]. split; [lia|]. split; [intros f Q; inversion Q; subst; exact SRC|].
    split; [reflexivity|]. apply HP. exact O.
Qed.

Lemma strieq_ok H l r : h_strict H = false -> resdet_strieq H l r = Ok (if list_eq_dec Z.eq_dec (map lower (chars l)) (map lower (chars r)) then true else false).
Proof.
  intros R. unfold resdet_strieq. generalize (chars l) (chars r). clear l r. induction l as [|c l IH]; intros [|d r]; try reflexivity.
  cbn [strieq_chars]. unfold tolower, ctype_arg. rewrite R. cbn [andb bind]. rewrite IH. cbn [map].
  destruct (Z.eqb_spec (lower c) (lower d)) as [Q|Q].
  - destruct (list_eq_dec Z.eq_dec (map lower l) (map lower r)) as [Q2|Q2]; destruct (list_eq_dec Z.eq_dec (lower c :: map lower l) (lower d :: map lower r)) as [Q3|Q3]; try reflexivity; congruence.
  - destruct (list_eq_dec Z.eq_dec (lower c :: map lower l) (lower d :: map lower r)) as [Q3|Q3]; [congruence|reflexivity].
Qed.
Lemma supports_ok R Y r ext : relaxed Y -> exists b, supports_ext R Y r ext = Ok b.
Proof.
  intros H. unfold supports_ext. destruct r as [| | |[]]; rewrite ?strieq_ok by exact H; cbn [bind]; eauto.
  destruct (list_eq_dec _ _ _); eauto.
Qed.
Lemma first_that_ok {A} (test : A -> res bool) l : (forall a, exists b, test a = Ok b) -> exists r, first_that test l = Ok r /\ match r with Some a => In a l /\ test a = Ok true | None => True end.
Proof.
  intros H. induction l as [|a l [r [E I]]]; [exists None; auto|]. cbn [first_that]. destruct (H a) as [b T]. rewrite T. cbn [bind].
  destruct b; [exists (Some a); cbn; auto|]. rewrite E. exists r. split; [reflexivity|]. destruct r; [|exact I]. cbn. tauto.
Qed.
Lemma readers_names R : length (resdet_list_image_readers R) = length (resdet_image_readers R).
Proof. destruct R as [[] [] [] [] [] [] []]; reflexivity. Qed.

Lemma open_by_ok sz R E Y filename o ptrs want w w0 bs fs : config_ok (e_cfg E) = true -> system_ok Y -> relaxed Y ->
  (forall x, ext_spec (y_ext Y x) (sz x)) -> holds w w0 bs fs ->
  exists r, open_by R E Y filename o ptrs want w = Ok r /\ open_outcome sz E filename want w0 bs fs r.
Proof.
  intros CF S RX X H.
  assert (P : exists r, Ok (@None rdimage, 0, 0, @None buffer, RDEPARAM, w) = Ok r /\ open_outcome sz E filename want w0 bs fs r).
  { eexists. split; [reflexivity|]. right. split; [discriminate|]. auto 10. }
  destruct o as [t|n]; cbn [open_by].
  - unfold resdet_open_image. destruct ptrs; cbn [negb]; [|exact P]. destruct filename as [f|]; [|exact P].
    destruct (first_that_ok (fun r => supports_ext R Y r (file_ext f t)) (resdet_image_readers R)) as (r & -> & _).
    { intros a. apply supports_ok. exact RX. }
    cbn [bind]. apply open_image_ok; assumption.
  - unfold resdet_open_image_with_reader. destruct ptrs; cbn [negb]; [|exact P]. destruct filename as [f|]; [|exact P].
    destruct n as [n|]; [|exact P].
    destruct (first_that_ok (fun '((_, m) : nat * string) => resdet_strieq (y_host Y) m n)
      (combine (seq 0 (length (resdet_list_image_readers R))) (resdet_list_image_readers R))) as (r & -> & I).
    { intros [a m]. rewrite strieq_ok by exact RX. eauto. }
    cbn [bind]. destruct r as [[i m]|]; cbn [bind]; [|apply open_image_ok; assumption].
    destruct I as (I & _). apply in_combine_l in I. apply in_seq in I. rewrite readers_names in I.
    rewrite (get_at RPgm) by (unfold zlen; lia). cbn [bind]. apply open_image_ok; assumption.
Qed.

Definition same_image (sz : extern -> nat -> Z) (im im' : rdimage) : Prop :=
  image_ok sz im' /\ image_blocks im' = image_blocks im /\ image_files im' = image_files im /\
  im_width im' = im_width im /\ im_height im' = im_height im.
Lemma same_image_trans sz a b c : same_image sz a b -> same_image sz b c -> same_image sz a c.
Proof. intros (_ & B & F & W & H) (O & B' & F' & W' & H'). split; [exact O|]. repeat split; congruence. Qed.
Lemma same_image_refl sz a : image_ok sz a -> same_image sz a a.
Proof. intros H. split; [exact H|]. repeat split. Qed.

