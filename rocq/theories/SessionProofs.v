(** Proofs about sessions of several clients. *)
From Coq Require Import Reals Permutation Lia.
From Verif Require Import Base Flt Util Methods Analysis Resdetect History Stdio Pgm Pfm Y4m Image ImageHistory Session.
From Verif Require Import SpecAnalysis SpecReport SpecImage SpecSession.
From Verif Require Import BaseProofs FltProofs MethodsProofs WorldProofs AnalysisProofs UtilProofs ResultsProofs ClientProofs ProgramProofs ImageSafe ImageApi.
Open Scope list_scope.
Open Scope Z_scope.

(** ** Memory of one client among the others *)
Definition private (s : stage) : list nat :=
  match s with
  | InAnalysis (Some a) _ _ => an_blocks a
  | InImage (Some im) _ _ _ _ _ _ => image_blocks im
  | _ => []
  end.
Definition files_of (s : stage) : list nat :=
  match s with InImage (Some im) _ _ _ _ _ _ => image_files im | _ => [] end.

Lemma owns_holds w w1 w0 new bs fs : owns w w1 new -> holds w1 w0 bs fs -> holds w w0 (new ++ bs) fs.
Proof.
  intros (P & _ & F) (Q & G). split; [|rewrite F; exact G].
  eapply Permutation_trans; [exact P|]. rewrite <- app_assoc. apply Permutation_app_head. exact Q.
Qed.
Lemma destroy_holds a w w0 bs fs : holds w w0 (an_blocks a ++ bs) fs ->
  exists w', resdet_destroy_analysis (Some a) w = Ok w' /\ holds w' w0 bs fs.
Proof.
  intros (P & Q). set (rest := mkWorld (w_count w) (bs ++ w_live w0) (w_nfile w) (w_files w)).
  destruct (destroy_ok a w rest []) as (w' & EQ & (P' & _ & F') & _).
  { split; [|split; reflexivity]. rewrite app_nil_r. cbn. rewrite app_assoc. exact P. }
  exists w'. split; [exact EQ|]. split; [exact P'|]. rewrite F'. exact Q.
Qed.

Definition stage_inv (sz : extern -> nat -> Z) (E : env) (t : task) (s : stage) : Prop :=
  match s with
  | Waiting t' => t' = t
  | InAnalysis a did cs =>
      exists m w h p a', t = Analysing m w h p (map fst did ++ cs) /\ a = Some a' /\
        Forall2 reply_ok (map fst did) (map snd did) /\
        exists xs ys n, an_state E a' (the_method m) w h (effective_params (e_cfg E) (the_method m) p) xs ys n /\ 0 <= n <= zlen did
  | AfterAnalysis e did =>
      exists m w h p cs, t = Analysing m w h p cs /\ Forall2 reply_ok (map fst did) (map snd did) /\
        (e = RDEOK -> map fst did = cs) /\ (e <> RDEOK -> did = [])
  | InImage im width height buf e rs cs =>
      exists filename o ptrs want did, t = Reading filename o ptrs want (did ++ cs) /\
        Forall (image_call_ok width height) cs /\ Forall2 image_reply_ok did rs /\
        match im with Some i => image_ok sz i /\ im_width i = width /\ im_height i = height | None => True end
  | AfterImage ok width height buf e rs =>
      exists filename o ptrs want cs, t = Reading filename o ptrs want cs /\ Forall2 image_reply_ok cs rs
  end.

Section Safe.
Variables (sz : extern -> nat -> Z) (R : readers) (E : env) (Y : system).
Hypothesis CF : config_ok (e_cfg E) = true.
Hypothesis SY : system_ok Y.
Hypothesis RX : relaxed Y.
Hypothesis SZ : forall x, ext_spec (y_ext Y x) (sz x).

Lemma image_call_safe c im w w0 bs fs : image_ok sz im -> image_call_ok (im_width im) (im_height im) c -> holds w w0 bs fs ->
  exists r im' w', do_image_call E Y c (Some im) w = Ok (r, Some im', w') /\ same_image sz im im' /\ holds w' w0 bs fs /\ image_reply_ok c r.
Proof using RX SZ.
  intros K F H. destruct (image_calls_ok sz E Y RX SZ [c] im w w0 bs fs K ltac:(constructor; [exact F|constructor]) H) as (rs & im' & w' & EQ & S & H' & RS).
  cbn [do_image_calls] in EQ. destruct (do_image_call E Y c (Some im) w) as [[[r im1] w1]|]; [|discriminate EQ].
  cbn [bind] in EQ. inversion EQ; subst. inversion RS; subst. eexists _, _, _. split; [reflexivity|]. auto.
Qed.
Lemma null_call_safe c w : exists r, do_image_call E Y c None w = Ok (r, None, w) /\ image_reply_ok c r.
Proof using. destruct c as [[buf|]|k]; (eexists; split; [reflexivity|]); [split; [discriminate|reflexivity]|split; [discriminate|reflexivity]|exact I]. Qed.

Lemma advance_safe t s w w0 bs fs :
  task_ok R E Y t -> stage_inv sz E t s -> holds w w0 (private s ++ given s ++ bs) (files_of s ++ fs) ->
  exists s' w' lost, advance R E Y s w = Ok (s', w') /\ stage_inv sz E t s' /\
    holds w' w0 (private s' ++ given s' ++ lost ++ bs) (files_of s' ++ fs) /\ (lost = [] \/ exists k, e_alloc E k = false).
Proof using CF SY RX SZ.
  intros T I H. destruct s as [t'|a did cs|e did|im width height buf e rs cs|ok width height buf e rs].
  - cbn in I. subst t'. cbn [private given files_of app] in H. destruct t as [m wd ht p cs|filename o ptrs want cs]; cbn [advance].
    + destruct T as (C & FC & N). destruct (client_sizes _ _ _ _ C) as (Hw & Hh). pose proof (client_valid _ _ _ _ C) as V.
      destruct (create_ok E m wd ht p w CF Hw Hh V) as (ao & e & w1 & EQ & O). rewrite EQ. cbn [bind].
      destruct ao as [a|].
      * destruct O as (-> & _ & S & O). eexists _, _, []. split; [reflexivity|]. split.
        { exists m, wd, ht, p, a. split; [reflexivity|]. split; [reflexivity|]. split; [constructor|].
          exists [], [], 0. split; [exact S|]. cbn. lia. }
        split; [|left; reflexivity]. cbn [private given flat_map files_of app]. eapply owns_holds; eassumption.
      * destruct O as (CE & leak & O & L). eexists _, _, leak. split; [reflexivity|]. split.
        { exists m, wd, ht, p, cs. split; [reflexivity|]. split; [constructor|]. split; [|reflexivity].
          intros ->. exfalso. destruct CE as [(X & _)|[(X & _)|[(X & _)|(X & _)]]]; discriminate X. }
        split; [cbn [private given flat_map files_of app]; eapply owns_holds; eassumption|].
        destruct L as [->|(_ & L)]; [left; reflexivity|right]. apply leaks_leaky in L. destruct L as (_ & _ & L). eexists; exact L.
    + destruct T as (NS & T). destruct (open_by_ok sz R E Y filename o ptrs want w w0 bs fs CF SY RX SZ H) as ([[[[[im width] height] buf] e] w1] & EQ & O).
      rewrite EQ. cbn [bind]. specialize (T _ _ _ _ _ _ _ EQ). eexists _, _, []. split; [reflexivity|].
      destruct O as [(-> & i & -> & W & Hh & K & _ & _ & O)|(_ & -> & -> & -> & -> & O)].
      * split.
        { exists filename, o, ptrs, want, []. split; [reflexivity|]. split; [exact T|]. split; [constructor|]. auto. }
        split; [|left; reflexivity]. cbn [private given files_of app]. destruct want.
        -- destruct O as (b & -> & O). eapply holds_perm; [exact O|]. apply Permutation_middle.
        -- destruct O as (-> & O). exact O.
      * split; [|split; [exact O|left; reflexivity]].
        exists filename, o, ptrs, want, []. split; [reflexivity|]. split; [exact T|]. split; [constructor|]. exact Logic.I.
  - destruct I as (m & wd & ht & p & a' & -> & -> & FR & xs & ys & n & S & Hn). destruct T as (C & FC & N).
    apply (proj1 (countable_zlen _)) in N. rewrite zlen_app in N. unfold zlen in N at 1. rewrite map_length in N. fold (zlen did) in N.
    pose proof (zlen_nonneg cs) as NC. cbn [private given files_of app] in H.
    pose proof (client_valid _ _ _ _ C) as V. destruct (effective_ok (e_cfg E) (the_method m) p CF V) as (PO & _).
    destruct cs as [|c cs]; cbn [advance].
    + destruct (destroy_holds _ _ _ _ _ H) as (w' & EQ & H'). rewrite EQ. cbn [bind]. eexists _, _, []. split; [reflexivity|].
      split; [|split; [exact H'|left; reflexivity]]. exists m, wd, ht, p, (map fst did ++ []).
      split; [reflexivity|]. split; [exact FR|]. rewrite app_nil_r. split; [reflexivity|]. intros X; contradiction X; reflexivity.
    + rewrite zlen_cons in N. pose proof (zlen_nonneg cs) as NC'.
      apply Forall_app in FC. destruct FC as (_ & FC). inversion FC as [|? ? Hc FC']; subst.
      assert (STEP : exists r a1 w1, do_call E c (Some a') w = Ok (r, Some a1, w1) /\ reply_ok c r /\
        holds w1 w0 (an_blocks a1 ++ given (InAnalysis (Some a') did (c :: cs)) ++ reply_blocks [c] [r] ++ bs) fs /\
        exists xs' ys' n', an_state E a1 (the_method m) wd ht (effective_params (e_cfg E) (the_method m) p) xs' ys' n' /\ 0 <= n' <= n + 1).
      { destruct c as [image|q o]; cbn [do_call].
        - destruct (analyze_ok E a' _ wd ht _ xs ys n image w (proj1 C) S Hc ltac:(lia)) as (e & a1 & w1 & EQ & AB & L1 & _ & L3 & H').
          rewrite EQ. cbn [bind]. eexists _, _, _. split; [reflexivity|].
          assert (HS : In e [RDEOK; RDEINVAL; RDENOMEM] /\ exists xs' ys' n', an_state E a1 (the_method m) wd ht (effective_params (e_cfg E) (the_method m) p) xs' ys' n' /\ 0 <= n' <= n + 1).
          { destruct (forallb ffinite (firstn (Z.to_nat (wd * ht)) image)).
            - destruct H' as [(-> & S')|(-> & _ & _ & [S'|S'])]; (split; [simpl; auto|]; do 3 eexists; split; [exact S'|lia]).
            - destruct H' as (-> & S'). split; [simpl; auto|]. do 3 eexists. split; [exact S'|lia]. }
          destruct HS as (He & HS). split; [exact He|]. split; [|exact HS].
          cbn [reply_blocks app]. rewrite AB. destruct H as (P & Q). split; [rewrite L1; exact P|rewrite L3; exact Q].
        - destruct (results_ok E a' _ wd ht _ xs ys n (proj1 C) S (po_filter _ PO) ltac:(lia) q o w) as (e & o' & w1 & EQ & H').
          rewrite EQ. cbn [bind]. eexists _, _, _. split; [reflexivity|].
          assert (HB : In e [RDEOK; RDEPARAM; RDENOIMG; RDENOMEM] /\ owns w1 w (out_blocks q o')).
          { destruct H' as [(-> & _ & -> & ->)|[(-> & _ & _ & -> & ->)|[(-> & _ & _ & -> & O' & _)|(-> & _ & _ & bs' & F & O')]]].
            - split; [simpl; auto|]. rewrite clear_blocks. apply owns_refl.
            - split; [simpl; auto|]. rewrite clear_blocks. apply owns_refl.
            - split; [simpl; auto|]. rewrite clear_blocks. exact O'.
            - split; [simpl; auto|]. rewrite (filled_blocks _ _ _ _ _ _ F). exact O'. }
          destruct HB as (He & OB). split; [exact He|]. split.
          + cbn [reply_blocks]. rewrite app_nil_r. eapply holds_perm; [eapply owns_holds; [exact OB|exact H]|].
            cbn [given]. rewrite !app_assoc. apply Permutation_app_tail.
            rewrite <- app_assoc. apply Permutation_app_comm.
          + exists xs, ys, n. split; [exact S|lia]. }
      destruct STEP as (r & a1 & w1 & EQ & RO & H1 & xs' & ys' & n' & S' & Hn'). rewrite EQ. cbn [bind].
      eexists _, _, []. split; [reflexivity|]. split.
      { exists m, wd, ht, p, a1. rewrite !map_app, <- app_assoc. split; [reflexivity|]. split; [reflexivity|].
        split; [apply Forall2_app; [exact FR|constructor; [exact RO|constructor]]|].
        exists xs', ys', n'. split; [exact S'|]. rewrite zlen_app. unfold zlen at 2. cbn. lia. }
      split; [|left; reflexivity]. cbn [private files_of app given] in *. rewrite flat_map_app. cbn [flat_map].
      rewrite app_nil_r, <- app_assoc. exact H1.
  - cbn [advance]. eexists _, _, []. split; [reflexivity|]. split; [exact I|]. split; [exact H|left; reflexivity].
  - destruct I as (filename & o & ptrs & want & did & -> & FC & FR & K). destruct cs as [|c cs]; cbn [advance].
    + destruct im as [i|]; cbn [private files_of] in H.
      * destruct K as (K & W & Hh). destruct (close_image_ok sz i w w0 _ _ K H) as (w' & EQ & H'). rewrite EQ. cbn [bind].
        eexists _, _, []. split; [reflexivity|]. split; [|split; [exact H'|left; reflexivity]].
        exists filename, o, ptrs, want, (did ++ []). split; [reflexivity|]. rewrite app_nil_r. exact FR.
      * cbn [resdet_close_image bind]. eexists _, _, []. split; [reflexivity|]. split; [|split; [exact H|left; reflexivity]].
        exists filename, o, ptrs, want, (did ++ []). split; [reflexivity|]. rewrite app_nil_r. exact FR.
    + inversion FC as [|? ? Fc FC']; subst. destruct im as [i|].
      * destruct K as (K & W & Hh). rewrite <- W, <- Hh in Fc.
        destruct (image_call_safe c i w w0 _ _ K Fc H) as (r & i' & w' & EQ & S & H' & RO). rewrite EQ. cbn [bind].
        eexists _, _, []. split; [reflexivity|]. split.
        { exists filename, o, ptrs, want, (did ++ [c]). rewrite <- app_assoc. split; [reflexivity|]. split; [exact FC'|].
          split; [apply Forall2_app; [exact FR|constructor; [exact RO|constructor]]|].
          destruct S as (K' & _ & _ & W' & Hh'). rewrite W', Hh'. auto. }
        split; [|left; reflexivity]. cbn [private files_of given] in *. destruct S as (_ & -> & -> & _). exact H'.
      * destruct (null_call_safe c w) as (r & EQ & RO). rewrite EQ. cbn [bind].
        eexists _, _, []. split; [reflexivity|]. split; [|split; [exact H|left; reflexivity]].
        exists filename, o, ptrs, want, (did ++ [c]). rewrite <- app_assoc. split; [reflexivity|]. split; [exact FC'|].
        split; [apply Forall2_app; [exact FR|constructor; [exact RO|constructor]]|exact Logic.I].
  - cbn [advance]. eexists _, _, []. split; [reflexivity|]. split; [exact I|]. split; [exact H|left; reflexivity].
Qed.
End Safe.

(** ** Images without the numbers of their blocks and files *)
Definition nameless {A} (o : option A) : option nat := option_map (fun _ => 0%nat) o.
Definition bare_pgm (c : pgm_context) := mkPgm 0 (nameless (pg_file c)) (pg_s c) (pg_eof c) (pg_depth c).
Definition bare_pfm (c : pfm_context) := mkPfm 0 (nameless (pf_file c)) (pf_s c) (pf_scale c) (pf_format c) (pf_consumed c).
Definition bare_y4m (c : y4m_context) :=
  mkY4m 0 (nameless (ym_file c)) (ym_s c) (option_map (fun b => (0%nat, snd b)) (ym_buf c)) (ym_y c) (ym_uv c) (ym_depth c) (ym_seekable c).
Definition bare (c : context) : context :=
  match c with CPgm c => CPgm (bare_pgm c) | CPfm c => CPfm (bare_pfm c) | CY4m c => CY4m (bare_y4m c) | CExt x c => CExt x c end.
Definition bare_image (im : rdimage) : rdimage := mkImage 0 (bare (im_ctx im)) (im_width im) (im_height im).

(** results that only differ in the names *)
Definition alike {A B} (f : A -> B) (r r' : res A) : Prop :=
  match r, r' with Ok a, Ok a' => f a = f a' | Undef _, Undef _ => True | _, _ => False end.
Lemma alike_refl {A B} (f : A -> B) r : alike f r r.
Proof. destruct r; cbn; auto. Qed.
Lemma alike_bind {A B C D} (f : A -> B) (g : C -> D) (r r' : res A) (k k' : A -> res C) :
  alike f r r' -> (forall a a', f a = f a' -> alike g (k a) (k' a')) -> alike g (bind r k) (bind r' k').
Proof. destruct r, r'; cbn; auto; contradiction. Qed.
Lemma alike_ok {A B} (f : A -> B) a a' r r' : alike f r r' -> r = Ok a -> r' = Ok a' -> f a = f a'.
Proof. intros H -> ->. exact H. Qed.

Lemma triple {A B C} (a a' : A) (b b' : B) (c c' : C) : (a, b, c) = (a', b', c') -> a = a' /\ b = b' /\ c = c'.
Proof. intros X. inversion X. auto. Qed.
Lemma quadruple {A B C D} (a a' : A) (b b' : B) (c c' : C) (d d' : D) :
  (a, b, c, d) = (a', b', c', d') -> a = a' /\ b = b' /\ c = c' /\ d = d'.
Proof. intros X. inversion X. auto. Qed.

(** a context after a read or a seek *)
Definition read_bare {C} (b : C -> C) (r : bool * Z * list (option f32) * C) := let '(ok, e, image, c) := r in (ok, e, image, b c).

Lemma pgm_read_alike c c' image w h : bare_pgm c = bare_pgm c' -> alike (read_bare bare_pgm) (pgm_read c image w h) (pgm_read c' image w h).
Proof.
  destruct c as [b f s eof d], c' as [b' f' s' eof' d']. unfold bare_pgm. cbn. intros X. inversion X as [[X1 X2 X3 X4]]. subst.
  unfold pgm_read. cbn. destruct eof'; [cbn; unfold bare_pgm; cbn; rewrite X1; reflexivity|].
  destruct (pgm_samples _ _ _ _ _) as [[[ok im] s1]|]; cbn; [|exact I]. unfold bare_pgm. cbn. rewrite X1. reflexivity.
Qed.
Definition header_bare (r : bool * Z * pfm_context) := let '(ok, e, c) := r in (ok, e, bare_pfm c).
Ltac same_names X := cbn; unfold bare_pfm; cbn; rewrite ?X; reflexivity.
Lemma pfm_header_alike H c c' w h : bare_pfm c = bare_pfm c' -> alike header_bare (pfm_next_header H c w h) (pfm_next_header H c' w h).
Proof.
  destruct c as [b f s sc fm co], c' as [b' f' s' sc' fm' co']. unfold bare_pfm. cbn. intros X. inversion X as [[X1 X2 X3 X4 X5]]. subst.
  unfold pfm_next_header. cbn [pf_consumed pf_s pf_blk pf_file pf_scale pf_format]. destruct co'; [same_names X1|]. destruct (fgetc s') as [[p|] s1]; [|same_names X1].
  destruct (negb (p =? 80)); [same_names X1|]. destruct (fscanf H [Ch] s1) as [[[n vs] s2]|]; cbn [bind]; [|exact I].
  destruct (negb (n =? 1)); [same_names X1|]. destruct vs as [|[ | |fmt| ] [|]]; try exact I.
  destruct (negb (is_format fmt)); [same_names X1|]. destruct (pfm_rest H s2) as [[[[[nw nh] scale]|] s3]|]; cbn [bind]; [|same_names X1|exact I].
  destruct (negb (nw =? w) || negb (nh =? h)); same_names X1.
Qed.
Lemma bare_pfm_parts c c' : bare_pfm c = bare_pfm c' ->
  nameless (pf_file c) = nameless (pf_file c') /\ pf_s c = pf_s c' /\ pf_scale c = pf_scale c' /\ pf_format c = pf_format c' /\ pf_consumed c = pf_consumed c'.
Proof. intros X. inversion X. auto. Qed.
Lemma pfm_read_alike H c c' image w h : bare_pfm c = bare_pfm c' -> alike (read_bare bare_pfm) (pfm_read H c image w h) (pfm_read H c' image w h).
Proof.
  intros X. unfold pfm_read. eapply alike_bind; [apply pfm_header_alike; exact X|].
  intros [[ok e] c1] [[ok' e'] c1'] Q. cbn in Q. pose proof (triple _ _ _ _ _ _ Q) as Q'.
  destruct Q' as (<- & <- & Q'). destruct (bare_pfm_parts _ _ Q') as (P1 & P2 & P3 & P4 & P5).
  destruct (negb ok); [cbn; rewrite Q'; reflexivity|]. rewrite P2, P3, P4.
  destruct (read_plane _ _ _ _ _ _) as [[b [im s]]|]; cbn; [|exact I].
  destruct b; cbn; unfold bare_pfm; cbn; rewrite P1, ?P5; reflexivity.
Qed.
Definition skip_bare {C} (b : C -> C) (r : bool * Z * list Z * C) := let '(ok, e, calls, c) := r in (ok, e, calls, b c).
Lemma pfm_skip_alike H w h size buf : forall n i calls c c', bare_pfm c = bare_pfm c' ->
  alike (skip_bare bare_pfm) (pfm_skip n i H w h size buf calls c) (pfm_skip n i H w h size buf calls c').
Proof.
  induction n as [|n IH]; intros i calls c c' X; cbn [pfm_skip]; [cbn; rewrite X; reflexivity|].
  eapply alike_bind; [apply pfm_header_alike; exact X|].
  intros [[ok e] c1] [[ok' e'] c1'] Q. cbn in Q. pose proof (triple _ _ _ _ _ _ Q) as Q'.
  destruct Q' as (<- & <- & Q'). destruct (bare_pfm_parts _ _ Q') as (P1 & P2 & P3 & P4 & P5).
  destruct (negb ok); [cbn; rewrite Q'; reflexivity|]. rewrite P2.
  destruct (resdet_fskip (pf_s c1') size buf) as [[e2 s]|]; cbn [bind]; [|exact I].
  destruct (negb (e2 =? 0)).
  - cbn. unfold bare_pfm. cbn. rewrite P1, P3, P4, P5. reflexivity.
  - apply IH. unfold bare_pfm. cbn. rewrite P1, P3, P4. reflexivity.
Qed.
Definition read_y4m_bare := read_bare bare_y4m.
Lemma bare_y4m_parts c c' : bare_y4m c = bare_y4m c' ->
  nameless (ym_file c) = nameless (ym_file c') /\ ym_s c = ym_s c' /\
  option_map (fun b : nat * Z => (0%nat, snd b)) (ym_buf c) = option_map (fun b => (0%nat, snd b)) (ym_buf c') /\
  ym_y c = ym_y c' /\ ym_uv c = ym_uv c' /\ ym_depth c = ym_depth c' /\ ym_seekable c = ym_seekable c'.
Proof. intros X. inversion X. auto 10. Qed.
Lemma bare_with c c' s : bare_y4m c = bare_y4m c' -> bare_y4m (with_stream c s) = bare_y4m (with_stream c' s).
Proof. intros X. destruct (bare_y4m_parts _ _ X) as (A & B & C & D & F & G & H). unfold bare_y4m, with_stream. cbn. rewrite A, C, D, F, G, H. reflexivity. Qed.
Lemma skip_buf_alike c c' : bare_y4m c = bare_y4m c' -> skip_buf c = skip_buf c'.
Proof.
  intros X. destruct (bare_y4m_parts _ _ X) as (A & B & C & D & F & G & H). unfold skip_buf. rewrite H.
  destruct (ym_buf c) as [[b n]|], (ym_buf c') as [[b' n']|]; cbn in C; inversion C; reflexivity.
Qed.
Lemma y4m_read_alike H c c' image w h : bare_y4m c = bare_y4m c' -> alike read_y4m_bare (y4m_read H c image w h) (y4m_read H c' image w h).
Proof.
  intros X. pose proof (bare_with c c') as BW. specialize (fun s => BW s X). destruct (bare_y4m_parts _ _ X) as (A & B & C & D & F & G & K).
  unfold y4m_read, read_y4m_bare. rewrite B. destruct (y4m_frame_header (ym_s c')) as [[ok e] s]. destruct (negb ok); [cbn; rewrite BW; reflexivity|].
  assert (EB : (match ym_buf c with Some (_, n) => Ok n | None => Undef NullDeref end) = (match ym_buf c' with Some (_, n) => Ok n | None => Undef NullDeref end)).
  { destruct (ym_buf c) as [[b n]|], (ym_buf c') as [[b' n']|]; cbn in C; inversion C; reflexivity. }
  rewrite EB. destruct (match ym_buf c' with Some (_, n) => Ok n | None => Undef NullDeref end) as [size|]; cbn [bind]; [|exact I].
  rewrite D, G, F, (skip_buf_alike _ _ X). destruct (ym_y c' >? size); [exact I|]. destruct (fread (ym_y c') s) as [l s1].
  destruct (negb (zlen l =? ym_y c')); [cbn; rewrite BW; reflexivity|]. destruct ((ym_depth c' <? 0) || (ym_depth c' >=? 32)); [exact I|].
  destruct (for_range _ _ _ _) as [im|]; cbn [bind]; [|exact I]. destruct (skip_buf c') as [sb|]; cbn [bind]; [|exact I].
  destruct (resdet_fskip _ _ _) as [[e2 s2]|]; cbn [bind]; [|exact I]. cbn. rewrite BW. reflexivity.
Qed.
Lemma y4m_skip_alike : forall n i calls c c', bare_y4m c = bare_y4m c' ->
  alike (skip_bare bare_y4m) (y4m_skip n i calls c) (y4m_skip n i calls c').
Proof.
  induction n as [|n IH]; intros i calls c c' X; cbn [y4m_skip]; [cbn; rewrite X; reflexivity|].
  pose proof (bare_with c c') as BW. specialize (fun s => BW s X). destruct (bare_y4m_parts _ _ X) as (A & B & C & D & F & G & K).
  rewrite B, D, F, (skip_buf_alike _ _ X). destruct (y4m_frame_header (ym_s c')) as [[ok e] s]. destruct (negb ok); [cbn; rewrite BW; reflexivity|].
  destruct (skip_buf c') as [sb|]; cbn [bind]; [|exact I]. destruct (resdet_fskip s (ym_y c') sb) as [[e2 s2]|]; cbn [bind]; [|exact I].
  destruct (negb (e2 =? 0)); [cbn; rewrite BW; reflexivity|]. destruct (resdet_fskip s2 (ym_uv c') sb) as [[e3 s3]|]; cbn [bind]; [|exact I].
  destruct (negb (e3 =? 0)); [cbn; rewrite BW; reflexivity|]. apply IH. apply BW.
Qed.

Lemma inj_pgm a b : CPgm a = CPgm b -> a = b. Proof. intros X. inversion X. reflexivity. Qed.
Lemma inj_pfm a b : CPfm a = CPfm b -> a = b. Proof. intros X. inversion X. reflexivity. Qed.
Lemma inj_y4m a b : CY4m a = CY4m b -> a = b. Proof. intros X. inversion X. reflexivity. Qed.
Lemma bare_image_parts im im' : bare_image im = bare_image im' ->
  bare (im_ctx im) = bare (im_ctx im') /\ im_width im = im_width im' /\ im_height im = im_height im'.
Proof. unfold bare_image. generalize (bare (im_ctx im)), (bare (im_ctx im')). intros x y X. inversion X. auto. Qed.
Lemma inj_some {A} (a b : A) : Some a = Some b -> a = b. Proof. intros X. inversion X. reflexivity. Qed.
Ltac parts Q := let q := fresh in pose proof (quadruple _ _ _ _ _ _ _ _ Q) as q; decompose [and] q; clear q; subst.
Ltac by_parts Q := parts Q;
  repeat match goal with X : ?f _ = ?f _ |- _ => rewrite X; clear X end; reflexivity.

Lemma reader_read_alike Y c c' image w h : bare c = bare c' -> alike (read_bare bare) (reader_read Y c image w h) (reader_read Y c' image w h).
Proof.
  destruct c as [c|c|c|x c], c' as [c'|c'|c'|x' c']; cbn [bare reader_read]; intros X; try discriminate X.
  - eapply alike_bind; [apply pgm_read_alike; apply inj_pgm; exact X|]. intros [[[ok e] im] c1] [[[ok' e'] im'] c1'] Q. cbn in *. by_parts Q.
  - eapply alike_bind; [apply pfm_read_alike; apply inj_pfm; exact X|]. intros [[[ok e] im] c1] [[[ok' e'] im'] c1'] Q. cbn in *. by_parts Q.
  - eapply alike_bind; [apply y4m_read_alike; apply inj_y4m; exact X|]. intros [[[ok e] im] c1] [[[ok' e'] im'] c1'] Q. cbn in *. by_parts Q.
  - inversion X. apply alike_refl.
Qed.

Lemma frame_alike Y im im' image : option_map bare_image im = option_map bare_image im' ->
  alike (fun r : bool * Z * option (list (option f32)) * option rdimage => let '(ok, e, l, i) := r in (ok, e, l, option_map bare_image i))
    (resdet_read_image_frame Y im image) (resdet_read_image_frame Y im' image).
Proof.
  intros X. unfold resdet_read_image_frame. destruct im as [im|], im' as [im'|]; cbn in X; try discriminate X; [|apply alike_refl].
  pose proof (bare_image_parts _ _ (inj_some _ _ X)) as X'.
  destruct X' as (X1 & X2 & X3). destruct image as [l|]; [|cbn; rewrite X; reflexivity]. rewrite X2, X3.
  eapply alike_bind; [apply reader_read_alike; exact X1|]. intros [[[ok e] l1] c1] [[[ok' e'] l1'] c1'] Q. cbn in *.
  unfold bare_image. cbn. by_parts Q.
Qed.

Section Seek.
Variables (E : env) (Y : system).
Hypothesis PL : plenty E.
Lemma alloc_plenty w : alloc (e_alloc E) w = (Some (w_count w), mkWorld (S (w_count w)) (w_count w :: w_live w) (w_nfile w) (w_files w)).
Proof using PL. unfold alloc. rewrite PL. reflexivity. Qed.
Lemma free_fresh w : free_block (w_count w) (mkWorld (S (w_count w)) (w_count w :: w_live w) (w_nfile w) (w_files w)) =
  Ok (mkWorld (S (w_count w)) (w_live w) (w_nfile w) (w_files w)).
Proof using. unfold free_block. cbn. rewrite Nat.eqb_refl. reflexivity. Qed.

Definition sought_bare {C} (b : C -> C) (r : bool * Z * list Z * C * world) := let '(ok, e, calls, c, _) := r in (ok, e, calls, b c).
Lemma pfm_seek_alike c c' offset w h wd wd' : bare_pfm c = bare_pfm c' ->
  alike (sought_bare bare_pfm) (pfm_seek E Y c offset w h wd) (pfm_seek E Y c' offset w h wd').
Proof using PL.
  intros X. destruct (bare_pfm_parts _ _ X) as (P1 & P2 & P3 & P4 & P5). unfold pfm_seek. cbv zeta beta. rewrite P4.
  set (size := wrap ((if pf_format c' =? 70 then wrap (wrap (w * h) * 3) else wrap (w * h)) * 4)).
  assert (Q : exists sk c1 c1', (if size <=? LONG_MAX then match fseek_cur 0 (pf_s c) with
      | (None, s) => (true, mkPfm (pf_blk c) (pf_file c) s (pf_scale c) (pf_format c') (pf_consumed c))
      | (Some _, s) => (false, mkPfm (pf_blk c) (pf_file c) s (pf_scale c) (pf_format c') (pf_consumed c)) end else (false, c)) = (sk, c1) /\
    (if size <=? LONG_MAX then match fseek_cur 0 (pf_s c') with
      | (None, s) => (true, mkPfm (pf_blk c') (pf_file c') s (pf_scale c') (pf_format c') (pf_consumed c'))
      | (Some _, s) => (false, mkPfm (pf_blk c') (pf_file c') s (pf_scale c') (pf_format c') (pf_consumed c')) end else (false, c')) = (sk, c1') /\
    bare_pfm c1 = bare_pfm c1').
  { rewrite P2. destruct (size <=? LONG_MAX); [|eexists _, _, _; split; [reflexivity|]; split; [reflexivity|exact X]].
    destruct (fseek_cur 0 (pf_s c')) as [[e|] s]; (eexists _, _, _; split; [reflexivity|]; split; [reflexivity|]);
    unfold bare_pfm; cbn; rewrite P1, P3, P5; reflexivity. }
  destruct Q as (sk & c1 & c1' & -> & -> & Q). rewrite !alloc_plenty.
  destruct sk; cbn [negb andb option_map].
  - eapply alike_bind; [apply pfm_skip_alike; exact Q|].
    intros [[[ok e] calls] c2] [[[ok' e'] calls'] c2'] Q2. cbn in *.
    pose proof (quadruple _ _ _ _ _ _ _ _ Q2) as Q3.
    destruct Q3 as (<- & <- & <- & Q3). destruct (bare_pfm_parts _ _ Q3) as (R1 & R2 & R3 & R4 & R5).
    unfold bare_pfm. cbn. rewrite R1, R2, R3, R4. reflexivity.
  - eapply alike_bind; [apply pfm_skip_alike; exact Q|].
    intros [[[ok e] calls] c2] [[[ok' e'] calls'] c2'] Q2. cbn [free_opt]. rewrite !free_fresh. cbn in *.
    pose proof (quadruple _ _ _ _ _ _ _ _ Q2) as Q3.
    destruct Q3 as (<- & <- & <- & Q3). destruct (bare_pfm_parts _ _ Q3) as (R1 & R2 & R3 & R4 & R5).
    unfold bare_pfm. cbn. rewrite R1, R2, R3, R4. reflexivity.
Qed.
Lemma reader_seek_alike c c' offset w h wd wd' : bare c = bare c' ->
  alike (sought_bare bare) (reader_seek E Y c offset w h wd) (reader_seek E Y c' offset w h wd').
Proof using PL.
  destruct c as [c|c|c|x c], c' as [c'|c'|c'|x' c']; cbn [bare reader_seek]; intros X; try discriminate X.
  - unfold pgm_seek. destruct c as [b f s eof d], c' as [b' f' s' eof' d']. apply inj_pgm in X. unfold bare_pgm in X. cbn in X. inversion X as [[X1 X2 X3 X4]]. subst. cbn.
    destruct (_ && _); cbn; unfold bare_pgm; cbn; rewrite X1; reflexivity.
  - eapply alike_bind; [apply pfm_seek_alike; apply inj_pfm; exact X|]. intros [[[[ok e] calls] c1] w1] [[[[ok' e'] calls'] c1'] w1'] Q. cbn in *. by_parts Q.
  - eapply alike_bind; [apply y4m_skip_alike; apply inj_y4m; exact X|]. intros [[[ok e] calls] c1] [[[ok' e'] calls'] c1'] Q. cbn in *. by_parts Q.
  - inversion X; subst. destruct (x_seek (y_ext Y x') c' offset) as [[[ok e] calls] c1]. reflexivity.
Qed.

Definition call_bare (r : image_reply * option rdimage * world) := let '(r, im, _) := r in (r, option_map bare_image im).
Lemma image_call_alike c im im' w w' : option_map bare_image im = option_map bare_image im' ->
  alike call_bare (do_image_call E Y c im w) (do_image_call E Y c im' w').
Proof using PL.
  intros X. destruct c as [buf|k]; cbn [do_image_call].
  - eapply alike_bind; [apply frame_alike; exact X|]. intros [[[ok e] l] i] [[[ok' e'] l'] i'] Q. cbn in *. by_parts Q.
  - unfold resdet_seek_frame. destruct im as [im|], im' as [im'|]; cbn in X; try discriminate X; [|reflexivity].
    pose proof (bare_image_parts _ _ (inj_some _ _ X)) as X'.
    destruct X' as (X1 & X2 & X3). rewrite X2, X3.
    eapply alike_bind with (f := fun r : bool * Z * list Z * option rdimage * world => let '(ok, e, calls, i, _) := r in (ok, e, calls, option_map bare_image i)).
    + eapply alike_bind; [apply reader_seek_alike; exact X1|]. intros [[[[ok e] calls] c1] w1] [[[[ok' e'] calls'] c1'] w1'] Q. cbn in *.
      unfold bare_image. cbn. by_parts Q.
    + intros [[[[ok e] calls] i1] w1] [[[[ok' e'] calls'] i1'] w1'] Q. cbn in *. by_parts Q.
Qed.

(** *** Opening *)
Hypothesis ST : steady Y.
Definition opened_bare {C} (b : C -> C) (r : option C * Z * Z * Z * world) := let '(c, w, h, e, _) := r in (option_map b c, w, h, e).
Lemma open_stream_alike f w w' : f <> "-"%string ->
  match open_stream Y f w, open_stream Y f w' with
  | (inl (n, s), _), (inl (n', s'), _) => nameless n = nameless n' /\ s = s'
  | (inr e, _), (inr e', _) => e = e'
  | _, _ => False
  end.
Proof using ST.
  intros N. unfold open_stream. destruct (String.eqb_spec f "-"); [contradiction|]. destruct ST as (S1 & _).
  rewrite (S1 (w_count w) (w_count w') f). destruct (y_fopen Y (w_count w') f); cbn; auto.
Qed.
(** both succeed *)
Definition both {A B} (f : A -> B) (r r' : res A) : Prop := forall a a', r = Ok a -> r' = Ok a' -> f a = f a'.
Lemma both_bind {A B C D} (f : A -> B) (g : C -> D) (r r' : res A) (k k' : A -> res C) :
  both f r r' -> (forall a a', f a = f a' -> both g (k a) (k' a')) -> both g (bind r k) (bind r' k').
Proof using. intros H K c c'. destruct r, r'; cbn; try discriminate. apply K. apply H; reflexivity. Qed.
Lemma both_any {A B C} (g : A -> B) (r r' : res C) (k k' : C -> res A) :
  (forall c c', both g (k c) (k' c')) -> both g (bind r k) (bind r' k').
Proof using. intros K a a'. destruct r, r'; cbn; try discriminate. apply K. Qed.
Lemma both_same {A B C} (g : A -> B) (r : res C) (k k' : C -> res A) :
  (forall c, both g (k c) (k' c)) -> both g (bind r k) (bind r k').
Proof using. intros K a a'. destruct r; cbn; try discriminate. apply K. Qed.
Lemma both_ok {A B} (f : A -> B) a a' : f a = f a' -> both f (Ok a) (Ok a').
Proof using. intros H x y X X'. inversion X. inversion X'. subst. exact H. Qed.

Lemma pgm_open_both f w w' : f <> "-"%string -> both (opened_bare bare_pgm) (pgm_open E Y f w) (pgm_open E Y f w').
Proof using PL ST.
  intros N. unfold pgm_open. rewrite !alloc_plenty.
  set (v := mkWorld _ _ _ _). set (v' := mkWorld (S (w_count w')) _ _ _). pose proof (open_stream_alike f v v' N) as O.
  destruct (open_stream Y f v) as [[[n s]|e] u], (open_stream Y f v') as [[[n' s']|e'] u']; try contradiction.
  - destruct O as (O & <-). apply both_same. intros [h s1]. destruct h as [[[wd ht] d]|].
    + apply both_ok. cbn. unfold bare_pgm. cbn. rewrite O. reflexivity.
    + apply both_any. intros. apply both_ok. reflexivity.
  - subst. apply both_any. intros. apply both_ok. reflexivity.
Qed.
Lemma pfm_open_both f w w' : f <> "-"%string -> both (opened_bare bare_pfm) (pfm_open E Y f w) (pfm_open E Y f w').
Proof using PL ST.
  intros N. unfold pfm_open. rewrite !alloc_plenty.
  set (v := mkWorld _ _ _ _). set (v' := mkWorld (S (w_count w')) _ _ _). pose proof (open_stream_alike f v v' N) as O.
  destruct (open_stream Y f v) as [[[n s]|e] u], (open_stream Y f v') as [[[n' s']|e'] u']; try contradiction.
  - destruct O as (O & <-). apply both_same. intros [h s1]. destruct h as [[fm [[wd ht] d]]|].
    + apply both_ok. cbn. unfold bare_pfm. cbn. rewrite O. reflexivity.
    + apply both_any. intros. apply both_ok. reflexivity.
  - subst. apply both_any. intros. apply both_ok. reflexivity.
Qed.
Lemma y4m_open_both f w w' : f <> "-"%string -> both (opened_bare bare_y4m) (y4m_open E Y f w) (y4m_open E Y f w').
Proof using PL ST.
  intros N. unfold y4m_open. rewrite !alloc_plenty.
  set (v := mkWorld _ _ _ _). set (v' := mkWorld (S (w_count w')) _ _ _). pose proof (open_stream_alike f v v' N) as O.
  destruct (open_stream Y f v) as [[[n s]|e] u], (open_stream Y f v') as [[[n' s']|e'] u']; try contradiction.
  2:{ subst. apply both_any. intros. apply both_ok. reflexivity. }
  destruct O as (O & <-). rewrite !alloc_plenty.
  assert (FAIL : forall (a b : res world) wd ht e, both (opened_bare bare_y4m)
    (x <- a ;; Ok (None, wd, ht, e, x)) (x <- b ;; Ok (None, wd, ht, e, x))).
  { intros. apply both_any. intros. apply both_ok. reflexivity. }
  destruct (fread 10 s) as [magic s1]. destruct (negb _); [apply FAIL|].
  apply both_same. intros [h s2]. destruct h as [[[wd ht] csp]|]; [|apply FAIL].
  destruct ((wd =? 0) || (ht =? 0)); [apply FAIL|]. apply both_same. intros big. destruct big; [apply FAIL|].
  apply both_same. intros cs. destruct cs as [[uv depth]|]; [|apply FAIL].
  destruct ((depth <? 8) || (depth >? 16)); [apply FAIL|]. destruct (SIZE_MAX / ((depth + 7) / 8) <? _); [apply FAIL|].
  destruct (if _ <=? LONG_MAX then _ else _) as [sk s3]. apply both_ok. cbn. unfold bare_y4m. cbn. rewrite O. reflexivity.
Qed.
Lemma map_open_both {A} (k : A -> context) (b : A -> A) m m' : (forall a, bare (k a) = k (b a)) ->
  both (opened_bare b) m m' -> both (opened_bare bare) (map_open k m) (map_open k m').
Proof using.
  intros K H. unfold map_open. eapply both_bind; [exact H|]. intros [[[[c wd] ht] e] u] [[[[c' wd'] ht'] e'] u'] X.
  apply both_ok. cbn in *. pose proof (quadruple _ _ _ _ _ _ _ _ X) as X'.
  destruct X' as (X1 & -> & -> & ->). destruct c, c'; cbn in *; try discriminate X1; [|reflexivity].
  rewrite !K. inversion X1 as [X2]. rewrite X2. reflexivity.
Qed.
Lemma reader_open_both r f w w' : f <> "-"%string -> both (opened_bare bare) (reader_open E Y r f w) (reader_open E Y r f w').
Proof using PL ST.
  intros N. destruct r as [| | |x]; cbn [reader_open].
  - eapply map_open_both; [|apply pgm_open_both; exact N]. reflexivity.
  - eapply map_open_both; [|apply pfm_open_both; exact N]. reflexivity.
  - eapply map_open_both; [|apply y4m_open_both; exact N]. reflexivity.
  - destruct ST as (_ & S2). rewrite (S2 x (w_count w) (w_count w') f). destruct (x_open _ _ _) as [[[c wd] ht]|e]; apply both_ok; reflexivity.
Qed.
Definition bare_opened (o : opened) :=
  let '(im, wd, ht, buf, e, _) := o in (option_map bare_image im, wd, ht, contents buf, e).
Lemma open_image_both r f want w w' : f <> "-"%string -> both bare_opened (open_image E Y r f want w) (open_image E Y r f want w').
Proof using PL ST.
  intros N. unfold open_image. rewrite !alloc_plenty. destruct r as [r|].
  2:{ apply both_any. intros. apply both_ok. reflexivity. }
  eapply both_bind; [apply reader_open_both; exact N|].
  intros [[[[c wd] ht] e] u] [[[[c' wd'] ht'] e'] u'] X. cbn in X.
  pose proof (quadruple _ _ _ _ _ _ _ _ X) as X'.
  destruct X' as (X1 & <- & <- & <-).
  assert (FAIL : forall (a b : res world) (k k' : world -> res world) e, both bare_opened
    (w <- a ;; w <- k w ;; Ok (None, 0, 0, None, e, w)) (w <- b ;; w <- k' w ;; Ok (None, 0, 0, None, e, w))).
  { intros. apply both_any. intros. apply both_any. intros. apply both_ok. reflexivity. }
  destruct (negb (e =? 0)); [apply FAIL|]. apply both_same. intros big. destruct big; [apply FAIL|].
  destruct c as [c|], c' as [c'|]; cbn in X1; try discriminate X1.
  - rewrite !alloc_plenty. inversion X1 as [X2]. destruct want; apply both_ok; cbn; unfold bare_image; cbn; rewrite X2; reflexivity.
  - intros a a' Q. discriminate Q.
Qed.
Lemma open_by_both R filename o ptrs want w w' : filename <> Some "-"%string ->
  both bare_opened (open_by R E Y filename o ptrs want w) (open_by R E Y filename o ptrs want w').
Proof using PL ST.
  intros N. destruct o as [t|n]; cbn [open_by].
  - unfold resdet_open_image. destruct (negb ptrs); [apply both_ok; reflexivity|]. destruct filename as [f|]; [|apply both_ok; reflexivity].
    apply both_same. intros r. apply open_image_both. congruence.
  - unfold resdet_open_image_with_reader. destruct (negb ptrs); [apply both_ok; reflexivity|]. destruct filename as [f|]; [|apply both_ok; reflexivity].
    destruct n as [n|]; [|apply both_ok; reflexivity]. apply both_same. intros i. apply both_same. intros r. apply open_image_both. congruence.
Qed.
End Seek.

(** ** Two clients in the same place *)
Definition told_did (did : list (call * reply)) : list told := map (fun '(_, r) => tell r) did.
Definition sim (E : env) (s s' : stage) : Prop :=
  match s, s' with
  | Waiting t, Waiting t' => t = t'
  | InAnalysis (Some a) did cs, InAnalysis (Some a') did' cs' =>
      told_did did = told_did did' /\ cs = cs' /\
      exists m w h p xs ys n, an_state E a m w h p xs ys n /\ an_state E a' m w h p xs ys n /\
        params_ok p /\ Forall (call_ok w h) cs /\ 0 <= n /\ n + zlen cs < SIZE_MAX
  | AfterAnalysis e did, AfterAnalysis e' did' => e = e' /\ told_did did = told_did did'
  | InImage im width height buf e rs cs, InImage im' width' height' buf' e' rs' cs' =>
      option_map bare_image im = option_map bare_image im' /\ width = width' /\ height = height' /\
      contents buf = contents buf' /\ e = e' /\ rs = rs' /\ cs = cs'
  | AfterImage ok width height buf e rs, AfterImage ok' width' height' buf' e' rs' =>
      ok = ok' /\ width = width' /\ height = height' /\ contents buf = contents buf' /\ e = e' /\ rs = rs'
  | _, _ => False
  end.
Lemma sim_account E s s' : sim E s s' -> account_of s = account_of s'.
Proof.
  destruct s as [t|[a|] did cs|e did|im wd ht buf e rs cs|ok wd ht buf e rs], s' as [t'|[a'|] did' cs'|e' did'|im' wd' ht' buf' e' rs' cs'|ok' wd' ht' buf' e' rs'];
    cbn; try contradiction; try reflexivity.
  - intros (-> & H). unfold told_did in H. rewrite H. reflexivity.
  - intros (-> & -> & -> & -> & -> & ->). reflexivity.
Qed.

Section Same.
Variables (R : readers) (E : env) (Y : system).
Hypothesis HE : env_ok E.
Hypothesis PL : plenty E.
Hypothesis ST : steady Y.

Lemma no_failure : ~ exists k, e_alloc E k = false.
Proof using PL. intros (k & X). rewrite PL in X. discriminate X. Qed.
Lemma told_snoc did c r did' c' r' : told_did did = told_did did' -> tell r = tell r' -> told_did (did ++ [(c, r)]) = told_did (did' ++ [(c', r')]).
Proof using. unfold told_did. rewrite !map_app. intros -> H. cbn. rewrite H. reflexivity. Qed.

Lemma advance_sim t s s' w w' s1 s1' w1 w1' :
  task_ok R E Y t -> (forall u, s = Waiting u -> u = t) -> sim E s s' ->
  advance R E Y s w = Ok (s1, w1) -> advance R E Y s' w' = Ok (s1', w1') -> sim E s1 s1'.
Proof using HE PL ST.
  pose proof (eo_config _ HE) as CF. intros T IT S A A'.
  destruct s as [u|[a|] did cs|e did|im wd ht buf e rs cs|ok wd ht buf e rs], s' as [u'|[a'|] did' cs'|e' did'|im' wd' ht' buf' e' rs' cs'|ok' wd' ht' buf' e' rs'];
    cbn [sim] in S; try contradiction.
  - subst u'. rewrite (IT u eq_refl) in *. clear IT u. destruct t as [m wd ht p cs|filename o ptrs want cs]; cbn [advance] in A, A'.
    + destruct T as (C & FC & N). destruct (client_sizes _ _ _ _ C) as (Hw & Hh). pose proof (client_valid _ _ _ _ C) as V.
      apply (proj1 (countable_zlen _)) in N.
      destruct (effective_ok (e_cfg E) (the_method m) p CF V) as (PO & _).
      destruct (create_ok E m wd ht p w CF Hw Hh V) as (ao & e & v & EQ & O). rewrite EQ in A. cbn [bind] in A.
      destruct (create_ok E m wd ht p w' CF Hw Hh V) as (ao' & e' & v' & EQ' & O'). rewrite EQ' in A'. cbn [bind] in A'.
      assert (NF := no_failure).
      assert (X0 : forall e, create_error E wd ht e -> ~ plan_fits E wd ht /\ e = if (wd =? 0) || (ht =? 0) then RDEINVAL else RDETOOBIG).
      { intros x [(_ & X)|[(_ & _ & X)|[(-> & X)|(-> & X1 & X2 & X3)]]]; try contradiction.
        - split; [intros (F1 & F2 & _); lia|]. replace ((wd =? 0) || (ht =? 0)) with true by lia. reflexivity.
        - split; [exact X3|]. replace ((wd =? 0) || (ht =? 0)) with false by lia. reflexivity. }
      destruct ao as [a|], ao' as [a'|].
      * inversion A; inversion A'; subst. cbn. split; [reflexivity|]. split; [reflexivity|].
        destruct O as (_ & _ & S & _), O' as (_ & _ & S' & _). do 7 eexists. split; [exact S|]. split; [exact S'|]. split; [exact PO|]. split; [exact FC|]. unfold SIZE_MAX in *. lia.
      * destruct O as (_ & F & _), O' as (X & _). apply X0 in X. tauto.
      * destruct O' as (_ & F & _), O as (X & _). apply X0 in X. tauto.
      * inversion A; inversion A'; subst. cbn. destruct O as (X & _), O' as (X' & _).
        apply X0 in X. apply X0 in X'. destruct X as (_ & ->), X' as (_ & ->). auto.
    + destruct T as (NS & _). pose proof (open_by_both E Y PL ST R filename o ptrs want w w' NS) as B.
      destruct (open_by R E Y filename o ptrs want w) as [[[[[[im wd] ht] buf] e] v]|]; [|discriminate A].
      destruct (open_by R E Y filename o ptrs want w') as [[[[[[im' wd'] ht'] buf'] e'] v']|]; [|discriminate A'].
      cbn [bind] in A, A'. inversion A; inversion A'; subst. specialize (B _ _ eq_refl eq_refl). cbn in B.
      assert (B' : forall A B C D F (a a' : A) (b b' : B) (c c' : C) (d d' : D) (f f' : F), (a, b, c, d, f) = (a', b', c', d', f') -> a = a' /\ b = b' /\ c = c' /\ d = d' /\ f = f').
      { intros. match goal with X : _ = _ |- _ => inversion X; auto 10 end. }
      apply B' in B. cbn. intuition.
  - destruct S as (TD & <- & m & wd & ht & p & xs & ys & n & S & S' & PO & FC & Hn & HN).
    destruct cs as [|c cs]; cbn [advance] in A, A'.
    + destruct (resdet_destroy_analysis (Some a) w); [|discriminate A]. destruct (resdet_destroy_analysis (Some a') w'); [|discriminate A'].
      inversion A; inversion A'; subst. cbn. auto.
    + inversion FC as [|? ? Hc FC']; subst. rewrite zlen_cons in HN. pose proof (zlen_nonneg cs).
      assert (STEP : forall r a1 v r' a1' v', do_call E c (Some a) w = Ok (r, a1, v) -> do_call E c (Some a') w' = Ok (r', a1', v') ->
        tell r = tell r' /\ exists b b' xs' ys' n', a1 = Some b /\ a1' = Some b' /\ an_state E b m wd ht p xs' ys' n' /\ an_state E b' m wd ht p xs' ys' n' /\ 0 <= n' <= n + 1).
      { intros r a1 v r' a1' v' D D'. assert (NF := no_failure). destruct c as [image|q o]; cbn [do_call] in D, D'.
        - destruct (analyze_ok E a m wd ht p xs ys n image w HE S Hc ltac:(lia)) as (e & b & u & EQ & _ & _ & _ & _ & K).
          destruct (analyze_ok E a' m wd ht p xs ys n image w' HE S' Hc ltac:(lia)) as (e' & b' & u' & EQ' & _ & _ & _ & _ & K').
          rewrite EQ in D. rewrite EQ' in D'. cbn [bind] in D, D'. inversion D; inversion D'; subst.
          destruct (forallb ffinite (firstn (Z.to_nat (wd * ht)) image)).
          + destruct K as [(-> & K)|(_ & _ & X & _)]; [|contradiction]. destruct K' as [(-> & K')|(_ & _ & X & _)]; [|contradiction].
            split; [reflexivity|]. do 5 eexists. do 2 (split; [reflexivity|]). split; [exact K|]. split; [exact K'|]. lia.
          + destruct K as (-> & K), K' as (-> & K'). split; [reflexivity|]. do 5 eexists. do 2 (split; [reflexivity|]). split; [exact K|]. split; [exact K'|]. lia.
        - destruct (results_ok E a m wd ht p xs ys n HE S (po_filter _ PO) ltac:(lia) q o w) as (e & o1 & u & EQ & K).
          destruct (results_ok E a' m wd ht p xs ys n HE S' (po_filter _ PO) ltac:(lia) q o w') as (e' & o1' & u' & EQ' & K').
          rewrite EQ in D. rewrite EQ' in D'. cbn [bind] in D, D'. inversion D; inversion D'; subst.
          split; [|exists a, a', xs, ys, n; do 2 (split; [reflexivity|]); split; [exact S|]; split; [exact S'|]; lia].
          cbn [tell].
          destruct K as [(-> & K1 & -> & _)|[(-> & K1 & K2 & -> & _)|[(_ & _ & _ & _ & _ & X)|(-> & K1 & K2 & bs & F & _)]]]; [| |contradiction|].
          + destruct K' as [(-> & _ & -> & _)|[(_ & X & _)|[(_ & X & _)|(_ & X & _)]]]; [reflexivity|congruence|congruence|congruence].
          + destruct K' as [(_ & X & _)|[(-> & _ & _ & -> & _)|[(_ & _ & X & _)|(_ & _ & X & _)]]]; [congruence|reflexivity|lia|lia].
          + destruct K' as [(_ & X & _)|[(_ & _ & X & _)|[(_ & _ & _ & _ & _ & X)|(-> & _ & _ & bs' & F' & _)]]]; [congruence|lia|contradiction|].
            destruct F as (bx & by_ & F1 & F2 & F3 & F4 & _), F' as (bx' & by_' & F1' & F2' & F3' & F4' & _).
            rewrite F1, F2, F3, F4, F1', F2', F3', F4'. destruct (want_rw q), (want_rh q); reflexivity. }
      destruct (do_call E c (Some a) w) as [[[r a1] v]|]; [|discriminate A]. destruct (do_call E c (Some a') w') as [[[r' a1'] v']|]; [|discriminate A'].
      cbn [bind] in A, A'. inversion A; inversion A'; subst.
      destruct (STEP _ _ _ _ _ _ eq_refl eq_refl) as (TL & b & b' & xs' & ys' & n' & -> & -> & Sb & Sb' & Hn').
      split; [apply told_snoc; assumption|]. split; [reflexivity|]. exists m, wd, ht, p, xs', ys', n'.
      split; [exact Sb|]. split; [exact Sb'|]. split; [exact PO|]. split; [exact FC'|]. lia.
  - inversion A; inversion A'; subst. exact S.
  - destruct S as (S & <- & <- & C & <- & <- & <-). destruct cs as [|c cs]; cbn [advance] in A, A'.
    + destruct (resdet_close_image im w); [|discriminate A]. destruct (resdet_close_image im' w'); [|discriminate A'].
      inversion A; inversion A'; subst. cbn. destruct im, im'; try discriminate S; cbn; auto 10.
    + pose proof (image_call_alike E Y PL c im im' w w' S) as B.
      destruct (do_image_call E Y c im w) as [[[r i] v]|]; [|discriminate A]. destruct (do_image_call E Y c im' w') as [[[r' i'] v']|]; [|discriminate A'].
      cbn [bind] in A, A'. inversion A; inversion A'; subst. cbn in B.
      assert (B' : r = r' /\ option_map bare_image i = option_map bare_image i').
      { revert B. generalize (option_map bare_image i), (option_map bare_image i'). intros x y B. inversion B. auto. }
      destruct B' as (-> & B'). cbn. auto 10.
  - inversion A; inversion A'; subst. exact S.
Qed.
End Same.

(** ** One client alone, call by call *)
Fixpoint steps (R : readers) (E : env) (Y : system) (n : nat) (s : stage) (w : world) : res (stage * world) :=
  match n with
  | O => Ok (s, w)
  | S n => '(s, w) <- advance R E Y s w ;; steps R E Y n s w
  end.
Lemma steps_snoc R E Y : forall n s w, steps R E Y (S n) s w = '(s, w) <- steps R E Y n s w ;; advance R E Y s w.
Proof.
  induction n as [|n IH]; intros s w.
  - cbn. destruct (advance R E Y s w) as [[s1 w1]|]; reflexivity.
  - change (steps R E Y (S (S n)) s w) with ('(s, w) <- advance R E Y s w ;; steps R E Y (S n) s w).
    cbn [steps]. destruct (advance R E Y s w) as [[s1 w1]|]; [|reflexivity]. cbn [bind]. apply IH.
Qed.
Lemma steps_done R E Y s w : account_of s <> None -> forall n, steps R E Y n s w = Ok (s, w).
Proof.
  intros D. induction n as [|n IH]; [reflexivity|]. cbn [steps].
  replace (advance R E Y s w) with (@Ok (stage * world) (s, w)); [exact IH|].
  destruct s; cbn in *; try congruence; reflexivity.
Qed.
Lemma steps_add R E Y : forall n k s w, steps R E Y (n + k) s w = '(s, w) <- steps R E Y n s w ;; steps R E Y k s w.
Proof.
  induction n as [|n IH]; intros k s w; [reflexivity|]. cbn [steps Nat.add].
  destruct (advance R E Y s w) as [[s1 w1]|]; [|reflexivity]. cbn [bind]. apply IH.
Qed.
Lemma steps_calls R E Y : forall cs a did w,
  steps R E Y (S (length cs)) (InAnalysis a did cs) w =
  ('(rs, a, w) <- do_calls E cs a w ;; w <- resdet_destroy_analysis a w ;; Ok (AfterAnalysis RDEOK (did ++ combine cs rs), w)).
Proof.
  induction cs as [|c cs IH]; intros a did w.
  - cbn [length steps advance do_calls bind combine]. rewrite app_nil_r. destruct (resdet_destroy_analysis a w); reflexivity.
  - change (steps R E Y (S (length (c :: cs))) (InAnalysis a did (c :: cs)) w)
      with ('(s, w) <- advance R E Y (InAnalysis a did (c :: cs)) w ;; steps R E Y (S (length cs)) s w).
    cbn [advance do_calls]. destruct (do_call E c a w) as [[[r a1] w1]|]; [|reflexivity]. cbn [bind]. rewrite IH.
    destruct (do_calls E cs a1 w1) as [[[rs a2] w2]|]; [|reflexivity]. cbn [bind combine].
    rewrite <- app_assoc. reflexivity.
Qed.
Lemma do_calls_length E : forall cs a w rs a' w', do_calls E cs a w = Ok (rs, a', w') -> length rs = length cs.
Proof.
  induction cs as [|c cs IH]; intros a w rs a' w' H; cbn [do_calls] in H; [inversion H; reflexivity|].
  destruct (do_call E c a w) as [[[r a1] w1]|]; [|discriminate H]. cbn [bind] in H.
  destruct (do_calls E cs a1 w1) as [[[rs1 a2] w2]|] eqn:Q; [|discriminate H]. cbn [bind] in H. inversion H. cbn. f_equal. eapply IH; exact Q.
Qed.
Lemma told_combine : forall cs rs, length rs = length cs -> told_did (combine cs rs) = map tell rs.
Proof. induction cs as [|c cs IH]; intros [|r rs] H; try discriminate H; [reflexivity|]. cbn. f_equal. apply IH. cbn in H. lia. Qed.
Lemma steps_image R E Y wd ht buf e : forall cs im rs0 w, exists f,
  steps R E Y (S (length cs)) (InImage im wd ht buf e rs0 cs) w =
  ('(rs, im', w) <- do_image_calls E Y cs im w ;; w <- resdet_close_image im' w ;; Ok (AfterImage (f im') wd ht buf e (rs0 ++ rs), w)) /\
  forall rs im' w', do_image_calls E Y cs im w = Ok (rs, im', w') -> f im' = present im.
Proof.
  assert (KEEP : forall c im w r im' w', do_image_call E Y c im w = Ok (r, im', w') -> present im' = present im).
  { intros c im w r im' w' H. destruct c as [buf0|k]; cbn [do_image_call] in H.
    - unfold resdet_read_image_frame in H. destruct im as [im|], buf0 as [l|]; cbn [bind] in H; try (inversion H; reflexivity).
      destruct (reader_read _ _ _ _ _) as [[[[ok e0] l1] c1]|]; [|discriminate H]. cbn [bind] in H. inversion H. reflexivity.
    - unfold resdet_seek_frame in H. destruct im as [im|]; cbn [bind] in H; [|inversion H; reflexivity].
      destruct (reader_seek _ _ _ _ _ _ _) as [[[[[ok e0] l1] c1] v]|]; [|discriminate H]. cbn [bind] in H. inversion H. reflexivity. }
  assert (KEEPS : forall cs im w rs im' w', do_image_calls E Y cs im w = Ok (rs, im', w') -> present im' = present im).
  { induction cs as [|c cs IH]; intros im w rs im' w' H; cbn [do_image_calls] in H; [inversion H; reflexivity|].
    destruct (do_image_call E Y c im w) as [[[r i1] w1]|] eqn:Q; [|discriminate H]. cbn [bind] in H.
    destruct (do_image_calls E Y cs i1 w1) as [[[rs1 i2] w2]|] eqn:Q2; [|discriminate H]. cbn [bind] in H. inversion H. subst.
    rewrite (IH _ _ _ _ _ Q2). eapply KEEP; exact Q. }
  intros cs im rs0 w. exists present. split; [|apply KEEPS].
  revert im rs0 w. induction cs as [|c cs IH]; intros im rs0 w.
  - cbn [length steps advance do_image_calls bind]. rewrite app_nil_r. destruct (resdet_close_image im w); reflexivity.
  - change (steps R E Y (S (length (c :: cs))) (InImage im wd ht buf e rs0 (c :: cs)) w)
      with ('(s, w) <- advance R E Y (InImage im wd ht buf e rs0 (c :: cs)) w ;; steps R E Y (S (length cs)) s w).
    cbn [advance do_image_calls]. destruct (do_image_call E Y c im w) as [[[r i1] w1]|]; [|reflexivity]. cbn [bind]. rewrite IH.
    destruct (do_image_calls E Y cs i1 w1) as [[[rs i2] w2]|]; [|reflexivity]. cbn [bind]. rewrite <- app_assoc. reflexivity.
Qed.
Lemma alone_steps R E Y t s w : config_ok (e_cfg E) = true -> task_ok R E Y t -> steps R E Y (calls_of t) (Waiting t) world0 = Ok (s, w) ->
  exists acc, account_of s = Some acc /\ alone R E Y t = Ok acc.
Proof.
  intros CF TO. destruct t as [m wd ht p cs|filename o ptrs want cs]; intros H.
  - destruct TO as (C0 & _). destruct (client_sizes _ _ _ _ C0) as (Hw & Hh). pose proof (client_valid _ _ _ _ C0) as V.
    change (steps R E Y (calls_of (Analysing m wd ht p cs)) (Waiting (Analysing m wd ht p cs)) world0) with
      ('(s, w) <- advance R E Y (Waiting (Analysing m wd ht p cs)) world0 ;; steps R E Y (S (length cs)) s w) in H.
    cbn [advance] in H. cbn [alone]. unfold program.
    destruct (create_ok E m wd ht p world0 CF Hw Hh V) as (ao & e & w1 & EQ & C). rewrite EQ in *.
    destruct ao as [a|]; cbn [bind] in *.
    + destruct C as (-> & _).
      rewrite steps_calls in H. destruct (do_calls E cs (Some a) w1) as [[[rs a'] w2]|] eqn:Q; [|discriminate H]. cbn [bind] in *.
      destruct (resdet_destroy_analysis a' w2) as [w3|]; [|discriminate H]. cbn [bind] in *. inversion H; subst.
      eexists. split; [reflexivity|]. cbn [app]. pose proof (told_combine _ _ (do_calls_length _ _ _ _ _ _ _ Q)) as TC. unfold told_did in TC. rewrite TC.
      reflexivity.
    + rewrite steps_done in H by discriminate. inversion H; subst. eexists. split; reflexivity.
  - change (steps R E Y (calls_of (Reading filename o ptrs want cs)) (Waiting (Reading filename o ptrs want cs)) world0) with
      ('(s, w) <- advance R E Y (Waiting (Reading filename o ptrs want cs)) world0 ;; steps R E Y (S (length cs)) s w) in H.
    cbn [advance] in H. cbn [alone]. unfold image_program. destruct (open_by R E Y filename o ptrs want world0) as [[[[[[im wd] ht] buf] e] w1]|]; [|discriminate H]; cbn [bind] in *.
    destruct (steps_image R E Y wd ht buf e cs im [] w1) as (f & Q & F). rewrite Q in H.
    destruct (do_image_calls E Y cs im w1) as [[[rs im'] w2]|]; [|discriminate H]. specialize (F _ _ _ eq_refl). cbn [bind] in *.
    destruct (resdet_close_image im' w2) as [w3|]; [|discriminate H]. cbn [bind] in *. inversion H; subst.
    eexists. split; [reflexivity|]. rewrite F. reflexivity.
Qed.

(** ** All clients *)
(** calls a client still has to make *)
Definition left_to_do (s : stage) : nat :=
  match s with
  | Waiting t => calls_of t
  | InAnalysis _ _ cs => S (length cs)
  | InImage _ _ _ _ _ _ cs => S (length cs)
  | _ => 0
  end.
Lemma advance_left R E Y s w s' w' : advance R E Y s w = Ok (s', w') -> (left_to_do s' <= left_to_do s - 1)%nat.
Proof.
  intros H. destruct s as [[m wd ht p cs|fn o pt wt cs]|a did [|c cs]|e did|im wd ht buf e rs [|c cs]|ok wd ht buf e rs]; cbn [advance] in H.
  - destruct (resdet_create_analysis E m wd ht p w) as [[[[a|] e] w1]|]; cbn [bind] in H; inversion H; cbn; lia.
  - destruct (open_by R E Y fn o pt wt w) as [[[[[[im wd] ht] buf] e] w1]|]; cbn [bind] in H; inversion H; cbn; lia.
  - destruct (resdet_destroy_analysis a w); cbn [bind] in H; inversion H; cbn; lia.
  - destruct (do_call E c a w) as [[[r a1] w1]|]; cbn [bind] in H; inversion H; cbn; lia.
  - inversion H; cbn; lia.
  - destruct (resdet_close_image im w); cbn [bind] in H; inversion H; cbn; lia.
  - destruct (do_image_call E Y c im w) as [[[r i1] w1]|]; cbn [bind] in H; inversion H; cbn; lia.
  - inversion H; cbn; lia.
Qed.
Lemma left_done s : left_to_do s = 0%nat <-> account_of s <> None.
Proof. destruct s as [[]| | | |]; cbn; split; intros; try discriminate; try congruence; try reflexivity. Qed.
Lemma done_nothing s : account_of s <> None -> private s = [] /\ files_of s = [].
Proof. destruct s as [[]| | | |]; cbn; intros; try congruence; split; reflexivity. Qed.

Lemma put_middle {A} (l1 : list A) a b l2 : put (l1 ++ a :: l2) (length l1) b = l1 ++ b :: l2.
Proof. induction l1 as [|x l1 IH]; cbn; [reflexivity|]. rewrite IH. reflexivity. Qed.
Lemma put_length {A} : forall (l : list A) i a, length (put l i a) = length l.
Proof. induction l as [|b l IH]; intros [|i] a; cbn; auto. Qed.
Lemma put_same {A} : forall (l : list A) i a b, nth_error l i = Some b -> nth_error (put l i a) i = Some a.
Proof. induction l as [|c l IH]; intros [|i] a b H; cbn in *; try discriminate; [reflexivity|]. eapply IH; exact H. Qed.
Lemma put_other {A} : forall (l : list A) i j a, i <> j -> nth_error (put l i a) j = nth_error l j.
Proof. induction l as [|c l IH]; intros [|i] [|j] a H; cbn; try reflexivity; try congruence. apply IH. congruence. Qed.

(** memory and files of all clients *)
Definition all_hold (w w0 : world) (ss : list stage) (lost : list nat) : Prop :=
  holds w w0 (flat_map private ss ++ flat_map given ss ++ lost) (flat_map files_of ss).
Lemma holds_perm w w0 bs bs' fs fs' : Permutation bs bs' -> Permutation fs fs' -> holds w w0 bs fs -> holds w w0 bs' fs'.
Proof.
  intros P Q (A & B). split.
  - eapply Permutation_trans; [exact A|]. apply Permutation_app_tail. exact P.
  - eapply Permutation_trans; [exact B|]. apply Permutation_app_tail. exact Q.
Qed.
Lemma out_of_turn {A} (a b c d e f g : list A) :
  Permutation ((a ++ b ++ c) ++ (d ++ e ++ f) ++ g) (b ++ e ++ (a ++ c ++ d ++ f ++ g)).
Proof.
  rewrite <- !app_assoc. eapply Permutation_trans; [apply Permutation_app_swap_app|]. apply Permutation_app_head.
  replace (a ++ c ++ d ++ e ++ f ++ g) with ((a ++ c ++ d) ++ e ++ f ++ g) by (rewrite <- !app_assoc; reflexivity).
  eapply Permutation_trans; [apply Permutation_app_swap_app|]. apply Permutation_app_head. rewrite <- !app_assoc. reflexivity.
Qed.
Lemma flat_map_middle {A B} (f : A -> list B) l1 a l2 : flat_map f (l1 ++ a :: l2) = flat_map f l1 ++ f a ++ flat_map f l2.
Proof. rewrite flat_map_app. reflexivity. Qed.
Lemma all_hold_turn w w0 l1 s l2 lost : all_hold w w0 (l1 ++ s :: l2) lost <->
  holds w w0 (private s ++ given s ++ (flat_map private l1 ++ flat_map private l2 ++ flat_map given l1 ++ flat_map given l2 ++ lost))
    (files_of s ++ (flat_map files_of l1 ++ flat_map files_of l2)).
Proof.
  unfold all_hold. rewrite !flat_map_middle.
  assert (P := out_of_turn (flat_map private l1) (private s) (flat_map private l2) (flat_map given l1) (given s) (flat_map given l2) lost).
  assert (Q := Permutation_app_swap_app (flat_map files_of l1) (files_of s) (flat_map files_of l2)).
  split; apply holds_perm; (assumption || apply Permutation_sym; assumption).
Qed.

Section All.
Variables (sz : extern -> nat -> Z) (R : readers) (E : env) (Y : system).
Hypothesis HE : env_ok E.
Hypothesis CF : config_ok (e_cfg E) = true.
Hypothesis SY : system_ok Y.
Hypothesis RX : relaxed Y.
Hypothesis SZ : forall x, ext_spec (y_ext Y x) (sz x).

(** a client after [k] of its turns: also where it would be alone *)
Definition linked (t : task) (k : nat) (s : stage) : Prop :=
  stage_inv sz E t s /\ (left_to_do s <= calls_of t - k)%nat /\
  (plenty E -> steady Y -> exists u wu lost, steps R E Y k (Waiting t) world0 = Ok (u, wu) /\ stage_inv sz E t u /\
     holds wu world0 (private u ++ given u ++ lost) (files_of u) /\ sim E s u).

Lemma linked_step t k s w w0 bs fs : task_ok R E Y t -> linked t k s -> holds w w0 (private s ++ given s ++ bs) (files_of s ++ fs) ->
  exists s' w' lost, advance R E Y s w = Ok (s', w') /\ linked t (S k) s' /\
    holds w' w0 (private s' ++ given s' ++ lost ++ bs) (files_of s' ++ fs) /\ (lost = [] \/ exists k, e_alloc E k = false).
Proof using HE CF SY RX SZ.
  intros TO (SI & LE & SOLO) H.
  destruct (advance_safe sz R E Y CF SY RX SZ t s w w0 bs fs TO SI H) as (s' & w' & lost & AD & SI' & H' & LO).
  exists s', w', lost. split; [exact AD|]. split; [|split; assumption].
  split; [exact SI'|]. split. { pose proof (advance_left _ _ _ _ _ _ _ AD). lia. }
  intros PL ST. destruct (SOLO PL ST) as (u & wu & lu & EQ & SU & HU & SM).
  rewrite <- (app_nil_r (files_of u)) in HU.
  destruct (advance_safe sz R E Y CF SY RX SZ t u wu world0 lu [] TO SU HU) as (u' & wu' & lost' & AD' & SU' & HU' & _).
  exists u', wu', (lost' ++ lu). split; [rewrite steps_snoc, EQ; exact AD'|]. split; [exact SU'|].
  split; [rewrite app_nil_r in HU'; exact HU'|].
  eapply (advance_sim R E Y HE PL ST t s u); try eassumption. intros v ->. exact SI.
Qed.

Definition linked_all (ts : list task) (turns : nat -> nat) (ss : list stage) : Prop :=
  length ss = length ts /\ forall i t, nth_error ts i = Some t -> exists s, nth_error ss i = Some s /\ linked t (turns i) s.

Lemma together_linked ts w0 : Forall (task_ok R E Y) ts -> forall schedule turns ss w lost,
  linked_all ts turns ss -> all_hold w w0 ss lost -> (lost = [] \/ exists k, e_alloc E k = false) ->
  exists ss' w' lost', together R E Y schedule ss w = Ok (ss', w') /\
    linked_all ts (fun i => turns i + count_occ Nat.eq_dec schedule i)%nat ss' /\ all_hold w' w0 ss' lost' /\
    (lost' = [] \/ exists k, e_alloc E k = false).
Proof using HE CF SY RX SZ.
  intros TS. induction schedule as [|i schedule IH]; intros turns ss w lost (LEN & L) H LO; cbn [together].
  - exists ss, w, lost. split; [reflexivity|]. split; [|split; assumption]. split; [exact LEN|].
    intros i t T. destruct (L i t T) as (s & N & K). exists s. split; [exact N|]. cbn. rewrite Nat.add_0_r. exact K.
  - destruct (nth_error ss i) as [s|] eqn:N.
    + assert (T : exists t, nth_error ts i = Some t).
      { destruct (nth_error ts i) eqn:T; [eauto|]. apply nth_error_None in T. assert (nth_error ss i = None) by (apply nth_error_None; lia). congruence. }
      destruct T as (t & T). destruct (L i t T) as (s0 & N0 & K). rewrite N in N0. apply inj_some in N0. subst s0.
      destruct (nth_error_split _ _ N) as (l1 & l2 & -> & LI). subst i. apply all_hold_turn in H.
      assert (TO : task_ok R E Y t) by (eapply Forall_forall; [exact TS|eapply nth_error_In; exact T]).
      destruct (linked_step t _ s w w0 _ _ TO K H) as (s' & w' & lost1 & AD & K' & H' & LO'). rewrite AD. cbn [bind]. rewrite put_middle.
      destruct (IH (fun j => turns j + count_occ Nat.eq_dec [length l1] j)%nat (l1 ++ s' :: l2) w' (lost1 ++ lost)) as (ss' & w2 & lost2 & EQ & K2 & H2 & LO2).
      * split; [rewrite <- LEN, !app_length; reflexivity|]. intros j t' T'. destruct (Nat.eq_dec (length l1) j) as [<-|NE].
        -- rewrite T in T'. apply inj_some in T'. subst t'. exists s'. split; [rewrite nth_error_app2, Nat.sub_diag by lia; reflexivity|].
           cbn [count_occ]. destruct (Nat.eq_dec (length l1) (length l1)); [|congruence]. rewrite Nat.add_1_r. exact K'.
        -- destruct (L j t' T') as (s1 & N1 & K1). exists s1.
           split. { rewrite <- (put_middle l1 s s' l2), put_other by exact NE. exact N1. }
           cbn [count_occ]. destruct (Nat.eq_dec (length l1) j); [congruence|]. rewrite Nat.add_0_r. exact K1.
      * apply all_hold_turn. eapply holds_perm; [|apply Permutation_refl|exact H'].
        do 2 apply Permutation_app_head. eapply Permutation_trans; [apply Permutation_app_comm|].
        rewrite <- !app_assoc. do 4 apply Permutation_app_head. apply Permutation_app_comm.
      * destruct LO' as [->|]; [exact LO|right; assumption].
      * exists ss', w2, lost2. split; [exact EQ|]. split; [|split; assumption]. destruct K2 as (LEN2 & K2). split; [exact LEN2|].
        intros j t' T'. destruct (K2 j t' T') as (s2 & N2 & Q2). exists s2. split; [exact N2|].
        revert Q2. cbn [count_occ]. destruct (Nat.eq_dec (length l1) j); rewrite ?Nat.add_0_r, ?Nat.add_1_r, <- ?Nat.add_succ_comm; auto.
    + destruct (IH turns ss w lost (conj LEN L) H LO) as (ss' & w' & lost' & EQ & (LEN2 & K2) & H2 & LO2).
      exists ss', w', lost'. split; [exact EQ|]. split; [|split; assumption]. split; [exact LEN2|].
      intros j t T. destruct (K2 j t T) as (s2 & N2 & Q2). exists s2. split; [exact N2|].
      cbn [count_occ]. destruct (Nat.eq_dec i j) as [->|]; [|exact Q2].
      destruct (L j t T) as (s1 & N1 & _). congruence.
Qed.
End All.

Lemma linked_start sz R E Y ts : linked_all sz R E Y ts (fun _ => 0%nat) (map Waiting ts).
Proof.
  split; [apply map_length|]. intros i t T. exists (Waiting t). split; [apply map_nth_error; exact T|].
  split; [reflexivity|]. split; [cbn; lia|]. intros _ _. exists (Waiting t), world0, [].
  split; [reflexivity|]. split; [reflexivity|]. split; [split; constructor|]. reflexivity.
Qed.
Lemma start_holds ts w : all_hold w w (map Waiting ts) [].
Proof. unfold all_hold. rewrite !flat_map_concat_map, !map_map. cbn.
  induction ts as [|t ts IH]; cbn; [apply holds_refl|exact IH]. Qed.

(** once a client has been told everything, more turns change nothing *)
Lemma account_solo sz R E Y t k s acc : config_ok (e_cfg E) = true -> system_ok Y -> relaxed Y -> (forall x, ext_spec (y_ext Y x) (sz x)) ->
  task_ok R E Y t -> linked sz R E Y t k s -> plenty E -> steady Y -> account_of s = Some acc -> alone R E Y t = Ok acc.
Proof.
  intros CF SY RX SZ TO (SI & LE & SOLO) PL ST AC. destruct (SOLO PL ST) as (u & wu & lost & EQ & SU & HU & SM).
  assert (AU : account_of u = Some acc) by (rewrite <- (sim_account _ _ _ SM); exact AC).
  assert (D : account_of u <> None) by congruence.
  assert (MORE : forall n, exists u' w', steps R E Y n (Waiting t) world0 = Ok (u', w') /\ stage_inv sz E t u' /\
    exists lost', holds w' world0 (private u' ++ given u' ++ lost') (files_of u') /\ (left_to_do u' <= calls_of t - n)%nat).
  { induction n as [|n (u1 & w1 & Q & S1 & l1 & H1 & L1)].
    - exists (Waiting t), world0. split; [reflexivity|]. split; [reflexivity|]. exists []. split; [split; constructor|cbn; lia].
    - rewrite <- (app_nil_r (files_of u1)) in H1.
      destruct (advance_safe sz R E Y CF SY RX SZ t u1 w1 world0 l1 [] TO S1 H1) as (u2 & w2 & l2 & AD & S2 & H2 & _).
      exists u2, w2. split; [rewrite steps_snoc, Q; exact AD|]. split; [exact S2|]. exists (l2 ++ l1). rewrite app_nil_r in H2.
      split; [exact H2|]. pose proof (advance_left _ _ _ _ _ _ _ AD). lia. }
  destruct (MORE (calls_of t)) as (v & wv & QV & _ & lv & _ & LV).
  destruct (alone_steps R E Y t v wv CF TO QV) as (acc' & AV & AL). rewrite AL. f_equal.
  assert (DV : account_of v <> None) by congruence.
  pose proof (steps_add R E Y k (calls_of t) (Waiting t) world0) as P1. rewrite EQ in P1. cbn [bind] in P1. rewrite (steps_done _ _ _ _ _ D) in P1.
  pose proof (steps_add R E Y (calls_of t) k (Waiting t) world0) as P2. rewrite QV in P2. cbn [bind] in P2. rewrite (steps_done _ _ _ _ _ DV) in P2.
  rewrite Nat.add_comm in P1. rewrite P1 in P2. inversion P2. subst. congruence.
Qed.

Lemma session_ok R E Y ts schedule wd :
  env_ok E -> config_ok (e_cfg E) = true -> system_ok Y -> relaxed Y -> Forall (task_ok R E Y) ts ->
  exists ss wd', together R E Y schedule (map Waiting ts) wd = Ok (ss, wd') /\ length ss = length ts /\
    incl (flat_map given ss) (w_live wd') /\
    (forall i t, nth_error ts i = Some t -> exists s, nth_error ss i = Some s /\
       ((calls_of t <= count_occ Nat.eq_dec schedule i)%nat -> account_of s <> None) /\
       (account_of s <> None -> finished t s) /\
       (plenty E -> steady Y -> forall acc, account_of s = Some acc -> alone R E Y t = Ok acc)) /\
    (Forall (fun s => account_of s <> None) ss -> exists lost, holds wd' wd (flat_map given ss ++ lost) [] /\
       (plenty E -> lost = [])).
Proof.
  intros HE CF SY RX TS. destruct (ext_sizes Y SY) as (sz & SZ).
  destruct (together_linked sz R E Y HE CF SY RX SZ ts wd TS schedule _ _ wd [] (linked_start sz R E Y ts) (start_holds ts wd) (or_introl eq_refl))
    as (ss & wd' & lost & EQ & (LEN & L) & H & LO).
  exists ss, wd'. split; [exact EQ|]. split; [exact LEN|]. split; [|split].
  - intros b IN. eapply Permutation_in; [apply Permutation_sym; exact (proj1 H)|].
    apply in_or_app. left. apply in_or_app. right. apply in_or_app. left. exact IN.
  - intros i t T. destruct (L i t T) as (s & N & K). exists s. split; [exact N|].
    assert (TO : task_ok R E Y t) by (eapply Forall_forall; [exact TS|eapply nth_error_In; exact T]).
    split; [|split].
    + intros C. apply left_done. destruct K as (_ & K & _). cbn beta in K. lia.
    + intros D. destruct K as (SI & _). destruct s as [t'|a did cs|e did|im wd0 ht buf e rs cs|ok wd0 ht buf e rs]; cbn in D; try congruence; cbn in SI |- *.
      * destruct SI as (m & w & h & p & cs & -> & F & OK & BAD). split; [exact F|].
        destruct (Z.eq_dec e RDEOK) as [->|NE]; [left; split; [reflexivity|apply OK; reflexivity]|right; split; [exact NE|apply BAD; exact NE]].
      * destruct SI as (fn & o & pt & wt & cs & -> & F). exact F.
    + intros PL ST acc AC. eapply account_solo; eassumption.
  - intros D. exists lost. split.
    + eapply holds_perm; [| |exact H].
      * replace (flat_map private ss) with (@nil nat); [apply Permutation_refl|].
        clear - D. induction D as [|s ss D DS IH]; [reflexivity|]. cbn. rewrite (proj1 (done_nothing s D)), <- IH. reflexivity.
      * replace (flat_map files_of ss) with (@nil nat); [apply Permutation_refl|].
        clear - D. induction D as [|s ss D DS IH]; [reflexivity|]. cbn. rewrite (proj2 (done_nothing s D)), <- IH. reflexivity.
    + intros PL. destruct LO as [->|(k & F)]; [reflexivity|]. rewrite PL in F. discriminate F.
Qed.
