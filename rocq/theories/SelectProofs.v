(** Reader selection and the bound on the number of frames. *)
From Coq Require Import Permutation.
From Verif Require Import Base BaseProofs Flt Spec Util Methods Analysis History SpecReport WorldProofs UtilProofs AnalysisProofs
  Stdio StdioProofs Pgm Pfm Y4m Image ImageHistory SpecImage ImageSafe FrameProofs ImageApi.
Open Scope list_scope.
Open Scope Z_scope.

(** ** Types *)
Lemma strchr_in c s : strchr c s = true <-> In c (list_ascii_of_string s).
Proof.
  induction s as [|a s IH]; cbn; [split; [discriminate|tauto]|].
  destruct (Ascii.eqb_spec a c) as [->|N]; [tauto|]. rewrite IH. split; [tauto|]. intros [Q|Q]; [contradiction|exact Q].
Qed.
Lemma after_last_none c s : after_last c s = None <-> ~ In c (list_ascii_of_string s).
Proof.
  induction s as [|a s IH]; cbn; [tauto|].
  destruct (after_last c s) as [r|].
  - split; [discriminate|]. intros Q. exfalso. destruct (IH) as (_ & I). enough (Some r = None) by discriminate. apply I. tauto.
  - destruct (Ascii.eqb_spec a c) as [->|N]; [split; [discriminate|tauto]|]. split; [|reflexivity]. intros _ [Q|Q]; [contradiction|]. apply (proj1 IH eq_refl Q).
Qed.
Lemma after_last_some c base e : ~ In c (list_ascii_of_string e) -> after_last c (base ++ String c e) = Some e.
Proof.
  intros N. induction base as [|a s IH]; cbn.
  - rewrite (proj2 (after_last_none c e) N), Ascii.eqb_refl. reflexivity.
  - rewrite IH. reflexivity.
Qed.
Lemma after_last_split c s e : after_last c s = Some e -> exists base, s = (base ++ String c e)%string /\ ~ In c (list_ascii_of_string e).
Proof.
  revert e. induction s as [|a s IH]; cbn; intros e Q; [discriminate|].
  destruct (after_last c s) as [r|] eqn:A.
  - inversion Q; subst. destruct (IH e eq_refl) as (base & -> & N). exists (String a base). auto.
  - destruct (Ascii.eqb_spec a c) as [->|N]; [|discriminate]. inversion Q; subst. exists ""%string. split; [reflexivity|]. apply after_last_none. exact A.
Qed.
Lemma image_type_ok f t ext : image_type f t ext <-> file_ext f t = ext.
Proof.
  split.
  - destruct 1 as [t W|t e I|t W N|base e -> W|W]; unfold file_ext.
    + destruct (strchr slash t) eqn:S; [apply strchr_in in S; contradiction|reflexivity].
    + cbn [mime_types In] in I. repeat (destruct I as [I|I]; [inversion I; subst; vm_compute; reflexivity|]). contradiction.
    + destruct (strchr slash t) eqn:S.
      * unfold ext_from_mimetype. cbn [mime_types map fst In] in N.
        repeat (match goal with |- context [String.eqb t ?u] => destruct (String.eqb_spec t u) as [->|]; [exfalso; tauto|] end). reflexivity.
      * exfalso. apply W. intros Q. apply strchr_in in Q. unfold slash in S. cbn in S. congruence.
    + change ("." ++ e)%string with (String dot e). rewrite after_last_some by exact W. reflexivity.
    + rewrite (proj2 (after_last_none dot f)) by exact W. reflexivity.
  - intros <-. unfold file_ext. destruct t as [t|].
    + destruct (strchr slash t) eqn:S.
      * unfold ext_from_mimetype.
        repeat (match goal with |- context [String.eqb t ?u] => destruct (String.eqb_spec t u) as [->|]; [apply type_mime; cbn; tauto|] end).
        apply type_unknown.
        -- intros Q. apply Q. apply strchr_in. exact S.
        -- cbn. intros Q. intuition congruence.
      * apply type_given. intros Q. apply strchr_in in Q. unfold slash in S. cbn in S. congruence.
    + destruct (after_last dot f) as [e|] eqn:A.
      * apply after_last_split in A. destruct A as (base & Q & N). apply (type_suffix _ base); [exact Q|exact N].
      * apply type_none. apply after_last_none. exact A.
Qed.

(** ** Selection *)
Definition reader_name (r : reader) : string :=
  match r with RPgm => "PGM" | RPfm => "PFM" | RY4m => "Y4M" | RExt Libjpeg => "libjpeg" | RExt Libpng => "libpng"
  | RExt Ffmpeg => "FFmpeg" | RExt Magickwand => "MagickWand" end.
Lemma names_of R : resdet_list_image_readers R = map reader_name (resdet_image_readers R).
Proof. destruct R as [[] [] [] [] [] [] []]; reflexivity. Qed.
Lemma same_dec a b : {same_nocase a b} + {~ same_nocase a b}.
Proof. apply (list_eq_dec Z.eq_dec). Qed.
Lemma strieq_same H a b : h_strict H = false -> resdet_strieq H a b = Ok (if same_dec a b then true else false).
Proof. intros R. rewrite strieq_ok by exact R. destruct (same_dec a b) as [Q|Q]; destruct (list_eq_dec _ _ _); try reflexivity; contradiction. Qed.

Lemma supports_reads R Y r ext : relaxed Y -> exists b, supports_ext R Y r ext = Ok b /\ (b = true <-> reads_type R Y (reader_name r) ext).
Proof.
  intros H. unfold supports_ext, reads_type.
  destruct r as [| | |[]]; cbn [reader_name]; rewrite ?strieq_same by exact H; cbn [bind].
  1,2,3,5: destruct (same_dec _ _); (eexists; split; [reflexivity|]); split; try discriminate; intuition discriminate.
  - destruct (same_dec ext "jpg"); [|destruct (same_dec ext "jpeg")]; (eexists; split; [reflexivity|]); split; try discriminate; intuition discriminate.
  - eexists; split; [reflexivity|]. destruct (r_magickwand R); split; try discriminate; intuition discriminate.
  - eexists; split; [reflexivity|]. split; [intros _; intuition|auto].
Qed.

Lemma first_that_first_in {A} (test : A -> res bool) (P : A -> Prop) before a after :
  (forall x, In x (before ++ a :: after) -> exists b, test x = Ok b /\ (b = true <-> P x)) -> P a -> Forall (fun x => ~ P x) before ->
  first_that test (before ++ a :: after) = Ok (Some a).
Proof.
  intros T PA F. induction F as [|x l NX F IH]; cbn [app first_that].
  - destruct (T a) as (b & -> & Q); [apply in_or_app; right; left; reflexivity|]. destruct b; [reflexivity|]. destruct Q as (_ & Q). specialize (Q PA). discriminate.
  - destruct (T x) as (b & -> & Q); [left; reflexivity|]. destruct b; [exfalso; apply NX, Q; reflexivity|]. apply IH. intros y I. apply T. right. exact I.
Qed.
Lemma first_that_first {A} (test : A -> res bool) (P : A -> Prop) before a after :
  (forall x, exists b, test x = Ok b /\ (b = true <-> P x)) -> P a -> Forall (fun x => ~ P x) before ->
  first_that test (before ++ a :: after) = Ok (Some a).
Proof.
  intros T PA F. induction F as [|x l NX F IH]; cbn [app first_that].
  - destruct (T a) as (b & -> & Q). destruct b; [reflexivity|]. destruct Q as (_ & Q). specialize (Q PA). discriminate.
  - destruct (T x) as (b & -> & Q). destruct b; [exfalso; apply NX, Q; reflexivity|]. exact IH.
Qed.
Lemma first_that_none {A} (test : A -> res bool) (P : A -> Prop) l :
  (forall x, exists b, test x = Ok b /\ (b = true <-> P x)) -> Forall (fun x => ~ P x) l -> first_that test l = Ok None.
Proof.
  intros T F. induction F as [|x l NX F IH]; cbn [first_that]; [reflexivity|].
  destruct (T x) as (b & -> & Q). destruct b; [exfalso; apply NX, Q; reflexivity|]. exact IH.
Qed.

Lemma names_distinct R a b : In a (resdet_list_image_readers R) -> In b (resdet_list_image_readers R) -> same_nocase a b -> a = b.
Proof.
  assert (S : forall x, In x (resdet_list_image_readers R) -> In x ["PGM"; "PFM"; "Y4M"; "libjpeg"; "libpng"; "FFmpeg"; "MagickWand"]%string).
  { intros x. destruct R as [[] [] [] [] [] [] []]; cbn; tauto. }
  intros IA IB. apply S in IA. apply S in IB. clear S. unfold same_nocase. cbn in IA, IB.
  repeat (destruct IA as [<-|IA]; [|]); try contradiction; repeat (destruct IB as [<-|IB]; [|]); try contradiction; try reflexivity; vm_compute; discriminate.
Qed.
Lemma readers_nodup R : NoDup (resdet_list_image_readers R).
Proof.
  assert (N : NoDup ["PGM"; "PFM"; "Y4M"; "libjpeg"; "libpng"; "FFmpeg"; "MagickWand"]%string).
  { repeat (constructor; [cbn; intuition discriminate|]). constructor. }
  destruct R as [[] [] [] [] [] [] []]; cbn; repeat (constructor; [cbn; intuition discriminate|]); constructor.
Qed.

Lemma combine_seq_app {B} (l l' : list B) : forall n, combine (seq n (length (l ++ l'))) (l ++ l') = combine (seq n (length l)) l ++ combine (seq (n + length l) (length l')) l'.
Proof.
  induction l as [|x l IH]; intros n; cbn [app length seq combine].
  - rewrite Nat.add_0_r. reflexivity.
  - rewrite IH. rewrite <- Nat.add_succ_comm. reflexivity.
Qed.

(** the reader picked by name *)
Lemma by_name_gen R E Y f n want w before r after : (forall m, In m (resdet_list_image_readers R) -> exists b, resdet_strieq (y_host Y) m n = Ok b /\ (b = true <-> same_nocase m n)) -> resdet_image_readers R = before ++ r :: after -> same_nocase (reader_name r) n ->
  resdet_open_image_with_reader R E Y (Some f) (Some n) true want w = open_image E Y (Some r) f want w.
Proof.
  intros RX EQ S. unfold resdet_open_image_with_reader. cbn [negb].
  assert (EN : resdet_list_image_readers R = map reader_name before ++ reader_name r :: map reader_name after).
  { rewrite names_of, EQ, map_app. reflexivity. }
  rewrite EN, combine_seq_app. cbn [length seq combine Nat.add].
  rewrite (first_that_first_in _ (fun '(_, m) => same_nocase m n)).
  - cbn [bind]. rewrite EQ, map_length.
    assert (G : get (before ++ r :: after) (Z.of_nat (length before)) = Ok r).
    { unfold get, in_range. rewrite Nat2Z.id, zlen_app, zlen_cons. pose proof (zlen_nonneg after). change (zlen before) with (Z.of_nat (length before)). destruct ((0 <=? Z.of_nat (length before)) && _)%bool eqn:IR; [|lia]. rewrite nth_error_app2, Nat.sub_diag by lia. reflexivity. }
    rewrite G. reflexivity.
  - intros [i m] I. apply RX. rewrite EN. apply in_app_or in I. apply in_or_app. destruct I as [I|[I|I]]; [left|right; left|right; right].
    + apply in_combine_r in I. exact I.
    + congruence.
    + apply in_combine_r in I. exact I.
  - exact S.
  - apply Forall_forall. intros [i m] I SN. apply in_combine_r in I.
    assert (Q : m = reader_name r).
    { apply (names_distinct R); [rewrite EN; apply in_or_app; auto|rewrite EN; apply in_or_app; right; left; reflexivity|].
      unfold same_nocase in *. congruence. }
    subst m. pose proof (readers_nodup R) as ND. rewrite EN in ND. apply NoDup_remove_2 in ND. apply ND. apply in_or_app. auto.
Qed.
Lemma by_name_found R E Y f n want w before r after : relaxed Y -> resdet_image_readers R = before ++ r :: after -> same_nocase (reader_name r) n ->
  resdet_open_image_with_reader R E Y (Some f) (Some n) true want w = open_image E Y (Some r) f want w.
Proof.
  intros RX. apply by_name_gen. intros m _. rewrite strieq_same by exact RX. eexists. split; [reflexivity|].
  destruct (same_dec m n); split; try discriminate; tauto.
Qed.
Lemma by_name_none R E Y f n want w : relaxed Y -> Forall (fun m => ~ same_nocase m n) (resdet_list_image_readers R) ->
  resdet_open_image_with_reader R E Y (Some f) (Some n) true want w = open_image E Y None f want w.
Proof.
  intros RX F. unfold resdet_open_image_with_reader. cbn [negb]. rewrite (first_that_none _ (fun '(_, m) => same_nocase m n)); [reflexivity| |].
  - intros [i m]. rewrite strieq_same by exact RX. eexists. split; [reflexivity|]. destruct (same_dec m n); split; try discriminate; tauto.
  - apply Forall_forall. intros [i m] I. apply in_combine_r in I. rewrite Forall_forall in F. exact (F m I).
Qed.
Lemma unsupported E Y f want w : exists e w', open_image E Y None f want w = Ok (None, 0, 0, None, e, w') /\
  (e = RDEUNSUPP \/ (e = RDENOMEM /\ e_alloc E (w_count w) = false)).
Proof.
  unfold open_image, alloc. destruct (e_alloc E (w_count w)) eqn:A; [|eauto 10].
  pose proof (holds_alloc (e_alloc E) w w [] [] (holds_refl w)) as HA. unfold alloc in HA. rewrite A in HA.
  destruct (holds_free _ _ _ _ _ HA) as (w3 & -> & _). cbn [bind]. eauto 10.
Qed.

Lemma by_type_found R E Y f t ext name want w : relaxed Y -> image_type f t ext -> chosen R Y ext name ->
  resdet_open_image R E Y (Some f) t true want w = resdet_open_image_with_reader R E Y (Some f) (Some name) true want w.
Proof.
  intros RX T (b & a & EQ & RT & F). apply image_type_ok in T. rewrite names_of in EQ.
  apply map_eq_app in EQ. destruct EQ as (b' & a' & EQ & EB & EA). destruct a' as [|r a']; [discriminate|]. cbn in EA. inversion EA; subst.
  unfold resdet_open_image. cbn [negb].
  rewrite (by_name_found R E Y f (reader_name r) want w b' r a' RX EQ eq_refl).
  rewrite EQ. rewrite (first_that_first _ (fun r => reads_type R Y (reader_name r) (file_ext f t))); [reflexivity| | |].
  - intros x. apply supports_reads. exact RX.
  - exact RT.
  - rewrite Forall_map in F. exact F.
Qed.
Lemma by_type_none R E Y f t ext want w : relaxed Y -> image_type f t ext -> Forall (fun n => ~ reads_type R Y n ext) (resdet_list_image_readers R) ->
  resdet_open_image R E Y (Some f) t true want w = open_image E Y None f want w.
Proof.
  intros RX T F. apply image_type_ok in T. subst. rewrite names_of, Forall_map in F.
  unfold resdet_open_image. cbn [negb].
  rewrite (first_that_none _ (fun r => reads_type R Y (reader_name r) (file_ext f t))); [reflexivity| |exact F].
  intros x. apply supports_reads. exact RX.
Qed.
Lemma by_name_same R E Y f n n' want w : relaxed Y -> same_nocase n n' ->
  resdet_open_image_with_reader R E Y (Some f) (Some n) true want w = resdet_open_image_with_reader R E Y (Some f) (Some n') true want w.
Proof.
  intros RX S.
  destruct (Exists_dec (fun m => same_nocase m n) (resdet_list_image_readers R) (fun m => same_dec m n)) as [X|X].
  - apply Exists_exists in X. destruct X as (m & I & SM). rewrite names_of in I. apply in_map_iff in I. destruct I as (r & <- & I).
    apply in_split in I. destruct I as (b & a & EQ).
    rewrite (by_name_found R E Y f n want w b r a RX EQ SM). symmetry. apply (by_name_found R E Y f n' want w b r a RX EQ). unfold same_nocase in *. congruence.
  - apply Forall_Exists_neg in X. rewrite (by_name_none R E Y f n want w RX X). symmetry. apply by_name_none; [exact RX|].
    eapply Forall_impl; [|exact X]. intros m N Q. apply N. unfold same_nocase in *. congruence.
Qed.
Lemma chosen_or_none R Y ext : (exists name, chosen R Y ext name) \/ Forall (fun n => ~ reads_type R Y n ext) (resdet_list_image_readers R).
Proof.
  assert (D : forall n, In n (resdet_list_image_readers R) -> reads_type R Y n ext \/ ~ reads_type R Y n ext).
  { intros n _. unfold reads_type.
    assert (forall a b : string, a = b \/ a <> b) by (intros a b; destruct (string_dec a b); auto).
    assert (SD : forall a b, same_nocase a b \/ ~ same_nocase a b) by (intros a b; destruct (same_dec a b); auto).
    assert (FF : (r_magickwand R = true -> x_supports (y_ext Y Ffmpeg) ext = true) \/ ~ (r_magickwand R = true -> x_supports (y_ext Y Ffmpeg) ext = true)).
    { destruct (r_magickwand R), (x_supports (y_ext Y Ffmpeg) ext); auto; right; intros Q; specialize (Q eq_refl); discriminate. }
    repeat apply Decidable.dec_or; try apply Decidable.dec_and; try apply Decidable.dec_or; first [apply H|apply SD|exact FF]. }
  unfold chosen. revert D. generalize (resdet_list_image_readers R). induction l as [|n l IH]; intros D; [right; constructor|].
  destruct (D n (or_introl eq_refl)) as [Q|Q].
  - left. exists n, [], l. auto.
  - destruct IH as [(m & b & a & -> & RT & F)|F]; [intros x I; apply D; right; exact I| |right; constructor; assumption].
    left. exists m, (n :: b), a. auto.
Qed.

(** ** The frames are no more than the bytes *)
Lemma open_stream_bound Y f w h s w' N : bytes_bound Y f N -> open_stream Y f w = (inl (h, s), w') -> (length (s_rest s) <= N)%nat.
Proof.
  intros (B1 & B2 & _). unfold open_stream. destruct (String.eqb_spec f "-").
  - intros Q. inversion Q; subst. apply B1. reflexivity.
  - destruct (y_fopen Y (w_count w) f) as [s0|] eqn:F; [|intros Q; inversion Q]. destruct (open_file w). intros Q. inversion Q; subst. exact (B2 _ _ F).
Qed.
Lemma opened_left sz E Y r f want w im width height buf e w' N : config_ok (e_cfg E) = true -> system_ok Y -> relaxed Y ->
  (forall x, ext_spec (y_ext Y x) (sz x)) -> bytes_bound Y f N ->
  open_image E Y r f want w = Ok (Some im, width, height, buf, e, w') -> (ctx_left Y (im_ctx im) <= Datatypes.S N)%nat.
Proof.
  intros CF S RX X B. unfold open_image. pose proof (holds_alloc (e_alloc E) w w [] [] (holds_refl w)) as HA.
  destruct (alloc (e_alloc E) w) as [[blk|] w1]; [|discriminate]. destruct r as [r|].
  2: { destruct (free_block blk w1); discriminate. }
  assert (RO : forall ctx wd ht e0 w2, reader_open E Y r f w1 = Ok (Some ctx, wd, ht, e0, w2) -> (ctx_left Y ctx <= Datatypes.S N)%nat).
  { intros ctx wd ht e0 w2. clear HA. destruct r as [| | |x]; cbn [reader_open].
    - intros Q. apply bind_ok in Q. destruct Q as ([[[[c1 ?] ?] ?] ?] & _ & Q). destruct c1 as [c1|]; [|discriminate]. inversion Q; subst. cbn. destruct (pg_eof c1); lia.
    - unfold pfm_open. destruct (alloc (e_alloc E) w1) as [[b1|] w3]; [|discriminate].
      pose proof (open_stream_ok Y f w3 w3 [] [] S (holds_refl w3)) as HO.
      destruct (open_stream Y f w3) as [[[h s]|errno] w4] eqn:OS; [|destruct (free_block b1 w4); discriminate].
      pose proof (open_stream_bound _ _ _ _ _ _ _ B OS) as LB. destruct HO as (K & _).
      destruct (pfm_header_ok (y_host Y) s RX K) as (hd & s2 & -> & L & _). cbn [bind]. apply later_len in L.
      destruct hd as [[fo [[a b] c]]|]; [|cbn; destruct (pfm_close _ _); discriminate]. cbn. intros Q. inversion Q; subst. cbn. lia.
    - unfold y4m_open. destruct (alloc (e_alloc E) w1) as [[b1|] w3]; [|discriminate].
      pose proof (open_stream_ok Y f w3 w3 [] [] S (holds_refl w3)) as HO.
      destruct (open_stream Y f w3) as [[[h s]|errno] w4] eqn:OS; [|destruct (free_block b1 w4); discriminate].
      pose proof (open_stream_bound _ _ _ _ _ _ _ B OS) as LB. destruct HO as (K & _). cbv zeta.
      assert (FAIL : forall s1 ww hh ee wz, map_open CY4m (w <- y4m_close (mkY4m b1 h s1 None 0 0 0 false) wz ;; Ok (None, ww, hh, ee, w)) = Ok (Some ctx, wd, ht, e0, w2) -> (ctx_left Y ctx <= Datatypes.S N)%nat).
      { intros s1 ww hh ee wz. destruct (y4m_close _ wz); cbn; discriminate. }
      destruct (fread 10 s) as [magic s1] eqn:E1. pose proof (later_fread _ _ _ _ K E1) as L1. pose proof (later_ok _ _ L1) as K1.
      destruct (list_eq_dec Z.eq_dec magic (chars "YUV4MPEG2 ")); cbn [negb]; [|apply FAIL].
      destruct csp_default_ok as (CD1 & CD2).
      destruct (y4m_params_ok (y_host Y) RX (Datatypes.S (length (s_rest s1))) 0 0 csp_default s1 K1) as (hd & s2 & -> & L2 & V);
        try assumption; try (unfold is_size, SIZE_MAX; lia). cbn [bind]. pose proof (later_ok _ _ L2) as K2.
      destruct hd as [[[wi he] csp]|]; [|apply FAIL].
      destruct ((wi =? 0) || (he =? 0)); [apply FAIL|].
      destruct (dims_exceed_limit (e_cfg E) wi he 4 1) as [big|]; [|discriminate]. cbn [bind]. destruct big; [apply FAIL|].
      destruct (colour_space (y_host Y) csp wi he) as [cs|]; [|discriminate]. cbn [bind]. destruct cs as [[uv depth]|]; [|apply FAIL].
      destruct ((depth <? 8) || (depth >? 16)); [apply FAIL|]. destruct (_ <? _); [apply FAIL|].
      assert (Q : exists seekable s3, (if wrap (wrap (wrap (wi * he) * ((depth + 7) / 8)) + wrap (uv * ((depth + 7) / 8))) <=? LONG_MAX then
        match fseek_cur 0 s2 with (None, s) => (true, s) | (Some _, s) => (false, s) end
        else (false, s2)) = (seekable, s3) /\ later s2 s3).
      { destruct (_ <=? LONG_MAX).
        - destruct (fseek_cur 0 s2) as [[er1|] s3] eqn:F; (eexists _, _; split; [reflexivity|]; eapply later_fseek; [exact K2| |exact F]; lia).
        - eexists _, _. split; [reflexivity|]. apply later_refl; exact K2. }
      destruct Q as (seekable & s3 & -> & L3). destruct (alloc (e_alloc E) w4) as [[b2|] w5]; [|apply FAIL].
      cbn. intros Q. inversion Q; subst. cbn. apply later_len in L1, L2, L3. lia.
    - destruct B as (_ & _ & B). destruct (x_open (y_ext Y x) (w_count w1) f) as [[[c a] b]|er] eqn:XO; [|discriminate].
      intros Q. inversion Q; subst. cbn. apply B in XO. lia. }
  destruct (reader_open E Y r f w1) as [[[[[c wd] ht] e1] w2]|]; [|discriminate]. cbn [bind].
  assert (FAIL : forall ee wz, (w <- reader_close c wz ;; w <- free_block blk w ;; Ok (None, 0, 0, None, ee, w)) = Ok (Some im, width, height, buf, e, w') -> (ctx_left Y (im_ctx im) <= Datatypes.S N)%nat).
  { intros ee wz. destruct (reader_close c wz) as [wy|]; cbn [bind]; [|discriminate]. destruct (free_block blk wy); cbn [bind]; discriminate. }
  destruct (e1 =? 0); cbn [negb]; [|apply FAIL]. destruct (dims_exceed_limit _ _ _ _ _) as [big|]; [|discriminate]. cbn [bind].
  destruct big; [apply FAIL|]. destruct c as [c|]; [|discriminate].
  destruct want; [destruct (alloc (e_alloc E) w2) as [[b2|] w3]; [|apply FAIL]|]; intros Q; inversion Q; subst; cbn [im_ctx]; eapply RO; reflexivity.
Qed.
Lemma open_by_left R E Y f o ptrs want w im width height buf e w' N : config_ok (e_cfg E) = true -> system_ok Y -> relaxed Y ->
  bytes_bound Y f N -> open_by R E Y (Some f) o ptrs want w = Ok (Some im, width, height, buf, e, w') -> (ctx_left Y (im_ctx im) <= Datatypes.S N)%nat.
Proof.
  intros CF S RX B. destruct (ext_sizes Y S) as (sz & X).
  destruct o as [t|n]; cbn [open_by]; unfold resdet_open_image, resdet_open_image_with_reader; (destruct ptrs; cbn [negb]; [|discriminate]).
  - intros Q. apply bind_ok in Q. destruct Q as (r & _ & Q). eapply opened_left; eassumption.
  - destruct n as [n|]; [|discriminate]. intros Q. apply bind_ok in Q. destruct Q as (i & _ & Q). apply bind_ok in Q. destruct Q as (r & _ & Q).
    eapply opened_left; eassumption.
Qed.
