(** The library readers: contracts, and what all readers have in common. *)
From Coq Require Import Permutation.
From Verif Require Import Base BaseProofs Flt Spec Util UtilProofs Methods Analysis WorldProofs Stdio StdioProofs Pgm Pfm Y4m Image
  ImageHistory ImageSafe FrameProofs SpecImage SpecFormats SpecCli Library SpecLibrary.
Open Scope list_scope.
Open Scope Z_scope.

Lemma within_sane E width height : 1 <= width -> 1 <= height -> within E width height 1 -> sane width height.
Proof. intros A B (_ & C). unfold sane. lia. Qed.
Lemma known_ok : known_code RDEOK. Proof. unfold known_code, INT_MAX, RDEOK, RDENOIMG. lia. Qed.
Lemma known_rde e : 0 <= e <= 7 -> known_code e. Proof. unfold known_code, INT_MAX, RDENOIMG. lia. Qed.
Lemma pixel_max_nonneg E : config_ok (e_cfg E) = true -> 0 <= c_pixel_max (e_cfg E).
Proof. unfold config_ok. rewrite !andb_true_iff. lia. Qed.

Lemma frames_in_cons r rs : frames_in (r :: rs) = ((match r with IFrame true _ _ => 1 | _ => 0 end) + frames_in rs)%nat.
Proof. unfold frames_in. cbn [filter]. destruct r as [[|] ? ?|? ? ?]; reflexivity. Qed.

(** ** A reader meets the contract if its operations keep an invariant *)
Section Contract.
Variables (rd : image_reader) (E : env) (filename : string).
(** the size, how many frames may follow, the context, the world before opening and now *)
Variable Inv : Z -> Z -> nat -> rd_ctx rd -> world -> world -> Prop.
Hypothesis CF : config_ok (e_cfg E) = true.
Hypothesis OPEN : forall w0, exists c width height e w1,
  rd_open rd filename w0 = Ok (c, width, height, e, w1) /\ known_code e /\
  match c with
  | None => (e <> RDEOK \/ (width = 0 /\ height = 0)) /\ holds w1 w0 [] []
  | Some c => e = RDEOK /\ is_size width /\ is_size height /\ exists N, Inv width height N c w0 w1
  end.
Hypothesis READ : forall width height N c w0 w buf, sane width height -> Inv width height N c w0 w -> width * height <= zlen buf ->
  exists b e buf' c' w' N', rd_read rd c buf width height w = Ok (b, e, buf', c', w') /\
    served width height (IRead (Some buf)) (IFrame b e (Some buf')) /\ Inv width height N' c' w0 w' /\
    ((if b : bool then 1 else 0) + N' <= N)%nat.
Hypothesis SEEK : forall width height N c w0 w k, sane width height -> Inv width height N c w0 w -> 0 <= k ->
  exists b e calls c' w' N', rd_seek rd c k w = Ok (b, e, calls, c', w') /\
    served width height (ISeek k) (ISought b e calls) /\ Inv width height N' c' w0 w' /\ (N' <= N)%nat.
Hypothesis CLOSE : forall width height N c w0 w, Inv width height N c w0 w -> exists w', rd_close rd c w = Ok w' /\ holds w' w0 [] [].

Lemma calls_ok width height w0 : sane width height -> forall cs N c w, Inv width height N c w0 w -> Forall (proper width height) cs ->
  exists rs c' w' N', calls_by rd c width height cs w = Ok (rs, c', w') /\ Forall2 (served width height) cs rs /\
    Inv width height N' c' w0 w' /\ (frames_in rs + N' <= N)%nat.
Proof.
  intros SN. induction cs as [|call cs IH]; intros N c w I P.
  { exists [], c, w, N. split; [reflexivity|]. split; [constructor|]. split; [exact I|]. cbn. lia. }
  inversion P as [|? ? (P1 & P2) P3]; subst. cbn [calls_by].
  assert (exists r c1 w1 N1, call_by rd c width height call w = Ok (r, c1, w1) /\ served width height call r /\ Inv width height N1 c1 w0 w1 /\
            ((match r with IFrame true _ _ => 1 | _ => 0 end) + N1 <= N)%nat) as (r & c1 & w1 & N1 & -> & S1 & I1 & B1).
  { destruct call as [[buf|]|k]; cbn [call_by].
    - destruct (READ _ _ _ _ _ _ buf SN I) as (b & e & buf' & c' & w' & N' & -> & S1 & I1 & B1); [exact P1|]. cbn [bind].
      eexists _, _, _, _. split; [reflexivity|]. split; [exact S1|]. split; [exact I1|]. destruct b; exact B1.
    - eexists _, _, _, _. split; [reflexivity|]. split; [split; reflexivity|]. split; [exact I|]. lia.
    - destruct (SEEK _ _ _ _ _ _ k SN I (P2 k eq_refl)) as (b & e & calls & c' & w' & N' & -> & S1 & I1 & B1). cbn [bind].
      eexists _, _, _, _. split; [reflexivity|]. split; [exact S1|]. split; [exact I1|]. exact B1. }
  cbn [bind]. destruct (IH N1 c1 w1 I1 P3) as (rs & c' & w' & N' & -> & S2 & I2 & B2). cbn [bind].
  eexists _, _, _, _. split; [reflexivity|]. split; [constructor; assumption|]. split; [exact I2|]. rewrite frames_in_cons. lia.
Qed.

Lemma contract_ok : contract rd E filename.
Proof.
  intros w0. destruct (OPEN w0) as (c & width & height & e & w1 & O & K & M). unfold opened_by. rewrite O. cbn [bind].
  destruct c as [c|].
  - destruct M as (-> & SW & SH & N & I). cbn [Z.eqb negb].
    destruct (dims_limit_ok (e_cfg E) width height 1 4) as (big & -> & B); [apply SW|apply SH|lia|lia|apply pixel_max_nonneg, CF|].
    cbn [bind]. destruct big.
    + destruct (CLOSE _ _ _ _ _ _ I) as (w2 & -> & H2). cbn [bind]. eexists _, _, _, _, _. split; [reflexivity|].
      split; [apply known_rde; unfold RDETOOBIG; lia|]. split; [discriminate|exact H2].
    + destruct (proj1 B eq_refl) as (B1 & B2 & _ & B3 & B4). eexists _, _, _, _, _. split; [reflexivity|]. split; [exact K|].
      split; [reflexivity|]. split; [exact B1|]. split; [exact B2|]. split; [split; assumption|]. exists N. intros cs P.
      destruct (calls_ok width height w0 (within_sane E _ _ B1 B2 (conj B3 B4)) cs N c w1 I P) as (rs & c' & w' & N' & -> & S & I' & BN).
      destruct (CLOSE _ _ _ _ _ _ I') as (w3 & C & H3). exists rs, c', w', w3. split; [reflexivity|]. split; [exact C|].
      split; [exact H3|]. split; [exact S|]. lia.
  - destruct M as (NE & H). destruct (Z.eqb_spec e 0) as [->|D]; cbn [negb bind].
    + destruct NE as [NE|(-> & ->)]; [contradiction|]. cbn [dims_exceed_limit Z.eqb negb andb bind].
      eexists _, _, _, _, _. split; [reflexivity|]. split; [apply known_rde; unfold RDETOOBIG; lia|]. split; [discriminate|exact H].
    + eexists _, _, _, _, _. split; [reflexivity|]. split; [exact K|]. split; [exact D|exact H].
Qed.
End Contract.

(** ** Films: the replies follow from those of the single calls *)
Section Film.
Variables (rd : image_reader) (E : env) (filename : string) (width height : Z) (fs : list (list f32)).
Variable Inv : rd_ctx rd -> list (list f32) -> world -> Prop.
Hypothesis CF : config_ok (e_cfg E) = true.
Hypothesis SIZES : 1 <= width /\ 1 <= height.
Hypothesis OPEN : forall w0, exists c w1, rd_open rd filename w0 = Ok (Some c, width, height, RDEOK, w1) /\ Inv c fs w1 /\
  exists w2, rd_close rd c w1 = Ok w2.
Hypothesis READ : sane width height -> forall c fs w buf, Inv c fs w -> width * height <= zlen buf ->
  exists b e buf' c' w' fs', rd_read rd c buf width height w = Ok (b, e, buf', c', w') /\
    shown RDEOK (IRead (Some buf)) fs = (IFrame b e (Some buf'), fs') /\ Inv c' fs' w'.
Hypothesis SEEK : sane width height -> forall c fs w k, Inv c fs w -> 0 <= k ->
  exists b e calls c' w' fs', rd_seek rd c k w = Ok (b, e, calls, c', w') /\
    shown RDEOK (ISeek k) fs = (ISought b e calls, fs') /\ Inv c' fs' w'.

Lemma film_calls_ok : sane width height -> forall cs c fs w, Inv c fs w -> Forall (proper width height) cs ->
  exists c' w', calls_by rd c width height cs w = Ok (screening RDEOK cs fs, c', w').
Proof.
  intros SN. induction cs as [|call cs IH]; intros c fs0 w I P.
  { exists c, w. reflexivity. }
  inversion P as [|? ? (P1 & P2) P3]; subst. cbn [calls_by screening].
  assert (exists r c1 w1 fs1, call_by rd c width height call w = Ok (r, c1, w1) /\ shown RDEOK call fs0 = (r, fs1) /\ Inv c1 fs1 w1) as (r & c1 & w1 & fs1 & -> & -> & I1).
  { destruct call as [[buf|]|k]; cbn [call_by].
    - destruct (READ SN _ _ _ buf I) as (b & e & buf' & c' & w' & N' & -> & S1 & I1); [exact P1|]. cbn [bind]. eexists _, _, _, _. eauto.
    - eexists _, _, _, _. split; [reflexivity|]. split; [reflexivity|]. exact I.
    - destruct (SEEK SN _ _ _ k I (P2 k eq_refl)) as (b & e & calls & c' & w' & N' & -> & S1 & I1). cbn [bind]. eexists _, _, _, _. eauto. }
  cbn [bind]. destruct (IH c1 fs1 w1 I1 P3) as (c' & w' & ->). cbn [bind]. eexists _, _. reflexivity.
Qed.
Lemma projects_ok : projects rd E filename width height fs.
Proof.
  intros w0. destruct (OPEN w0) as (c & w1 & O & I & w2 & C). unfold opened_by. rewrite O. cbn [bind Z.eqb negb].
  destruct (dims_limit_ok (e_cfg E) width height 1 4) as (big & -> & B); [lia|lia|lia|lia|apply pixel_max_nonneg, CF|].
  cbn [bind]. destruct big.
  - exists c, w2. right. rewrite C. cbn [bind]. split; [|reflexivity]. intros (A1 & A2).
    discriminate (proj2 B). split; [apply SIZES|]. split; [apply SIZES|]. split; [lia|]. split; assumption.
  - destruct (proj1 B eq_refl) as (B1 & B2 & _ & B3 & B4). exists c, w1. left. split; [split; assumption|]. split; [reflexivity|].
    intros cs P. apply film_calls_ok; [exact (within_sane E _ _ B1 B2 (conj B3 B4))|exact I|exact P].
Qed.
End Film.

(** ** Bytes *)
Lemma store_bytes_skip : forall l buf i, 0 <= i -> i + zlen l <= zlen buf ->
  exists buf', store_bytes buf i l = Ok buf' /\ zlen buf' = zlen buf.
Proof.
  induction l as [|v l IH]; intros buf i I B; [exists buf; split; reflexivity|]. rewrite zlen_cons in B. pose proof (zlen_nonneg l). cbn [store_bytes].
  rewrite (proj2 (in_range_spec buf i)) by lia. destruct v as [c|].
  - rewrite set_upd by lia. cbn [bind]. destruct (IH (upd buf (Z.to_nat i) (Some c)) (i + 1)) as (b & -> & Q); [lia|rewrite zlen_upd; lia|].
    rewrite zlen_upd in Q. eauto.
  - cbn [bind]. apply IH; lia.
Qed.
Lemma store_bytes_app : forall (l a : list Z) (r : list (option Z)), zlen l <= zlen r ->
  store_bytes (map Some a ++ r) (zlen a) (map Some l) = Ok (map Some (a ++ l) ++ skipn (length l) r).
Proof.
  induction l as [|v l IH]; intros a r B; [rewrite app_nil_r; reflexivity|]. rewrite zlen_cons in B. pose proof (zlen_nonneg l).
  cbn [map store_bytes]. destruct r as [|x r]; [rewrite zlen_nil in B; lia|]. rewrite zlen_cons in B.
  rewrite (proj2 (in_range_spec _ _)) by (rewrite zlen_app, zlen_map, zlen_cons; pose proof (zlen_nonneg a); pose proof (zlen_nonneg r); lia).
  rewrite set_upd by (rewrite zlen_app, zlen_map, zlen_cons; pose proof (zlen_nonneg a); pose proof (zlen_nonneg r); lia). cbn [bind].
  replace (Z.to_nat (zlen a)) with (length (map Some a)) by (rewrite map_length; unfold zlen; lia). rewrite upd_app.
  replace (map Some a ++ Some v :: r) with (map Some (a ++ [v]) ++ r) by (rewrite map_app, <- app_assoc; reflexivity).
  replace (zlen a + 1) with (zlen (a ++ [v])) by (rewrite zlen_app; reflexivity). rewrite IH by lia. rewrite <- app_assoc. reflexivity.
Qed.
Lemma all_some : forall l : list (option Z), ~ In None l -> exists l', l = map Some l'.
Proof.
  induction l as [|[c|] l IH]; intros N; [exists []; reflexivity| |destruct N; left; reflexivity].
  destruct IH as (l' & ->); [intros Q; apply N; right; exact Q|]. exists (c :: l'). reflexivity.
Qed.
Lemma byte_value_at (bytes : list Z) i : 0 <= i < zlen bytes ->
  byte_value (map Some bytes) i = Ok (fdiv (f32_of_Z (at_ 0 bytes i)) (f32_of_Z 255)).
Proof.
  intros I. unfold byte_value. rewrite (get_at (Some 0)) by (rewrite zlen_map; exact I). cbn [bind].
  rewrite (at_map 0 (Some 0) Some) by exact I. reflexivity.
Qed.
(** a loop that stores a frame, sample by sample *)
Lemma store_loop n (f : Z -> f32) (body : Z -> list (option f32) -> res (list (option f32))) buf : 0 <= n <= zlen buf ->
  (forall i image, 0 <= i < n -> zlen image = zlen buf -> body i image = set image i (Some (f i))) ->
  for_range 0 n body buf = Ok (map Some (map f (zrange 0 n)) ++ skipn (Z.to_nat n) buf).
Proof.
  intros N B.
  destruct (for_range_inv (fun i image => image = splice buf 0 (map f (zrange 0 i))) body 0 n buf) as (s & E & Q).
  - lia.
  - rewrite zrange_empty by lia. cbn [map]. symmetry. apply splice_nil.
  - intros j im J ->.
    assert (ZL : zlen (map f (zrange 0 j)) = j) by (rewrite zlen_map, zlen_zrange; lia).
    assert (ZS : zlen (splice buf 0 (map f (zrange 0 j))) = zlen buf) by (apply splice_zlen; lia).
    rewrite B by (try exact ZS; lia). rewrite set_splice by lia. eexists. split; [reflexivity|].
    rewrite zrange_snoc by lia. rewrite map_app. cbn [map].
    rewrite <- (splice_splice buf 0 (map f (zrange 0 j)) [f j]); [rewrite ZL; reflexivity|lia|].
    change (zlen [f j]) with 1. lia.
  - rewrite E, Q, splice_0, !map_length. do 3 f_equal. unfold zrange. rewrite length_zseq. f_equal. lia.
Qed.

(** ** Opening files *)
Lemma open_stream_gives E Y filename w w0 bs : surroundings_ok E Y -> holds w w0 bs [] ->
  match open_stream Y filename w with
  | (inr errno, w') => 0 < errno <= INT_MAX /\ holds w' w0 bs []
  | (inl (f, s), w') => may_give Y filename s /\ holds w' w0 bs (opt_list f)
  end.
Proof.
  intros (_ & SY & CY) H. pose proof (open_stream_ok Y filename w w0 bs [] SY H) as O. revert O. unfold open_stream, may_give.
  destruct (String.eqb filename "-"); [intros (_ & O & _); rewrite app_nil_r in O; eauto|].
  destruct (y_fopen Y (w_count w) filename) as [s|errno] eqn:Q; cbn [open_file].
  - intros (_ & O & _). rewrite app_nil_r in O. eauto.
  - intros (_ & O). split; [|exact O]. destruct CY as (CY & _). exact (CY _ _ _ Q).
Qed.
Lemma open_stream_never_fails Y filename w : (forall n e, y_fopen Y n filename = inr e -> filename = "-"%string) ->
  exists f s w', open_stream Y filename w = (inl (f, s), w') /\ may_give Y filename s.
Proof.
  intros NO. unfold open_stream, may_give. destruct (String.eqb_spec filename "-") as [->|D]; [eexists _, _, _; split; [reflexivity|eauto]|].
  destruct (y_fopen Y _ filename) as [s|errno] eqn:Q; [|destruct D; eapply NO; exact Q]. cbn [open_file]. eexists _, _, _. split; [reflexivity|eauto].
Qed.
Lemma holds_object w w0 bs fs : holds w w0 bs fs -> holds (snd (library_object w)) w0 (fst (library_object w) :: bs) fs.
Proof. intros (P & F). split; [apply perm_skip; exact P|exact F]. Qed.
