(** The command line program. *)
From Coq Require Import Permutation Sorted Reals Lia Ascii String.
From Verif Require Import Base BaseProofs Flt Spec Util Methods Analysis Resdetect History SpecAnalysis SpecUtil SpecReport WorldProofs UtilProofs AnalysisProofs
  ResultsProofs ClientProofs ProgramProofs Stdio StdioProofs Pgm Pfm Y4m Image ImageHistory SpecImage ImageSafe FrameProofs ImageApi FileProofs
  Cli SpecCli CodeProofs.
Open Scope list_scope.
Open Scope Z_scope.

(** ** Printing *)
Lemma nth_get {A} (l : list A) i a : nth_error l i = Some a -> get l (Z.of_nat i) = Ok a.
Proof.
  intros H. unfold get, in_range. assert (L : (i < length l)%nat) by (apply nth_error_Some; congruence).
  destruct (Z.leb_spec 0 (Z.of_nat i)); [|lia]. destruct (Z.ltb_spec (Z.of_nat i) (zlen l)); [|unfold zlen in *; lia]. cbn.
  rewrite Nat2Z.id, H. reflexivity.
Qed.
Lemma for_list {A B} (g : A -> list B) l body : (forall i r out, nth_error l i = Some r -> body (Z.of_nat i) out = Ok (out ++ g r)) ->
  forall out, for_range 0 (zlen l) body out = Ok (out ++ flat_map g l).
Proof.
  intros H out. unfold for_range. rewrite Z.sub_0_r. unfold zlen. rewrite Nat2Z.id. change 0 with (Z.of_nat 0). 
  assert (G : forall n k out, (k + n = length l)%nat -> for_n n (Z.of_nat k) body out = Ok (out ++ flat_map g (skipn k l))).
  { induction n as [|n IH]; intros k o K.
    - rewrite skipn_all2 by lia. cbn. rewrite app_nil_r. reflexivity.
    - cbn [for_n]. destruct (nth_error l k) as [r|] eqn:N. 2: { apply nth_error_None in N. lia. }
      rewrite (H k r o N). cbn [bind]. replace (Z.of_nat k + 1) with (Z.of_nat (S k)) by lia. rewrite IH by lia.
      rewrite <- app_assoc. f_equal. f_equal. revert N. clear. revert l. induction k as [|k IH]; intros [|a l] N; try discriminate.
      + inversion N; subst. reflexivity.
      + cbn [skipn]. apply IH. exact N. }
  rewrite (G (length l) 0%nat out) by lia. reflexivity.
Qed.
Lemma for_lines {B} (g : nat -> list B) n body : (forall i out, (i < n)%nat -> body (Z.of_nat i) out = Ok (out ++ g i)) ->
  forall out, for_range 0 (Z.of_nat n) body out = Ok (out ++ flat_map g (seq 0 n)).
Proof.
  intros H out. rewrite <- (seq_length n 0) at 1. fold (zlen (seq 0 n)). apply for_list. intros i r o N.
  assert (L : (i < n)%nat) by (rewrite <- (seq_length n 0); apply nth_error_Some; congruence).
  pose proof (nth_error_nth _ _ 0%nat N) as Q. rewrite seq_nth in Q by exact L. cbn in Q. subst r. apply H. exact L.
Qed.

Lemma list_results_ok v l : list_results v l (zlen l) = Ok (flat_map (entry v) l ++ [Str newline]).
Proof.
  unfold list_results. rewrite (for_list (entry v) l).
  - reflexivity.
  - intros i r out N. rewrite (nth_get _ _ _ N). cbn [bind]. unfold entry. reflexivity.
Qed.

Lemma print_results_ok v ow oh lw lh : v <> 0 -> zlen lw < 2^64 - 1 -> zlen lh < 2^64 - 1 ->
  let rw := lw ++ [own_size ow] in let rh := lh ++ [own_size oh] in
  print_results v rw (zlen rw) rh (zlen rh) = Ok (printed v ow oh rw rh).
Proof.
  intros V BW BH rw rh. unfold print_results, printed. destruct (Z.eqb_spec v 0); [contradiction|].
  assert (LW : zlen rw = zlen lw + 1) by (unfold rw; rewrite zlen_app; reflexivity).
  assert (LH : zlen rh = zlen lh + 1) by (unfold rh; rewrite zlen_app; reflexivity).
  assert (BST : forall l o, exists r, nth_error (l ++ [own_size o]) 0 = Some r /\ best (l ++ [own_size o]) = r_index r).
  { intros [|r l] o; eexists; split; reflexivity. }
  destruct (BST lw ow) as (r1 & N1 & B1), (BST lh oh) as (r2 & N2 & B2). fold rw in N1, B1. fold rh in N2, B2.
  destruct (v =? 1).
  { change 0 with (Z.of_nat 0). rewrite (nth_get _ _ _ N1), (nth_get _ _ _ N2), B1, B2. reflexivity. }
  destruct ((v =? 2) || (v =? 3)).
  { rewrite !list_results_ok. cbn [bind]. rewrite <- !app_assoc. reflexivity. }
  pose proof (zlen_nonneg lw). pose proof (zlen_nonneg lh).
  rewrite !LW, !LH. rewrite !Z.add_simpl_r. rewrite (wrap_small (zlen lw)) by lia. rewrite (wrap_small (zlen lh)) by lia.
  assert (NL : forall l o, nth_error (l ++ [own_size o]) (length l) = Some (own_size o)).
  { intros l o. rewrite nth_error_app2, Nat.sub_diag by lia. reflexivity. }
  unfold zlen at 1 2. unfold rw at 1, rh at 1. rewrite (nth_get _ _ _ (NL lw ow)), (nth_get _ _ _ (NL lh oh)). cbn [bind].
  change (get rw 0) with (get rw (Z.of_nat 0)). change (get rh 0) with (get rh (Z.of_nat 0)).
  rewrite (nth_get _ _ _ N1), (nth_get _ _ _ N2). cbn [bind own_size r_index].
  assert (RL : forall l o, removelast (l ++ [own_size o]) = l) by (intros; apply removelast_last).
  assert (RW : removelast rw = lw) by apply RL. assert (RH : removelast rh = lh) by apply RL. rewrite RW, RH.
  assert (OO : (zlen lw + 1 =? 1) && (zlen lh + 1 =? 1) = own_only rw rh).
  { unfold own_only, rw, rh. rewrite !app_length. cbn [length]. unfold zlen.
    destruct (Z.eqb_spec (Z.of_nat (length lw) + 1) 1), (Z.eqb_spec (Z.of_nat (length lh) + 1) 1),
      (Nat.eqb_spec (length lw + 1) 1), (Nat.eqb_spec (length lh + 1) 1); try lia; reflexivity. }
  rewrite OO. rewrite <- B1, <- B2.
  replace (Z.max (zlen lw) (zlen lh)) with (Z.of_nat (Nat.max (length lw) (length lh))) by (unfold zlen; lia).
  rewrite (for_lines (table_line lw lh)).
  - f_equal. rewrite app_assoc. f_equal.
    assert (ZZ : (Z.of_nat (Nat.max (length lw) (length lh)) =? 0) = own_only rw rh).
    { rewrite <- OO. unfold zlen. destruct (Z.eqb_spec (Z.of_nat (Nat.max (length lw) (length lh))) 0),
        (Z.eqb_spec (Z.of_nat (length lw) + 1) 1), (Z.eqb_spec (Z.of_nat (length lh) + 1) 1); try lia; reflexivity. }
    rewrite ZZ. destruct (own_only rw rh); reflexivity.
  - intros i out I. unfold table_line.
    assert (GT : forall l o, match nth_error l i with
        | Some r => (Z.of_nat i <? zlen l) = true /\ get (l ++ [own_size o]) (Z.of_nat i) = Ok r
        | None => (Z.of_nat i <? zlen l) = false end).
    { intros l o. destruct (nth_error l i) as [r|] eqn:N.
      - assert (L : (i < length l)%nat) by (apply nth_error_Some; congruence). split; [apply Z.ltb_lt; unfold zlen; lia|].
        apply nth_get. rewrite nth_error_app1 by exact L. exact N.
      - apply nth_error_None in N. apply Z.ltb_ge. unfold zlen. lia. }
    pose proof (GT lw ow) as GW. pose proof (GT lh oh) as GH. fold rw in GW. fold rh in GH.
    destruct (nth_error lw i) as [a|].
    + destruct GW as (-> & ->). cbn [bind]. destruct (nth_error lh i) as [b|].
      * destruct GH as (-> & ->). cbn [bind]. unfold cell. cbn [app]. reflexivity.
      * rewrite GH. cbn [bind]. unfold cell. cbn [app]. reflexivity.
    + rewrite GW. cbn [bind]. destruct (nth_error lh i) as [b|].
      * destruct GH as (-> & ->). cbn [bind]. unfold cell. cbn [app]. reflexivity.
      * rewrite GH. cbn [bind]. reflexivity.
Qed.

(** ** The loop over the frames *)
Lemma frame_notes_next o k n : frame_notes o k (S n) = note "Analyzing frame " (wrap (k + 1 + o_offset o)) ++ frame_notes o (k + 1) n.
Proof.
  unfold frame_notes. cbn [seq flat_map]. rewrite <- seq_shift. rewrite Z.add_0_r. f_equal. rewrite !flat_map_concat_map, map_map. f_equal. apply map_ext. intros j. f_equal. f_equal. lia.
Qed.
Lemma analyze_loop_ok sz E Y o er im_end : relaxed Y -> (forall x, ext_spec (y_ext Y x) (sz x)) ->
  forall fs im, frames Y im fs er im_end -> image_ok sz im -> forall fuel image a k err w e a' w',
  (ctx_left Y (im_ctx im) < fuel)%nat -> zlen image = im_width im * im_height im ->
  0 <= k -> (o_nframes o = 0 \/ k < o_nframes o) ->
  let used := if o_nframes o =? 0 then fs else firstn (Z.to_nat (o_nframes o - k)) fs in
  k + zlen used < SIZE_MAX ->
  analyze_frames E used a w = Ok (e, a', w') ->
  exists ct im' err', analyze_loop fuel E Y o im image a (k + 1) err w =
      Ok (if e =? 0 then (if negb (o_nframes o =? 0) && (o_nframes o - k <=? zlen fs) then RDEOK else er) else e, ct, im', a', err', w') /\
    same_image sz im im' /\ (e = 0 -> ct = k + 1 + zlen used) /\ (o_progress o = false -> err' = err) /\
    (e = 0 -> o_progress o = true -> err' = err ++ frame_notes o k (length used)).
Proof.
  intros R X. induction fs as [|f fs IH]; intros im F K fuel image a k err w e a' w' FU ZI K0 NK used UB EA;
    (destruct fuel as [|fuel]; [lia|]); cbn [analyze_loop]; set (wh := im_width im * im_height im) in *.
  all: assert (D := proj1 K); assert (WH : 1 <= wh) by (destruct D as (? & ? & ?); unfold wh; nia).
  all: unfold read_at; rewrite ZI; destruct (Z.ltb_spec wh 0); [lia|]; change (0 <? 0) with false; cbn [orb].
  all: change (skipn (Z.to_nat 0) image) with image; change (firstn (Z.to_nat 0) image) with (@nil (option f32)).
  all: inversion F as [? ? ? ? G|? ? ? ? ? ? G F2]; subst.
  all: destruct (G image) as (t2 & EQ & LT & FT); [unfold zlen in ZI; fold wh; lia|]; rewrite EQ; cbn [bind app].
  all: destruct (gives_same sz Y _ _ _ _ _ R X K G) as (S & OKE & LFT); cbn [negb].
  - assert (U : used = []) by (unfold used; destruct (o_nframes o =? 0); [reflexivity|apply firstn_nil]). rewrite U in *.
    cbn [analyze_frames] in EA. inversion EA; subst. cbn [Z.eqb RDEOK]. change (zlen []) with 0.
    assert (Q : negb (o_nframes o =? 0) && (o_nframes o - k <=? 0) = false).
    { destruct (Z.eqb_spec (o_nframes o) 0); [reflexivity|]. cbn. apply Z.leb_gt. lia. }
    rewrite Q. do 3 eexists. split; [reflexivity|]. split; [exact S|]. split; [intros; lia|]. split; [reflexivity|]. intros _ _. symmetry. apply app_nil_r.
  - destruct (FT eq_refl) as (LF & ->). fold wh in LF. fold wh.
    assert (SK : skipn (Z.to_nat wh) image = []) by (apply skipn_all2; unfold zlen in ZI; lia). rewrite SK, app_nil_r, filled_some. cbn [bind].
    assert (U : exists used', used = f :: used' /\ used' = (if o_nframes o =? 0 then fs else firstn (Z.to_nat (o_nframes o - k) - 1) fs)).
    { unfold used. destruct (Z.eqb_spec (o_nframes o) 0); [eauto|].
      destruct (Z.to_nat (o_nframes o - k)) as [|n1] eqn:N1; [lia|]. exists (firstn n1 fs). cbn [firstn]. rewrite Nat.sub_succ, Nat.sub_0_r. auto. }
    destruct U as (used' & U & U'). rewrite U in *. rewrite zlen_cons in UB. pose proof (zlen_nonneg used').
    cbn [analyze_frames] in EA. destruct (resdet_analyze_image E a (Some f) w) as [[[e1 a1] w1]|]; [|discriminate]. cbn [bind] in *.
    set (err1 := if o_progress o then _ else err).
    assert (ER1 : o_progress o = false -> err1 = err) by (unfold err1; intros ->; reflexivity).
    assert (ER2 : o_progress o = true -> err1 = err ++ note "Analyzing frame " (wrap (k + 1 + o_offset o))) by (unfold err1; intros ->; reflexivity).
    destruct (Z.eqb_spec e1 0) as [->|NZ]; cbn [negb] in *.
    + unfold SIZE_MAX in UB. rewrite (wrap_small (k + 1 + 1)) by lia.
      destruct (negb (o_nframes o =? 0) && (k + 1 + 1 >? o_nframes o)) eqn:LAST.
      * apply andb_prop in LAST. destruct LAST as (L1 & L2). apply negb_true_iff in L1. rewrite L1 in *. apply Z.eqb_neq in L1.
        assert (NF : o_nframes o - k = 1) by lia. rewrite NF in *. cbn [Z.to_nat Pos.to_nat Pos.iter_op Nat.sub] in U'.
        change (firstn (Pos.to_nat 1 - 1) fs) with (@nil (list f32)) in U'. subst used'.
        cbn [analyze_frames] in EA. inversion EA; subst. cbn [negb andb Z.eqb RDEOK]. rewrite zlen_cons. pose proof (zlen_nonneg fs).
        destruct (Z.leb_spec 1 (zlen fs + 1)); [|lia]. do 3 eexists. split; [reflexivity|]. split; [exact S|].
        split; [intros _; reflexivity || (rewrite zlen_cons; change (zlen (@nil (list f32))) with 0; lia)|]. split; [exact ER1|].
        intros _ P. rewrite (ER2 P). unfold frame_notes. cbn [length seq flat_map app Z.of_nat]. rewrite Z.add_0_r, app_nil_r. reflexivity.
      * destruct S as (K1 & SB & SF & SW & SH).
        assert (NK' : o_nframes o = 0 \/ k + 1 < o_nframes o).
        { destruct NK as [NK|NK]; [left; exact NK|]. destruct (Z.eqb_spec (o_nframes o) 0); [left; assumption|]. cbn in LAST. right. lia. }
        assert (U2 : used' = (if o_nframes o =? 0 then fs else firstn (Z.to_nat (o_nframes o - (k + 1))) fs)).
        { rewrite U'. destruct (o_nframes o =? 0); [reflexivity|]. f_equal. lia. }
        specialize (IH im1 F2 K1 fuel (map Some f) a1 (k + 1) err1 w1 e a' w'). cbv zeta in IH. rewrite <- U2 in IH.
        destruct IH as (ct & im' & err' & -> & S' & CT & EP & EN).
        { specialize (LFT eq_refl). lia. } { rewrite SW, SH. fold wh. unfold zlen. rewrite map_length. lia. } { lia. } { exact NK'. }
        { unfold SIZE_MAX. lia. } { exact EA. }
        exists ct, im', err'. split.
        { f_equal. f_equal. f_equal. f_equal. f_equal. f_equal. rewrite zlen_cons. replace (o_nframes o - (k + 1) <=? zlen fs) with (o_nframes o - k <=? zlen fs + 1); [reflexivity|].
          destruct (Z.leb_spec (o_nframes o - k) (zlen fs + 1)), (Z.leb_spec (o_nframes o - (k + 1)) (zlen fs)); try reflexivity; lia. }
        split; [eapply same_image_trans; [split; [exact K1|]; auto|exact S']|]. rewrite zlen_cons. split; [intros Z0; rewrite (CT Z0); lia|].
        split; [intros P; rewrite (EP P); exact (ER1 P)|]. intros Z0 P. rewrite (EN Z0 P), (ER2 P), <- app_assoc. f_equal. symmetry. apply frame_notes_next.
    + inversion EA; subst. destruct (Z.eqb_spec e 0); [contradiction|]. do 3 eexists. split; [reflexivity|]. split; [exact S|].
      split; [intros; contradiction|]. split; [exact ER1|intros; contradiction].
Qed.

(** ** Error messages *)
Lemma error_message e : known_code e -> exists m, resdet_error_str e = Ok m /\ m <> NoMsg.
Proof.
  unfold known_code, INT_MAX, RDENOIMG. intros (L & U). unfold resdet_error_str. destruct (Z.ltb_spec e 0).
  - destruct (Z.eqb_spec e (- 2^31)); [lia|]. eexists. split; [reflexivity|discriminate].
  - assert (C : exists n, e = Z.of_nat n /\ (n <= Z.to_nat RDENOIMG)%nat) by (exists (Z.to_nat e); unfold RDENOIMG; lia).
    destruct C as (n & -> & N). change (Z.to_nat RDENOIMG) with (Z.to_nat RDENOIMG) in N. clear - N. revert N. unfold RDENOIMG. cbn [Z.to_nat Pos.to_nat Pos.iter_op Nat.add]. intros N.
    repeat (destruct n as [|n]; [eexists; split; [vm_compute; reflexivity|intros Q; vm_compute in Q; discriminate Q]|]). exfalso. vm_compute in N. lia.
Qed.

Lemma frames_code Y (C : codes_ok Y) sz im fs er im' : (forall x, ext_spec (y_ext Y x) (sz x)) -> relaxed Y -> image_ok sz im -> frames Y im fs er im' -> known_code er.
Proof.
  intros X R K F. revert K. induction F as [im e f im' G|im f im1 fs e im2 G F IH]; intros K.
  - destruct (G (repeat None (Z.to_nat (im_width im * im_height im)))) as (t & EQ & _).
    { rewrite repeat_length. destruct K as ((? & ? & ?) & _). lia. }
    exact (read_code Y C _ _ _ _ _ _ EQ).
  - apply IH. destruct (gives_same sz Y _ _ _ _ _ R X K G) as (S & _). apply S.
Qed.

(** ** The end of the program *)
Definition opt_block (o : option (nat * list rdres)) : list nat := match o with Some (b, _) => [b] | None => [] end.
Definition state_blocks (s : state) : list nat := match s_an s with Some a => an_blocks a | None => [] end.
Lemma free_opt_ok (o : option (nat * list rdres)) w w0 bs fs : holds w w0 (opt_block o ++ bs) fs ->
  exists w', free_opt (option_map fst o) w = Ok w' /\ holds w' w0 bs fs.
Proof. destruct o as [[b l]|]; cbn; intros H; [apply holds_free; exact H|eauto]. Qed.
Lemma finish_ok sz v blk b s im w0 leak : s_im s = Some im -> image_ok sz im ->
  holds (s_world s) w0 (state_blocks s ++ image_blocks im ++ b :: blk :: opt_block (s_rw s) ++ opt_block (s_rh s) ++ leak) (image_files im) ->
  known_code (s_e s) -> (s_e s = 0 -> s_ret s = 0 -> exists c, s_counts s = Some c) ->
  exists x w', finish v blk (Some b) s = Ok (x, w') /\ holds w' w0 leak [] /\
    (s_e s <> 0 -> exists m, resdet_error_str (s_e s) = Ok m /\ m <> NoMsg /\ x = mkExit 1 (s_out s) (s_err s ++ [Message m; Str newline])) /\
    (s_e s = 0 -> s_ret s <> 0 -> x = mkExit (s_ret s) (s_out s) (s_err s)) /\
    (forall cw ch, s_e s = 0 -> s_ret s = 0 -> s_counts s = Some (cw, ch) ->
       x = mkExit (if (v =? 0) && ((cw =? 1) && (ch =? 1)) then 1 else 0) (s_out s) (s_err s)).
Proof.
  intros SI K H KC CT. unfold finish.
  assert (Q1 : exists w1, resdet_destroy_analysis (s_an s) (s_world s) = Ok w1 /\
    holds w1 w0 (image_blocks im ++ b :: blk :: opt_block (s_rw s) ++ opt_block (s_rh s) ++ leak) (image_files im)).
  { unfold state_blocks in H. destruct (s_an s) as [a|]; [apply holds_destroy; exact H|exists (s_world s); split; [reflexivity|exact H]]. }
  destruct Q1 as (w1 & -> & H1). cbn [bind]. rewrite SI. rewrite <- (app_nil_r (image_files im)) in H1.
  destruct (close_image_ok sz im w1 w0 _ _ K H1) as (w2 & -> & H2). cbn [bind free_opt].
  destruct (holds_free _ _ _ _ _ H2) as (w3 & -> & H3). cbn [bind]. destruct (holds_free _ _ _ _ _ H3) as (w4 & -> & H4). cbn [bind].
  destruct (free_opt_ok _ _ _ _ _ H4) as (w5 & -> & H5). cbn [bind]. destruct (free_opt_ok _ _ _ _ _ H5) as (w6 & -> & H6). cbn [bind].
  destruct (Z.eqb_spec (s_e s) 0) as [Z0|NZ].
  - cbn [bind]. destruct (Z.eqb_spec (s_ret s) 0) as [R0|NR]; cbn [negb].
    + destruct (CT Z0 R0) as ([cw ch] & EC). rewrite EC.
      destruct (v =? 0); (eexists _, _; split; [reflexivity|]; split; [exact H6|]; split; [contradiction|]; split; [intros; contradiction|];
        intros cw' ch' _ _ Q; inversion Q; subst; cbn [andb]; rewrite ?R0; reflexivity).
    + eexists _, _. split; [reflexivity|]. split; [exact H6|]. split; [contradiction|]. split; [reflexivity|]. intros. contradiction.
  - destruct (error_message _ KC) as (m & EM & NM). rewrite EM. cbn [bind].
    assert (Q : exists x, (match m with NoMsg => Undef NullDeref | m => Ok (1, s_err s ++ [Message m; Str newline]) end) = Ok x /\ x = (1, s_err s ++ [Message m; Str newline])).
    { destruct m; (contradiction NM; reflexivity) || (eexists; split; reflexivity). }
    destruct Q as (x & -> & ->). cbn [bind Z.eqb negb].
    eexists _, _. split; [reflexivity|]. split; [exact H6|]. split; [|split; [intros; contradiction|intros; contradiction]].
    intros _. exists m. auto.
Qed.

(** ** Analysis of an open image *)
Lemma good_length E m p Ds len l : good_list E m p Ds len l -> 1 <= used_range (e_cfg E) m p -> 0 <= len < 2^64 ->
  exists l', l = l' ++ [own_size len] /\ zlen l' < 2^64 - 1.
Proof.
  intros [_ (l' & -> & P & _)] UR LN. exists l'. split; [reflexivity|].
  apply Permutation_length in P. unfold pairs, found in P. rewrite !map_length in P. unfold zlen. rewrite <- P.
  assert (L : forall (f : Z -> bool) q, (length (filter f q) <= length q)%nat).
  { intros f q. induction q as [|a q IH]; cbn; [lia|]. destruct (f a); cbn; lia. }
  match goal with |- Z.of_nat (length (filter ?f ?q)) < _ => specialize (L f q) end.
  unfold window in *. unfold zrange in L at 2. rewrite length_zseq in L. lia.
Qed.

(** what [detect] comes to *)
Definition detect_outcome (E : env) (Y : system) (o : opts) (m : method) (p : params) (width height : Z) (i : rdimage) (w : world) (s : state) (b : bool)
    (i1 : rdimage) (w1 : world) (leak : list nat) : Prop :=
  (b = false /\ leak = [] /\ s_out s = [] /\ (s_e s <> 0 \/ (s_e s = 0 /\ s_ret s = 1 /\ s_err s <> []))) \/
  (b = true /\ exists fs er i2, frames Y i1 fs er i2 /\
    let used := first_frames (o_nframes o) fs in
    exists e o' wd, by_hand_file E used (end_error (o_nframes o) fs er) width height everything (Some m) (Some p) no_outs w1 = Ok (e, o', wd) /\
    (leak = [] \/ (leaky_failure E width height w1 /\ exists l, leak = [l])) /\
    ((e <> RDEOK /\ s_out s = [] /\
       (s_e s = e \/ (used = [] /\ e = RDENOIMG /\ s_e s = 0 /\ s_ret s = 1 /\ exists pre, s_err s = pre ++ [Str "No frames left in input."; Str newline] /\ (o_progress o = false -> pre = [])))) \/
     (e = RDEOK /\ s_e s = 0 /\ s_ret s = 0 /\ exists bw rw bh rh, o_rw o' = Some (bw, rw) /\ o_rh o' = Some (bh, rh) /\
        s_counts s = Some (zlen rw, zlen rh) /\ s_out s = printed (o_verbosity o) width height rw rh /\
        exists calls, sought E Y (o_offset o) i w calls /\ s_err s = notes o calls (length used))) /\
    (o_progress o = false -> (s_e s <> 0 \/ s_ret s = 0) -> s_err s = [])).

Lemma detect_ok sz E Y o m p input i b0 width height w w0 bs fls : env_ok E -> client_params (e_cfg E) (Some (auto_filter o input p)) ->
  relaxed Y -> codes_ok Y -> (forall x, ext_spec (y_ext Y x) (sz x)) -> image_ok sz i -> im_width i = width -> im_height i = height -> 0 <= o_nframes o ->
  holds w w0 (b0 :: image_blocks i ++ bs) (image_files i ++ fls) ->
  exists b e1 i1 w1, after_seek E Y (o_offset o) i w = Ok (b, e1, Some i1, w1) /\ same_image sz i i1 /\
  ((b = true -> forall fs er i2, frames Y i1 fs er i2 -> countable (first_frames (o_nframes o) fs)) ->
  exists s leak i3, detect E Y o m p input i width height (repeat None (Z.to_nat (width * height))) w = Ok s /\
    s_im s = Some i3 /\ same_image sz i i3 /\ known_code (s_e s) /\ (s_e s = 0 -> s_ret s = 0 -> exists c, s_counts s = Some c) /\
    holds (s_world s) w0 (state_blocks s ++ image_blocks i3 ++ b0 :: bs ++ opt_block (s_rw s) ++ opt_block (s_rh s) ++ leak) (image_files i3 ++ fls) /\
    detect_outcome E Y o m (auto_filter o input p) width height i w s b i1 w1 leak).
Proof.
  intros EO CP RX CO X K W H NF HO. assert (CF := eo_config _ EO). assert (D := proj1 K). rewrite W, H in D. destruct D as (D1 & D2 & D3). unfold SIZE_MAX in D3.
  unfold detect.
  match goal with |- context [bind ?sk _] => set (SK := sk) end.
  assert (SEEK : exists b e1 ret i1 err w1, SK = Ok (b, e1, ret, i1, err, w1) /\ after_seek E Y (o_offset o) i w = Ok (b, e1, Some i1, w1) /\ same_image sz i i1 /\
    known_code e1 /\ holds w1 w0 (b0 :: image_blocks i ++ bs) (image_files i ++ fls) /\
    ((b = true /\ ret = 0 /\ (o_progress o = false -> err = []) /\ exists calls, sought E Y (o_offset o) i w calls /\ (o_progress o = true -> err = seek_notes o calls)) \/ (b = false /\ (e1 <> 0 /\ ret = 0 \/ (e1 = 0 /\ ret = 1 /\ err <> []))))).
  { unfold SK, after_seek, sought, seek_notes. destruct (Z.eqb_spec (o_offset o) 0) as [OZ|OZ].
    - eexists true, 0, 0, i, [], w. split; [reflexivity|]. split; [reflexivity|]. split; [apply same_image_refl; exact K|]. split; [apply known_const; reflexivity|]. split; [exact HO|]. left. split; [reflexivity|]. split; [reflexivity|]. split; [reflexivity|]. exists []. auto.
    - destruct (reader_seek_ok sz E Y (im_ctx i) (o_offset o) (im_width i) (im_height i) w w0 _ _ RX X (proj1 K) (proj2 K) HO) as (b & e & calls & c' & w1 & EQ & C1 & B1 & F1 & H1).
      assert (SQ : resdet_seek_frame E Y (Some i) (o_offset o) w = Ok (b, e, calls, Some (mkImage (im_blk i) c' (im_width i) (im_height i)), w1)).
      { unfold resdet_seek_frame. rewrite EQ. reflexivity. }
      pose proof (seek_code Y CO _ _ _ _ _ _ _ _ _ SQ) as KC. rewrite SQ. cbn [bind].
      assert (SI : same_image sz i (mkImage (im_blk i) c' (im_width i) (im_height i))).
      { split; [split; [exact (proj1 K)|exact C1]|]. unfold image_blocks, image_files. cbn. rewrite B1, F1. auto. }
      destruct b; [|destruct (Z.eqb_spec e 0) as [E0|NE]]; (eexists _, _, _, _, _, _; split; [reflexivity|]; split; [reflexivity|]; split; [exact SI|]; split; [exact KC|]; split; [exact H1|]).
      + left. split; [reflexivity|]. split; [reflexivity|]. split; [intros P; unfold seek_messages; rewrite P; reflexivity|]. exists calls. split; [right; eexists _, _, _; reflexivity|]. intros P. rewrite P. reflexivity.
      + right. split; [reflexivity|]. right. split; [exact E0|]. split; [reflexivity|]. intros Q. apply app_eq_nil in Q. destruct Q. discriminate.
      + right. split; [reflexivity|]. left. auto. }
  destruct SEEK as (b & e1 & ret & i1 & err & w1 & -> & AS & SI & KC1 & H1 & CASES). exists b, e1, i1, w1. split; [exact AS|]. split; [exact SI|]. intros CT.
  cbn [bind].
  assert (SI0 := SI). destruct SI as (K1 & SB & SF & SW & SH).
  assert (REST : forall i3 xs, same_image sz i i3 -> Permutation (xs ++ b0 :: image_blocks i ++ bs) (xs ++ image_blocks i3 ++ b0 :: bs)).
  { intros i3 xs (_ & -> & _). apply Permutation_app_head. apply Permutation_middle. }
  destruct b; cbn [negb].
  2: { destruct CASES as [(Q & _)|(_ & C)]; [discriminate|]. eexists _, [], i1. split; [reflexivity|]. cbn [s_im s_an s_rw s_rh s_e s_ret s_counts s_out s_err s_world state_blocks opt_block app].
       split; [reflexivity|]. split; [exact SI0|]. split; [exact KC1|].
       split; [intros E0 R0; destruct C as [(NE & _)|(_ & R1 & _)]; [contradiction|congruence]|].
       split. { unfold state_blocks; cbn [s_an]. rewrite !app_nil_r. rewrite SF. cbn [app]. eapply holds_perm; [exact H1|]. apply (REST i1 [] SI0). }
       left. cbn [s_im s_an s_rw s_rh s_e s_ret s_counts s_out s_err s_world]. split; [reflexivity|]. split; [reflexivity|]. split; [reflexivity|].
       destruct C as [(NE & ->)|(-> & -> & NE)]; [left; exact NE|right; auto]. }
  destruct CASES as [(_ & -> & EP & calls & SOUGHT & EPT)|(Q & _)]; [|discriminate].
  set (q := auto_filter o input p) in *.
  assert (HC : client_ok E width height (Some q)) by (split; [exact EO|]; split; [nia|]; split; [nia|exact CP]).
  destruct (client_sizes _ _ _ _ HC) as (Hw & Hh).
  destruct (all_frames sz Y RX X (ctx_left Y (im_ctx i1)) i1 K1 (Nat.le_refl _)) as (fs & er & i2 & F & _ & _).
  specialize (CT eq_refl fs er i2 F). pose proof (frames_code Y CO sz i1 fs er i2 X RX K1 F) as KER.
  pose proof (left_bound Y (im_ctx i1)) as LB. set (used := first_frames (o_nframes o) fs) in *.
  assert (UZ : zlen used < SIZE_MAX) by (apply (proj1 (countable_zlen _)) in CT; exact CT).
  destruct (create_ok E (Some m) width height (Some q) w1 CF Hw Hh (client_valid _ _ _ _ HC)) as (ao & e & wd1 & EC & HCR).
  rewrite EC. cbn [bind].
  destruct ao as [a|].
  2: { destruct HCR as (CE & leak & OL & HL).
    assert (NZ : e <> 0 /\ known_code e). { destruct CE as [(-> & _)|[(-> & _)|[(-> & _)|(-> & _)]]]; (split; [discriminate|apply known_const; reflexivity]). }
    destruct NZ as (NZ & KE). destruct (Z.eqb_spec e 0); [contradiction|]. cbn [negb].
    eexists _, leak, i1. split; [reflexivity|]. cbn [s_im s_an s_rw s_rh s_e s_ret s_counts s_out s_err s_world opt_block app].
    split; [reflexivity|]. split; [exact SI0|]. split; [exact KE|]. split; [intros; contradiction|].
    split.
    { unfold state_blocks. cbn [s_an]. rewrite SF. eapply holds_perm; [exact (holds_owns _ _ _ _ _ _ OL H1)|]. cbn [app].
      eapply Permutation_trans; [apply (REST i1 leak SI0)|].
      eapply Permutation_trans; [apply Permutation_app_comm|]. rewrite <- app_assoc. cbn [app]. reflexivity. }
    right. split; [reflexivity|]. exists fs, er, i2. split; [exact F|]. cbv zeta. fold used. unfold by_hand_file. rewrite EC. cbn [bind].
    eexists _, _, _. split; [reflexivity|]. cbn [s_im s_an s_rw s_rh s_e s_ret s_counts s_out s_err s_world].
    split; [destruct HL as [->|(L1 & L2)]; [left; reflexivity|right; split; [apply leaks_leaky, L2|exact L1]]|].
    split; [left; split; [exact NZ|]; split; [reflexivity|left; reflexivity]|]. intros P _. exact (EP P). }
  destruct HCR as (-> & PF & _ & OW). cbn [Z.eqb negb RDEOK].
  assert (R0 : reaches E (Some m) width height (Some q) [] a) by (econstructor; exact EC).
  pose proof (leaks_frames _ _ _ _ _ F) as FB. rewrite SW, SH, W, H in FB.
  assert (FB' : Forall (fun f => width * height <= zlen f) used).
  { unfold used, first_frames. destruct (o_nframes o =? 0); [exact FB|]. apply Forall_forall. intros f I.
    rewrite Forall_forall in FB. apply FB. revert I. generalize (Z.to_nat (o_nframes o)). clear. intros n. revert fs. induction n; intros [|a l]; cbn; try tauto.
    intros [->|I]; auto. }
  destruct (analyze_frames_ok E (Some m) width height (Some q) used HC FB' [] a wd1 R0) as (e & a1 & wd2 & EQ1 & O1 & AB & H').
  { change (zlen []) with 0. lia. }
  assert (U1 : used = (if o_nframes o =? 0 then fs else firstn (Z.to_nat (o_nframes o - 0)) fs)) by (rewrite Z.sub_0_r; reflexivity).
  pose proof (analyze_loop_ok sz E Y o er i2 RX X fs i1 F K1 (Datatypes.S (frames_bound Y (im_ctx i1))) (repeat None (Z.to_nat (width * height))) (Some a) 0 err wd1 e (Some a1) wd2) as AL.
  cbv zeta in AL. rewrite <- U1 in AL. rewrite Z.sub_0_r in AL.
  destruct AL as (ct & i3 & err' & EQL & S3 & CTE & EP' & EPN).
  { lia. } { rewrite zlen_repeat, SW, SH, W, H. nia. } { lia. } { lia. } { lia. } { exact EQ1. }
  change (0 + 1) with 1 in EQL. rewrite EQL. cbn [bind]. fold (end_error (o_nframes o) fs er).
  assert (ES : (if negb (o_nframes o =? 0) && (o_nframes o <=? zlen fs) then RDEOK else er) = end_error (o_nframes o) fs er) by reflexivity.
  rewrite ES. set (er' := end_error (o_nframes o) fs er) in *.
  assert (KER' : known_code er'). { unfold er', end_error. destruct (_ && _); [apply known_const; reflexivity|exact KER]. }
  set (e2 := if e =? 0 then er' else e).
  assert (KE2 : known_code e2). { unfold e2. destruct (e =? 0); [exact KER'|]. destruct H' as [(-> & _)|[(-> & _)|(-> & _)]]; apply known_const; reflexivity. }
  assert (SI3 : same_image sz i i3) by (eapply same_image_trans; eassumption).
  assert (O2 : owns wd2 w1 (an_blocks a1)) by (rewrite AB; exact (owns_trans _ _ _ [] _ O1 OW)).
  assert (EP2 : o_progress o = false -> err' = []) by (intros P; rewrite (EP' P); exact (EP P)).
  assert (NL : image_files i3 = image_files i) by apply SI3.
  (* by hand *)
  assert (BH : forall r, (if e2 =? 0 then resdet_analysis_results E (Some a1) everything no_outs wd2 else Ok (e2, clear_outs everything no_outs, wd2)) = Ok r ->
     forall e3 o' wd3, r = (e3, o', wd3) -> owns wd3 wd2 (out_blocks everything o') ->
     exists wd, by_hand_file E used er' width height everything (Some m) (Some q) no_outs w1 = Ok (e3, o', wd)).
  { intros r ER e3 o' wd3 -> OB. unfold by_hand_file. rewrite EC. cbn [bind]. rewrite EQ1. cbn [bind]. fold e2. rewrite ER. cbn [bind].
    assert (O3 : owns wd3 w1 (an_blocks a1 ++ out_blocks everything o')).
    { eapply owns_perm; [eapply owns_trans; [exact OB|exact O2]|]. apply Permutation_app_comm. }
    destruct (destroy_ok _ _ _ _ O3) as (wd4 & EQ4 & O4 & _). rewrite EQ4. cbn [bind]. eexists. reflexivity. }
  assert (HOLD : holds wd2 w0 (an_blocks a1 ++ image_blocks i3 ++ b0 :: bs) (image_files i3 ++ fls)).
  { rewrite NL. eapply holds_perm; [exact (holds_owns _ _ _ _ _ _ O2 H1)|]. apply (REST i3 _ SI3). }
  destruct (Z.eqb_spec e2 0) as [Z2|NZ2].
  2: { cbn [andb negb]. eexists _, [], i3. split; [reflexivity|]. cbn [s_im s_an s_rw s_rh s_e s_ret s_counts s_out s_err s_world opt_block app].
       split; [reflexivity|]. split; [exact SI3|]. split; [exact KE2|]. split; [intros; contradiction|].
       split. { unfold state_blocks. cbn [s_an]. rewrite !app_nil_r. exact HOLD. }
       right. split; [reflexivity|]. exists fs, er, i2. split; [exact F|]. cbv zeta. fold used. fold er'.
       destruct (BH _ eq_refl _ _ _ eq_refl) as (wd & BH'). { rewrite clear_blocks. apply owns_refl. }
       eexists _, _, _. split; [exact BH'|]. cbn [s_im s_an s_rw s_rh s_e s_ret s_counts s_out s_err s_world].
       split; [left; reflexivity|]. split; [left; split; [exact NZ2|]; split; [reflexivity|left; reflexivity]|].
       intros P _. rewrite P. exact (EP2 P). }
  assert (Z0 : e = RDEOK). { unfold e2 in Z2. destruct (Z.eqb_spec e 0); [assumption|]. contradiction. }
  destruct H' as [(_ & R1 & V)|[(Y1 & _)|(Y1 & _)]]; [|subst e; discriminate|subst e; discriminate].
  cbn [app] in R1. specialize (CTE Z0). cbn [andb].
  destruct (history_results E (Some m) width height (Some q) used a1 everything no_outs wd2 HC R1 UZ) as (e3 & o' & wd3 & EQ3 & HR).
  destruct (Z.eqb_spec ct 1) as [C1|NC].
  - assert (UN : used = []). { destruct used as [|u us]; [reflexivity|]. rewrite zlen_cons in CTE. pose proof (zlen_nonneg us). lia. }
    destruct HR as [(-> & BW & _)|[(-> & _ & _ & -> & ->)|[(-> & _ & NU & _)|(-> & _ & NU & _)]]]; [discriminate BW| |contradiction|contradiction].
    eexists _, [], i3. split; [reflexivity|]. cbn [s_im s_an s_rw s_rh s_e s_ret s_counts s_out s_err s_world opt_block app].
    split; [reflexivity|]. split; [exact SI3|]. split; [exact KE2|]. split; [intros; discriminate|].
    split. { unfold state_blocks. cbn [s_an]. rewrite !app_nil_r. exact HOLD. }
    right. split; [reflexivity|]. exists fs, er, i2. split; [exact F|]. cbv zeta. fold used. fold er'.
    destruct (BH _ EQ3 _ _ _ eq_refl) as (wd & BH'). { rewrite clear_blocks. apply owns_refl. }
    eexists _, _, _. split; [exact BH'|]. cbn [s_im s_an s_rw s_rh s_e s_ret s_counts s_out s_err s_world].
    split; [left; reflexivity|]. split; [left; split; [discriminate|]; split; [reflexivity|right]|].
    + split; [exact UN|]. split; [reflexivity|]. split; [exact Z2|]. split; [reflexivity|]. exists err'. split; [reflexivity|exact EP2].
    + intros P [NZ|Q]; [contradiction|discriminate].
  - assert (UN : used <> []). { intros ->. apply NC. rewrite CTE. reflexivity. }
    cbn [negb]. change (mkWants true true true true) with everything. change (mkOuts None 0 None 0) with no_outs. rewrite EQ3. cbn [bind].
    destruct HR as [(-> & BW & _)|[(-> & _ & NU & _)|[(-> & _ & _ & -> & OB & _)|(-> & _ & _ & obs & FL & OB)]]]; [discriminate BW|contradiction| |].
    + cbn [Z.eqb negb orb RDENOMEM]. eexists _, [], i3. split; [reflexivity|].
      cbn [s_im s_an s_rw s_rh s_e s_ret s_counts s_out s_err s_world clear_outs everything want_rw want_rh want_cw want_ch no_outs o_rw o_rh o_cw o_ch opt_block app].
      split; [reflexivity|]. split; [exact SI3|]. split; [apply known_const; reflexivity|]. split; [discriminate|].
      split. { unfold state_blocks. cbn [s_an]. rewrite !app_nil_r. exact (holds_owns _ _ _ _ _ _ OB HOLD). }
      right. split; [reflexivity|]. exists fs, er, i2. split; [exact F|]. cbv zeta. fold used. fold er'.
      destruct (BH _ EQ3 _ _ _ eq_refl) as (wd & BH'). { rewrite clear_blocks. exact OB. }
      eexists _, _, _. split; [exact BH'|]. cbn [s_im s_an s_rw s_rh s_e s_ret s_counts s_out s_err s_world].
      split; [left; reflexivity|]. split; [left; split; [discriminate|]; split; [reflexivity|left; reflexivity]|].
      intros P _. rewrite P. exact (EP2 P).
    + assert (FL0 := FL). destruct FL as (bx & by_ & ERW & ECW & ERH & ECH & EBS). cbn [everything want_rw want_rh] in ERW, ECW, ERH, ECH, EBS.
      pose proof (list_x_good E (Some m) width height (Some q) used a1 HC R1 UZ UN) as GX. pose proof (list_y_good E (Some m) width height (Some q) used a1 HC R1 UZ UN) as GY.
      set (lx := list_x E (Some m) width height (Some q) used) in *. set (ly := list_y E (Some m) width height (Some q) used) in *.
      assert (UR : 1 <= used_range (e_cfg E) (Some m) (Some q)) by (pose proof (client_valid _ _ _ _ HC) as V0; destruct V0 as [V0 _ _]; unfold used_range; destruct (used_method (Some m)); lia).
      destruct (good_length _ _ _ _ _ _ GX) as (lx' & EX & BX); [lia|lia|]. destruct (good_length _ _ _ _ _ _ GY) as (ly' & EY & BY); [lia|lia|].
      assert (CNT : forall s, s_counts s = Some (o_cw o', o_ch o') -> s_counts s = Some (zlen lx, zlen ly)) by (intros s0; rewrite ECW, ECH; auto).
      assert (PR : (if negb (RDEOK =? 0) || (o_verbosity o =? 0) then Ok (mkState RDEOK 0 (Some i3) (Some a1) (o_rw o') (o_rh o') (Some (o_cw o', o_ch o')) [] (if o_progress o then err' ++ [Str newline] else err') wd3) else
           match o_rw o' with Some (_, rw) => match o_rh o' with Some (_, rh) =>
              out <- print_results (o_verbosity o) rw (o_cw o') rh (o_ch o') ;; Ok (mkState RDEOK 0 (Some i3) (Some a1) (o_rw o') (o_rh o') (Some (o_cw o', o_ch o')) out (if o_progress o then err' ++ [Str newline] else err') wd3)
              | None => Undef NullDeref end | None => Undef NullDeref end) =
           Ok (mkState RDEOK 0 (Some i3) (Some a1) (Some (bx, lx)) (Some (by_, ly)) (Some (zlen lx, zlen ly)) (printed (o_verbosity o) width height lx ly) (if o_progress o then err' ++ [Str newline] else err') wd3)).
      { rewrite ERW, ERH, ECW, ECH. cbn [RDEOK Z.eqb negb orb]. destruct (Z.eqb_spec (o_verbosity o) 0) as [V0|NV].
        - f_equal. f_equal. unfold printed. rewrite V0. reflexivity.
        - pose proof (print_results_ok (o_verbosity o) width height lx' ly' NV BX BY) as PK. cbv zeta in PK. rewrite <- EX, <- EY in PK. rewrite PK. reflexivity. }
      eexists _, [], i3. split; [exact PR|]. clear PR.
      cbn [s_im s_an s_rw s_rh s_e s_ret s_counts s_out s_err s_world opt_block].
      split; [reflexivity|]. split; [exact SI3|]. split; [apply known_const; reflexivity|]. split; [eauto|].
      split. { unfold state_blocks. cbn [s_an]. rewrite app_nil_r. rewrite EBS in OB. eapply holds_perm; [exact (holds_owns _ _ _ _ _ _ OB HOLD)|].
        eapply Permutation_trans; [apply Permutation_app_comm|]. rewrite <- !app_assoc. cbn [app]. rewrite <- ?app_assoc. reflexivity. }
      right. split; [reflexivity|]. exists fs, er, i2. split; [exact F|]. cbv zeta. fold used. fold er'.
      destruct (BH _ EQ3 _ _ _ eq_refl) as (wd & BH'). { rewrite (filled_blocks _ _ _ _ _ _ FL0). exact OB. }
      eexists _, _, _. split; [exact BH'|]. cbn [s_im s_an s_rw s_rh s_e s_ret s_counts s_out s_err s_world].
      split; [left; reflexivity|]. split; [right|].
      * split; [reflexivity|]. split; [reflexivity|]. split; [reflexivity|]. exists bx, lx, by_, ly. split; [exact ERW|]. split; [exact ERH|]. split; [reflexivity|]. split; [reflexivity|].
        exists calls. split; [exact SOUGHT|]. unfold notes. destruct (o_progress o) eqn:PG; [|exact (EP2 eq_refl)]. rewrite (EPN Z0 eq_refl), (EPT eq_refl), <- app_assoc. reflexivity.
      * intros P _. rewrite P. exact (EP2 P).
Qed.

(** ** From the open to the exit *)
Lemma cli_run_ok R E Y o m blk p input w w0 : env_ok E -> client_params (e_cfg E) (Some (auto_filter o input p)) ->
  system_ok Y -> relaxed Y -> codes_ok Y -> 0 <= o_nframes o -> holds w w0 [blk] [] ->
  exists im width height ob e0 w1, open_by R E Y (Some input) (way_of o) true true w = Ok (im, width, height, ob, e0, w1) /\
  ((im = None /\ e0 <> RDEOK /\ exists x w', cli_run R E Y o m blk p input w = Ok (x, w') /\ complains e0 [] x /\ holds w' w0 [] []) \/
   (exists i b e1 i1 w2, im = Some i /\ e0 = RDEOK /\ after_seek E Y (o_offset o) i w1 = Ok (b, e1, Some i1, w2) /\
    ((b = true -> forall fs er i2, frames Y i1 fs er i2 -> countable (first_frames (o_nframes o) fs)) ->
     exists x w', cli_run R E Y o m blk p input w = Ok (x, w') /\
      ((b = false /\ x_status x = 1 /\ x_out x = [] /\ x_err x <> [] /\ holds w' w0 [] []) \/
       (b = true /\ exists fs er i2, frames Y i1 fs er i2 /\
         let used := first_frames (o_nframes o) fs in
         exists e o' wd, by_hand_file E used (end_error (o_nframes o) fs er) width height everything (Some m) (Some (auto_filter o input p)) no_outs w2 = Ok (e, o', wd) /\
          (holds w' w0 [] [] \/ (leaky_failure E width height w2 /\ exists l, holds w' w0 [l] [])) /\
          ((e <> RDEOK /\ exists pre, (o_progress o = false -> pre = []) /\
             (complains e pre x \/ (used = [] /\ e = RDENOIMG /\ x = mkExit 1 [] (pre ++ [Str "No frames left in input."; Str newline])))) \/
           (e = RDEOK /\ exists bw rw bh rh, o_rw o' = Some (bw, rw) /\ o_rh o' = Some (bh, rh) /\
              x_status x = status_of (o_verbosity o) rw rh /\ x_out x = printed (o_verbosity o) width height rw rh /\
              (o_progress o = false -> x_err x = []) /\ exists calls, sought E Y (o_offset o) i w1 calls /\ x_err x = notes o calls (length used)))))))).
Proof.
  intros EO CP S RX CO NF HW. assert (CF := eo_config _ EO). destruct (ext_sizes Y S) as (sz & X).
  destruct (open_by_ok sz R E Y (Some input) (way_of o) true true w w0 [blk] [] CF S RX X HW) as ([[[[[im width] height] ob] e0] w1] & EQ & O).
  exists im, width, height, ob, e0, w1. split; [exact EQ|].
  assert (OC : known_code e0). { pose proof (open_by_code Y CO R E (Some input) (way_of o) true true w) as OC. rewrite EQ in OC. exact OC. }
  assert (EQ' : match o_reader o with Some r => resdet_open_image_with_reader R E Y (Some input) (Some r) true true w | None => resdet_open_image R E Y (Some input) (o_type o) true true w end = Ok (im, width, height, ob, e0, w1)).
  { clear - EQ. unfold way_of in EQ. destruct (o_reader o); exact EQ. }
  unfold cli_run. rewrite EQ'. cbn [bind].
  destruct O as [(-> & i & -> & W & H & K & PM & _ & b0 & -> & O)|(NE & -> & -> & -> & -> & O)].
  2: { left. split; [reflexivity|]. split; [exact NE|]. destruct (Z.eqb_spec e0 0) as [->|_]; [elim NE; reflexivity|]. cbn [negb option_map].
    destruct (error_message _ OC) as (mm & EM & NM). destruct (holds_free _ _ _ _ _ O) as (w2 & EF & H2).
    unfold finish. cbn [s_im s_an s_rw s_rh s_e s_ret s_counts s_out s_err s_world resdet_destroy_analysis resdet_close_image free_opt option_map bind]. rewrite EF. cbn [bind].
    destruct (Z.eqb_spec e0 0) as [->|_]; [elim NE; reflexivity|]. rewrite EM. cbn [bind].
    destruct mm; try (contradiction NM; reflexivity); cbn [bind Z.eqb negb]; (eexists _, _; split; [reflexivity|]; split; [|exact H2]; eexists; split; [exact EM|]; split; [exact NM|reflexivity]). }
  right. cbn [Z.eqb negb RDEOK].
  assert (HH : holds w1 w0 (b0 :: image_blocks i ++ [blk]) (image_files i ++ [])) by exact O.
  destruct (detect_ok sz E Y o m p input i b0 width height w1 w0 [blk] [] EO CP RX CO X K W H NF HH) as (b & e1 & i1 & w2 & AS & SI & REST).
  exists i, b, e1, i1, w2. split; [reflexivity|]. split; [reflexivity|]. split; [exact AS|]. intros CT.
  destruct (REST CT) as (s & leak & i3 & -> & SM & SI3 & KC & CN & HS & OUT). cbn [bind].
  rewrite app_nil_r in HS. cbn [app] in HS.
  destruct (finish_ok sz (o_verbosity o) blk b0 s i3 w0 leak SM (proj1 SI3) HS KC CN) as (x & w' & -> & HL & C1 & C2 & C3).
  exists x, w'. split; [reflexivity|].
  destruct OUT as [(-> & -> & SO & C)|(-> & fs & er & i2 & F & e & o' & wd & BH & LK & C & EP)].
  - left. split; [reflexivity|]. rewrite SO in *. destruct C as [NE|(E0 & R1 & NE)].
    + destruct (C1 NE) as (mm & _ & _ & ->). cbn [x_status x_out x_err]. split; [reflexivity|]. split; [reflexivity|]. split; [|exact HL].
      intros Q. apply app_eq_nil in Q. destruct Q. discriminate.
    + rewrite (C2 E0 ltac:(rewrite R1; discriminate)). cbn [x_status x_out x_err]. auto.
  - right. split; [reflexivity|]. exists fs, er, i2. split; [exact F|]. cbv zeta in *. exists e, o', wd. split; [exact BH|].
    split. { destruct LK as [->|(L1 & l & ->)]; [left; exact HL|right; split; [exact L1|exists l; exact HL]]. }
    destruct C as [(NE & SO & CC)|(-> & E0 & R0 & bw & rw & bh & rh & ERW & ERH & EC & SO & calls & SK & NT)].
    + left. split; [exact NE|]. destruct CC as [SE|(UN & -> & E0 & R1 & pre & SR & PP)].
      * exists (s_err s). assert (N2 : s_e s <> 0) by (rewrite SE; exact NE). split; [intros P; apply EP; auto|]. left. destruct (C1 N2) as (mm & EM & NM & ->).
        exists mm. rewrite SE in EM. rewrite SO. auto.
      * exists pre. split; [exact PP|]. right. split; [exact UN|]. split; [reflexivity|]. rewrite (C2 E0 ltac:(rewrite R1; discriminate)), R1, SO, SR. reflexivity.
    + right. split; [reflexivity|]. exists bw, rw, bh, rh. split; [exact ERW|]. split; [exact ERH|].
      rewrite (C3 _ _ E0 R0 EC). cbn [x_status x_out x_err]. split; [|split; [exact SO|split; [intros P; apply EP; auto|exists calls; auto]]].
      unfold status_of, own_only. f_equal. f_equal. unfold zlen.
      destruct (Z.eqb_spec (Z.of_nat (length rw)) 1), (Z.eqb_spec (Z.of_nat (length rh)) 1), (Nat.eqb_spec (length rw) 1), (Nat.eqb_spec (length rh) 1); lia || reflexivity.
Qed.

(** ** Parameters *)
Lemma set_all_app l : forall p l', set_all p (l ++ l') = let '(es, p1) := set_all p l in let '(es', p2) := set_all p1 l' in (es ++ es', p2).
Proof.
  induction l as [|s l IH]; intros p l'; cbn [set_all app].
  - destruct (set_all p l') as [es p2]. reflexivity.
  - destruct (set_param p s) as [e p1]. rewrite IH. destruct (set_all p1 l) as [es p2]. destruct (set_all p2 l') as [es' p3]. reflexivity.
Qed.
Lemma client_set c p s e p' : client_params c (Some p) -> typed s -> set_param (Some p) s = (e, p') -> client_params c p'.
Proof.
  intros [Q|(l & es & T & Q)] TS SP; [discriminate|]. right. exists (l ++ [s]), (es ++ [e]). split; [apply Forall_app; auto|].
  rewrite set_all_app, Q. cbn [set_all]. rewrite SP. reflexivity.
Qed.
Lemma strtoull_range s v : strtoull s = Some v -> 0 <= v < 2^64.
Proof.
  unfold strtoull, strtoull_of. destruct (split_sign _) as [neg l]. destruct (take_while is_digit l) as [|d ds] eqn:TW; [discriminate|]. rewrite <- TW.
  assert (D : 0 <= digits_value (take_while is_digit l)). { apply digits_value_nonneg. apply take_while_all. }
  destruct (Z.gtb_spec (digits_value (take_while is_digit l)) SIZE_MAX).
  - intros Q; inversion Q; subst. unfold SIZE_MAX. lia.
  - destruct neg; intros Q; inversion Q; subst; [apply wrap_range|unfold SIZE_MAX in *; lia].
Qed.
