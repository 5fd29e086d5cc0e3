(** Scanning well-formed text. *)
From Coq Require Import Reals.
From Flocq Require Import Core IEEE754.Binary IEEE754.Bits.
From Verif Require Import Base BaseProofs Flt FltProofs FilterProofs Util Methods Analysis Spec WorldProofs UtilProofs
  Stdio StdioProofs Pgm Pfm Y4m Image ImageHistory ImageSafe FrameProofs SpecImage SpecFormats.
Open Scope list_scope.
Open Scope Z_scope.

Lemma isspace_white c : isspace c = true <-> white c.
Proof.
  unfold isspace, white. rewrite orb_true_iff, andb_true_iff, !Z.leb_le, Z.eqb_eq. lia.
Qed.
Lemma not_space c : ~ white c -> isspace c = false.
Proof. intros N. destruct (isspace c) eqn:Q; [|reflexivity]. apply isspace_white in Q. contradiction. Qed.
Lemma digit_is c : is_digit c = true <-> digit c.
Proof. unfold is_digit, digit. rewrite andb_true_iff, !Z.leb_le. tauto. Qed.
Lemma not_digit c : ~ digit c -> is_digit c = false.
Proof. intros N. destruct (is_digit c) eqn:Q; [|reflexivity]. apply digit_is in Q. contradiction. Qed.

Lemma drop_blank b l : blank b -> drop_while isspace (b ++ l) = drop_while isspace l.
Proof.
  intros B. induction B as [|c b W _ IH]; [reflexivity|]. cbn. apply isspace_white in W. rewrite W. exact IH.
Qed.
Lemma drop_stop c l : ~ white c -> drop_while isspace (c :: l) = c :: l.
Proof. intros W. cbn. rewrite (not_space _ W). reflexivity. Qed.

(** the text goes on with a character of some kind *)
Definition starts (P : Z -> Prop) (l : list Z) : Prop := match l with c :: _ => P c | [] => False end.
Lemma starts_app P l l' : starts P l -> starts P (l ++ l').
Proof. destruct l; [contradiction|]. intros S. exact S. Qed.
Lemma starts_weak (P Q : Z -> Prop) l : (forall c, P c -> Q c) -> starts P l -> starts Q l.
Proof. intros W. destruct l; [contradiction|]. apply W. Qed.
Lemma gap_starts b : gap b -> starts white b.
Proof. intros (N & B). destruct B; [contradiction|]. assumption. Qed.
Lemma digits_starts t v : spells t v -> starts digit t.
Proof. induction 1; [assumption|]. apply starts_app. assumption. Qed.
Lemma digit_not_white c : digit c -> ~ white c.
Proof. unfold digit, white. lia. Qed.
Lemma white_not_digit c : white c -> ~ digit c.
Proof. unfold digit, white. lia. Qed.
Lemma spells_digits t v : spells t v -> Forall digit t.
Proof.
  induction 1; [constructor; [assumption|constructor]|]. apply Forall_app. split; [assumption|]. constructor; [assumption|constructor].
Qed.
Lemma spells_value t v : spells t v -> digits_value t = v.
Proof.
  induction 1 as [c D|l v c S IH D]; [reflexivity|]. unfold digits_value in *. rewrite fold_left_app, IH. cbn [fold_left]. lia.
Qed.
Lemma spells_nonneg t v : spells t v -> 0 <= v.
Proof. induction 1; unfold digit in *; lia. Qed.
Lemma take_digits t l : Forall digit t -> starts (fun c => ~ digit c) l -> take_while is_digit (t ++ l) = t /\ drop_while is_digit (t ++ l) = l.
Proof.
  intros F S. induction F as [|c t D _ (IH1 & IH2)].
  - destruct l as [|c l]; [contradiction|]. cbn in *. rewrite (not_digit _ S). split; reflexivity.
  - cbn. apply digit_is in D. rewrite D, IH1, IH2. split; reflexivity.
Qed.

Lemma skip_blank s b l : s_rest s = b ++ l -> blank b -> starts (fun c => ~ white c) l -> skip_space s = with_rest s l.
Proof.
  intros R B S. unfold skip_space. rewrite R, (drop_blank _ _ B). destruct l as [|c l]; [contradiction|].
  rewrite drop_stop by exact S. reflexivity.
Qed.

(** one number *)
Lemma run_zu H s b t v l : s_rest s = b ++ t ++ l -> blank b -> spells t v -> v <= SIZE_MAX ->
  starts (fun c => ~ digit c) l -> run_directive H Zu s = Ok (Done [VInt v], with_rest s l).
Proof.
  intros R B T V S.
  assert (St : starts digit (t ++ l)) by (apply starts_app; apply (digits_starts _ _ T)).
  cbn [run_directive]. rewrite (skip_blank s b (t ++ l) R B) by (apply (starts_weak digit); [apply digit_not_white|exact St]).
  cbn [s_rest with_rest]. destruct (t ++ l) as [|c r] eqn:Q; [contradiction|]. cbn [starts] in St.
  cbn [split_sign]. destruct (Z.eqb_spec c 45) as [->|_]; [unfold digit in St; lia|].
  destruct (Z.eqb_spec c 43) as [->|_]; [unfold digit in St; lia|].
  rewrite <- Q. destruct (take_digits t l (spells_digits _ _ T) S) as (T1 & T2). rewrite T1, T2.
  destruct t as [|d t]; [apply digits_starts in T; contradiction|].
  unfold strtoul. rewrite (spells_value _ _ T). destruct (Z.gtb_spec v SIZE_MAX) as [X|_]; [lia|]. cbn [bind].
  destruct l as [|e l]; [contradiction|]. cbn [looked_to]. rewrite with_rest_with. reflexivity.
Qed.
Lemma run_hu H s b t v l : s_rest s = b ++ t ++ l -> blank b -> spells t v -> v <= 65535 ->
  starts (fun c => ~ digit c) l -> run_directive H Hu s = Ok (Done [VInt v], with_rest s l).
Proof.
  intros R B T V S.
  assert (St : starts digit (t ++ l)) by (apply starts_app; apply (digits_starts _ _ T)).
  cbn [run_directive]. rewrite (skip_blank s b (t ++ l) R B) by (apply (starts_weak digit); [apply digit_not_white|exact St]).
  cbn [s_rest with_rest]. destruct (t ++ l) as [|c r] eqn:Q; [contradiction|]. cbn [starts] in St.
  cbn [split_sign]. destruct (Z.eqb_spec c 45) as [->|_]; [unfold digit in St; lia|].
  destruct (Z.eqb_spec c 43) as [->|_]; [unfold digit in St; lia|].
  rewrite <- Q. destruct (take_digits t l (spells_digits _ _ T) S) as (T1 & T2). rewrite T1, T2.
  destruct t as [|d t]; [apply digits_starts in T; contradiction|].
  unfold strtoul. rewrite (spells_value _ _ T). destruct (Z.gtb_spec v SIZE_MAX) as [X|_]; [unfold SIZE_MAX in X; lia|]. cbn [bind].
  unfold to_ushort. destruct (Z.gtb_spec v 65535) as [X|_]; [lia|]. cbn [bind].
  destruct l as [|e l]; [contradiction|]. cbn [looked_to]. rewrite with_rest_with. reflexivity.
Qed.
Lemma skipn_app_len {A} (a b : list A) : skipn (length a) (a ++ b) = b.
Proof. rewrite skipn_app, skipn_all, Nat.sub_diag. reflexivity. Qed.
Lemma firstn_app_len {A} (a b : list A) : firstn (length a) (a ++ b) = a.
Proof. rewrite firstn_app, firstn_all, Nat.sub_diag. apply app_nil_r. Qed.
Lemma run_fl H s b t v c l : s_rest s = b ++ t ++ c :: l -> blank b -> float_text H t v -> white c ->
  run_directive H Fl s = Ok (Done [VFloat v], with_rest s (c :: l)).
Proof.
  intros R B ((N & W) & F) C.
  assert (St : starts (fun c => ~ white c) (t ++ c :: l)) by (apply starts_app; destruct W; [contradiction|assumption]).
  cbn [run_directive]. rewrite (skip_blank s b (t ++ c :: l) R B St). cbn [s_rest with_rest].
  specialize (F c l C). pose proof (skipn_app_len t (c :: l)) as K.
  destruct (t ++ c :: l) as [|d r] eqn:Q; [contradiction|]. rewrite F, K. cbn [looked_to].
  rewrite with_rest_with. reflexivity.
Qed.
Lemma run_space H s b l : s_rest s = b ++ l -> blank b -> starts (fun c => ~ white c) l ->
  run_directive H Space s = Ok (Done [], with_rest s l).
Proof. intros R B S. cbn [run_directive]. rewrite (skip_blank s b l R B S). reflexivity. Qed.

(** ** The header line *)
Lemma after_comments_in t l : ~ In 10 t -> after_comments true (t ++ 10 :: l) = after_comments false l.
Proof.
  intros N. induction t as [|c t IH]; [reflexivity|]. cbn [app after_comments].
  destruct (Z.eqb_spec c 10) as [->|_]; [exfalso; apply N; left; reflexivity|]. cbn [negb]. apply IH.
  intros I. apply N. right. exact I.
Qed.
Lemma after_comments_all cs l : comments cs -> starts (fun c => c <> 35) l -> after_comments false (cs ++ l) = Some l.
Proof.
  intros C S. induction C as [|t r N C IH].
  - destruct l as [|c l]; [contradiction|]. cbn in *. destruct (Z.eqb_spec c 35); [contradiction|]. reflexivity.
  - change ((35 :: t ++ 10 :: r) ++ l) with (35 :: ((t ++ 10 :: r) ++ l)). rewrite <- app_assoc. cbn [app after_comments].
    change (35 =? 35) with true. cbv iota. rewrite after_comments_in by exact N. exact IH.
Qed.

(** white space and comments before the first number *)
Lemma to_numbers H s b0 cs b1 l : s_rest s = b0 ++ cs ++ b1 ++ l -> blank b0 -> comments cs -> blank b1 ->
  starts digit l ->
  exists b s1, run_directive H Space s = Ok (Done [], s1) /\ blank b /\ skip_comments s1 = (true, with_rest s (b ++ l)).
Proof.
  intros R B0 C B1 S.
  assert (S' : starts (fun c => ~ white c) l) by (apply (starts_weak digit); [apply digit_not_white|exact S]).
  assert (S35 : forall b, blank b -> starts (fun c => c <> 35) (b ++ l)).
  { intros b B. destruct B as [|c b W _]; [|cbn; unfold white in W; lia].
    apply (starts_weak digit); [unfold digit; intros; lia|exact S]. }
  destruct C as [|t r N C].
  - exists [], (with_rest s l). cbn [app] in R. rewrite app_assoc in R.
    split; [apply (run_space H s (b0 ++ b1) l R); [apply Forall_app; split; assumption|exact S']|].
    split; [constructor|]. unfold skip_comments. cbn [s_rest with_rest app].
    pose proof (after_comments_all [] l comments_none (S35 [] (Forall_nil _))) as A. cbn [app] in A. rewrite A, with_rest_with. reflexivity.
  - exists b1, (with_rest s ((35 :: t ++ 10 :: r) ++ b1 ++ l)).
    split; [apply (run_space H s b0 _ R B0); cbn; unfold white; lia|]. split; [exact B1|].
    unfold skip_comments. cbn [s_rest with_rest].
    rewrite (after_comments_all (35 :: t ++ 10 :: r) (b1 ++ l)); [|constructor; assumption|apply S35; exact B1].
    rewrite with_rest_with. reflexivity.
Qed.

Lemma white_stop c : white c -> ~ digit c.
Proof. apply white_not_digit. Qed.
(** two numbers *)
Lemma scan_two H s b tw w b2 th h b3 l fmt : s_rest s = b ++ tw ++ b2 ++ th ++ b3 ++ l -> blank b -> spells tw w -> w <= SIZE_MAX ->
  gap b2 -> spells th h -> h <= SIZE_MAX -> gap b3 -> starts (fun c => ~ white c) l ->
  fscanf H ([Zu; Space; Zu; Space] ++ fmt) s = fscanf_from H fmt (with_rest s l) true [VInt w; VInt h].
Proof.
  intros R B Tw W G2 Th Hh G3 L. unfold fscanf. cbn [app fscanf_from].
  assert (S1 : starts (fun c => ~ digit c) (b2 ++ th ++ b3 ++ l)) by (apply starts_app; apply (starts_weak white); [apply white_stop|apply gap_starts; exact G2]).
  assert (S2 : starts (fun c => ~ white c) (th ++ b3 ++ l)) by (apply starts_app; apply (starts_weak digit); [apply digit_not_white|apply (digits_starts _ _ Th)]).
  assert (S3 : starts (fun c => ~ digit c) (b3 ++ l)) by (apply starts_app; apply (starts_weak white); [apply white_stop|apply gap_starts; exact G3]).
  rewrite (run_zu H s b tw w (b2 ++ th ++ b3 ++ l) R B Tw W S1).
  cbn [bind]. rewrite (run_space H (with_rest s (b2 ++ th ++ b3 ++ l)) b2 (th ++ b3 ++ l) eq_refl (proj2 G2) S2).
  cbn [bind]. rewrite with_rest_with.
  rewrite (run_zu H (with_rest s (th ++ b3 ++ l)) [] th h (b3 ++ l) eq_refl (Forall_nil _) Th Hh S3).
  cbn [bind]. rewrite with_rest_with.
  rewrite (run_space H (with_rest s (b3 ++ l)) b3 l eq_refl (proj2 G3) L).
  cbn [bind]. rewrite with_rest_with. reflexivity.
Qed.

(** ** PGM *)
Lemma pgm_header_text H s w h m head l : s_rest s = head ++ l -> pgm_head w h m head -> w <= SIZE_MAX -> h <= SIZE_MAX -> m <= 255 ->
  pgm_header H s = Ok (Some (w, h, m), with_rest s l).
Proof.
  intros R (item & Ti & b0 & cs & b1 & tw & b2 & th & b3 & c & G0 & C & B1 & Tw & G2 & Th & G3 & Wc & Q) Hw Hh Hm.
  assert (R' : s_rest s = 80 :: 53 :: b0 ++ cs ++ b1 ++ tw ++ b2 ++ th ++ b3 ++ item ++ c :: l).
  { rewrite R, Q. cbn [app]. rewrite <- !app_assoc. reflexivity. }
  clear R Q. unfold pgm_header. unfold fscanf at 1. cbn [fscanf_from run_directive]. rewrite R'. change (80 =? 80) with true. cbv iota.
  cbn [bind]. cbn [s_rest with_rest]. change (53 =? 53) with true. cbv iota. cbn [bind]. rewrite with_rest_with.
  set (r := b0 ++ _).
  destruct (to_numbers H (with_rest s r) b0 cs b1 (tw ++ b2 ++ th ++ b3 ++ item ++ c :: l)) as (b & s1 & E1 & B & E2);
    [reflexivity|apply G0|exact C|exact B1|apply starts_app; apply (digits_starts _ _ Tw)|].
  cbn [run_directive] in E1. injection E1 as E1. rewrite E1. cbn [bind]. change (zlen (@nil value) <? 0) with false. cbv iota.
  cbn [app]. rewrite E2. cbn [negb]. rewrite with_rest_with.
  assert (Si : starts (fun c => ~ white c) (item ++ c :: l)) by (apply starts_app; apply (starts_weak digit); [apply digit_not_white|apply (digits_starts _ _ Ti)]).
  change [Zu; Space; Zu; Space; Hu] with ([Zu; Space; Zu; Space] ++ [Hu]).
  rewrite (scan_two H (with_rest s (b ++ tw ++ b2 ++ th ++ b3 ++ item ++ c :: l)) b tw w b2 th h b3 (item ++ c :: l) [Hu] eq_refl B Tw Hw G2 Th Hh G3 Si).
  rewrite with_rest_with. cbn [fscanf_from].
  rewrite (run_hu H (with_rest s (item ++ c :: l)) [] item m (c :: l) eq_refl (Forall_nil _) Ti ltac:(lia) (white_stop _ Wc)).
  cbn [bind app]. change (negb (zlen [VInt w; VInt h; VInt m] =? 3)) with false. cbv iota.
  unfold get_space, fgetc. cbn [s_rest with_rest]. rewrite (proj2 (isspace_white c) Wc). cbn [negb].
  destruct (Z.gtb_spec m 255); [lia|]. rewrite !with_rest_with. reflexivity.
Qed.

(** ** PFM *)
Lemma pfm_rest_text H s b0 cs b1 tw w b2 th h b3 item v c l : s_rest s = b0 ++ cs ++ b1 ++ tw ++ b2 ++ th ++ b3 ++ item ++ c :: l ->
  gap b0 -> comments cs -> blank b1 -> spells tw w -> gap b2 -> spells th h -> gap b3 -> white c -> float_text H item v ->
  w <= SIZE_MAX -> h <= SIZE_MAX ->
  pfm_rest H s = Ok (Some (w, h, v), with_rest s l).
Proof.
  intros R G0 C B1 Tw G2 Th G3 Wc F Hw Hh. unfold pfm_rest. unfold fscanf at 1. cbn [fscanf_from].
  destruct (to_numbers H s b0 cs b1 (tw ++ b2 ++ th ++ b3 ++ item ++ c :: l)) as (b & s1 & E1 & B & E2);
    [exact R|apply G0|exact C|exact B1|apply starts_app; apply (digits_starts _ _ Tw)|].
  rewrite E1. cbn [bind app]. change (zlen (@nil value) =? -1) with false. cbv iota. rewrite E2. cbn [negb].
  assert (Si : starts (fun c => ~ white c) (item ++ c :: l)).
  { apply starts_app. destruct F as ((N & W) & _). destruct W; [contradiction|assumption]. }
  change [Zu; Space; Zu; Space; Fl] with ([Zu; Space; Zu; Space] ++ [Fl]).
  rewrite (scan_two H (with_rest s (b ++ tw ++ b2 ++ th ++ b3 ++ item ++ c :: l)) b tw w b2 th h b3 (item ++ c :: l) [Fl] eq_refl B Tw Hw G2 Th Hh G3 Si).
  rewrite with_rest_with. cbn [fscanf_from].
  rewrite (run_fl H (with_rest s (item ++ c :: l)) [] item v c l eq_refl (Forall_nil _) F Wc).
  cbn [bind app]. change (negb (zlen [VInt w; VInt h; VFloat v] =? 3)) with false. cbv iota.
  unfold get_space, fgetc. cbn [s_rest with_rest]. rewrite (proj2 (isspace_white c) Wc). cbn [negb].
  rewrite !with_rest_with. reflexivity.
Qed.
Lemma letter_format colour : is_format (pfm_letter colour) = true.
Proof. destruct colour; reflexivity. Qed.
Lemma pfm_header_text H s little colour w h head l : s_rest s = head ++ l -> pfm_head H little colour w h head ->
  w <= SIZE_MAX -> h <= SIZE_MAX ->
  exists v, is_finite 24 128 v = true /\ (little = true <-> (B2R 24 128 v < 0)%R) /\
    pfm_header H s = Ok (Some (pfm_letter colour, (w, h, v)), with_rest s l).
Proof.
  intros R (item & (v & F & Fin & Sg) & b0 & cs & b1 & tw & b2 & th & b3 & c & G0 & C & B1 & Tw & G2 & Th & G3 & Wc & Q) Hw Hh.
  exists v. split; [exact Fin|]. split; [exact Sg|].
  assert (R' : s_rest s = 80 :: pfm_letter colour :: b0 ++ cs ++ b1 ++ tw ++ b2 ++ th ++ b3 ++ item ++ c :: l).
  { rewrite R, Q. cbn [app]. rewrite <- !app_assoc. reflexivity. }
  clear R Q. unfold pfm_header. unfold fscanf at 1. cbn [fscanf_from run_directive]. rewrite R'. change (80 =? 80) with true. cbv iota.
  cbn [bind s_rest with_rest app]. change (negb (zlen [VChar (pfm_letter colour)] =? 1)) with false. cbv iota.
  rewrite letter_format. cbn [negb]. rewrite with_rest_with.
  rewrite (pfm_rest_text H _ b0 cs b1 tw w b2 th h b3 item v c l) by (try reflexivity; assumption).
  cbn [bind option_map]. rewrite with_rest_with. reflexivity.
Qed.
Lemma pfm_next_text H c w h little colour head l : pf_consumed c = false -> s_rest (pf_s c) = head ++ l ->
  pfm_head H little colour w h head -> w <= SIZE_MAX -> h <= SIZE_MAX ->
  exists v, is_finite 24 128 v = true /\ (little = true <-> (B2R 24 128 v < 0)%R) /\
    pfm_next_header H c w h = Ok (true, RDEOK, mkPfm (pf_blk c) (pf_file c) (with_rest (pf_s c) l) v (pfm_letter colour) false).
Proof.
  intros U R (item & (v & F & Fin & Sg) & b0 & cs & b1 & tw & b2 & th & b3 & ch & G0 & C & B1 & Tw & G2 & Th & G3 & Wc & Q) Hw Hh.
  exists v. split; [exact Fin|]. split; [exact Sg|].
  assert (R' : s_rest (pf_s c) = 80 :: pfm_letter colour :: b0 ++ cs ++ b1 ++ tw ++ b2 ++ th ++ b3 ++ item ++ ch :: l).
  { rewrite R, Q. cbn [app]. rewrite <- !app_assoc. reflexivity. }
  clear R Q. unfold pfm_next_header. rewrite U. unfold fgetc. rewrite R'. change (negb (80 =? 80)) with false. cbv iota.
  unfold fscanf at 1. cbn [fscanf_from run_directive s_rest with_rest bind app].
  change (negb (zlen [VChar (pfm_letter colour)] =? 1)) with false. cbv iota.
  rewrite letter_format. cbn [negb]. rewrite with_rest_with.
  rewrite (pfm_rest_text H _ b0 cs b1 tw w b2 th h b3 item v ch l) by (try reflexivity; assumption).
  cbn [bind]. rewrite !Z.eqb_refl. cbn [negb orb]. rewrite with_rest_with. reflexivity.
Qed.
