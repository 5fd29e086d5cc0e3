(** YUV4MPEG2 files. *)
From Coq Require Import Reals Lra.
From Flocq Require Import Core IEEE754.Binary IEEE754.Bits.
From Verif Require Import Base BaseProofs Flt FltProofs FilterProofs Util Methods Analysis Spec WorldProofs UtilProofs
  Stdio StdioProofs Pgm Pfm Y4m Image ImageHistory ImageSafe FrameProofs Relax SpecImage SelectProofs SpecFormats ScanProofs FilmProofs PgmFilm PfmFilm.
Open Scope list_scope.
Open Scope Z_scope.

(** ** The stream header *)
Lemma take_word t l : Forall (fun c => ~ white c) t -> starts white l ->
  take_while (fun c => negb (isspace c)) (t ++ l) = t /\ drop_while (fun c => negb (isspace c)) (t ++ l) = l.
Proof.
  intros F S. induction F as [|c t D _ (IH1 & IH2)].
  - destruct l as [|c l]; [contradiction|]. cbn in *. apply isspace_white in S. rewrite S. split; reflexivity.
  - cbn. rewrite (not_space _ D). cbn [negb]. rewrite IH1, IH2. split; reflexivity.
Qed.
Lemma word_starts t l : word t -> starts (fun c => ~ white c) (t ++ l).
Proof. intros (N & F). destruct F; [contradiction|]. assumption. Qed.
Lemma run_word H s t l : s_rest s = t ++ l -> word t -> zlen t <= 9 -> starts white l ->
  run_directive H (Word 9) s = Ok (Done [VWord t], with_rest s l).
Proof.
  intros R W L S. cbn [run_directive]. rewrite (skip_blank s [] (t ++ l) R (Forall_nil _) (word_starts _ _ W)). cbn [s_rest with_rest].
  destruct (take_word t l (proj2 W) S) as (T1 & _). pose proof (word_starts t l W) as ST. pose proof (skipn_app_len t l) as K.
  destruct (t ++ l) as [|c r] eqn:Q; [contradiction|]. rewrite T1. rewrite firstn_all2 by (unfold zlen in L; lia). rewrite K.
  destruct l as [|d l]; [contradiction|]. cbn [looked_to]. rewrite with_rest_with. destruct (Nat.eqb _ _); reflexivity.
Qed.
Lemma run_skip H s t l : s_rest s = t ++ l -> word t -> starts white l -> run_directive H SkipWord s = Ok (Done [], with_rest s l).
Proof.
  intros R W S. cbn [run_directive]. rewrite (skip_blank s [] (t ++ l) R (Forall_nil _) (word_starts _ _ W)). cbn [s_rest with_rest].
  destruct (take_word t l (proj2 W) S) as (_ & T2). pose proof (word_starts t l W) as ST.
  destruct (t ++ l) as [|c r] eqn:Q; [contradiction|]. rewrite T2. destruct l as [|d l]; [contradiction|]. cbn [looked_to]. rewrite with_rest_with. reflexivity.
Qed.

(** the array csp holds the text [t] *)
Definition csp_holds (buf t : list Z) : Prop := zlen buf = 10 /\ exists junk, buf = t ++ 0 :: junk.
Lemma csp_store buf t : zlen buf = 10 -> zlen t <= 9 -> exists b, store_word buf t = Ok b /\ csp_holds b t.
Proof.
  intros B T. unfold store_word. destruct (Z.leb_spec (zlen buf) (zlen t)); [lia|]. eexists. split; [reflexivity|]. split; [|eauto].
  rewrite zlen_app, zlen_cons. unfold zlen in *. rewrite skipn_length. lia.
Qed.
(** what a list of parameters makes of width, height and colour space *)
Fixpoint after_params (ps : list param) (w h : Z) (t : list Z) : Z * Z * list Z :=
  match ps with
  | [] => (w, h, t)
  | PWidth v :: ps => after_params ps v h t
  | PHeight v :: ps => after_params ps w v t
  | PColour u :: ps => after_params ps w h u
  | POther _ _ :: ps => after_params ps w h t
  end.
Lemma params_start ps l l' : params_text ps l -> starts (fun c => c = 32 \/ c = 10) (l ++ l').
Proof.
  intros P. destruct P as [sp S|p ps sp t l S N _ _].
  - destruct S as [|c sp ->]; cbn; auto.
  - destruct S as [|c sp ->]; [contradiction|]. cbn. auto.
Qed.
Lemma skip_spaces H w h csp l : forall sp, spaces sp -> forall fuel s, s_rest s = sp ++ l ->
  y4m_params (length sp + fuel) H w h csp s = y4m_params fuel H w h csp (with_rest s l).
Proof.
  intros sp S. induction S as [|c sp -> _ IH]; intros fuel s R.
  - cbn [length Nat.add app] in *. rewrite <- R, with_rest_self. reflexivity.
  - cbn [length Nat.add y4m_params]. unfold fgetc. rewrite R. cbn [app]. change (32 =? 10) with false. change (32 =? 87) with false.
    change (32 =? 72) with false. change (32 =? 67) with false. change (32 =? 32) with true. cbv iota.
    rewrite (IH fuel (with_rest s (sp ++ l))) by reflexivity. rewrite with_rest_with. reflexivity.
Qed.
Lemma run_params H : forall ps t, params_text ps t -> (forall v, In (PWidth v) ps -> v <= SIZE_MAX) -> (forall v, In (PHeight v) ps -> v <= SIZE_MAX) ->
  forall fuel w h csp u s l, (length t < fuel)%nat -> s_rest s = t ++ l -> csp_holds csp u ->
  exists w' h' csp' u', y4m_params fuel H w h csp s = Ok (Some (w', h', csp'), with_rest s l) /\
    after_params ps w h u = (w', h', u') /\ csp_holds csp' u'.
Proof.
  intros ps t P. induction P as [sp S|p ps sp t t' S N PT P IH]; intros BW BH fuel w h csp u s l L R C.
  - rewrite app_length in L. cbn [length] in L. rewrite <- app_assoc in R.
    replace fuel with (length sp + Datatypes.S (fuel - length sp - 1))%nat by lia. rewrite (skip_spaces H w h csp _ sp S _ s R).
    cbn [y4m_params]. unfold fgetc. cbn [s_rest with_rest app]. change (10 =? 10) with true. cbv iota. rewrite with_rest_with.
    exists w, h, csp, u. auto.
  - rewrite !app_length in L. rewrite <- !app_assoc in R.
    replace fuel with (length sp + Datatypes.S (fuel - length sp - 1))%nat by lia. rewrite (skip_spaces H w h csp _ sp S _ s R).
    set (f1 := (fuel - length sp - 1)%nat). assert (L1 : (length t' < f1)%nat).
    { unfold f1. assert (1 <= length t)%nat by (inversion PT; cbn; lia). lia. }
    assert (IH' : forall w h csp u s, s_rest s = t' ++ l -> csp_holds csp u -> exists w' h' csp' u', y4m_params f1 H w h csp s = Ok (Some (w', h', csp'), with_rest s l) /\
       after_params ps w h u = (w', h', u') /\ csp_holds csp' u').
    { intros. apply IH; try assumption; intros; [apply BW|apply BH]; right; assumption. }
    clear IH. pose proof (params_start _ _ l P) as ST.
    assert (SD : starts (fun c => ~ digit c) (t' ++ l)) by (revert ST; apply starts_weak; unfold digit; lia).
    assert (SW : starts white (t' ++ l)) by (revert ST; apply starts_weak; unfold white; lia).
    destruct PT as [v t SP|v t SP|t W Z9|c t NW NI W]; cbn [y4m_params]; unfold fgetc; cbn [s_rest with_rest app].
    + change (87 =? 10) with false. change (87 =? 87) with true. cbv iota. unfold fscanf. cbn [fscanf_from].
      rewrite (run_zu H _ [] t v (t' ++ l)); [|reflexivity|constructor|exact SP|apply BW; left; reflexivity|exact SD].
      cbn [bind app zlen length Z.of_nat Pos.of_succ_nat]. change (zlen [VInt v] =? 1) with true. cbv iota. rewrite !with_rest_with.
      destruct (IH' v h csp u (with_rest s (t' ++ l)) eq_refl C) as (w' & h' & csp' & u' & -> & AP & C'). rewrite with_rest_with. exists w', h', csp', u'. auto.
    + change (72 =? 10) with false. change (72 =? 87) with false. change (72 =? 72) with true. cbv iota. unfold fscanf. cbn [fscanf_from].
      rewrite (run_zu H _ [] t v (t' ++ l)); [|reflexivity|constructor|exact SP|apply BH; left; reflexivity|exact SD].
      cbn [bind app zlen length Z.of_nat Pos.of_succ_nat]. change (zlen [VInt v] =? 1) with true. cbv iota. rewrite !with_rest_with.
      destruct (IH' w v csp u (with_rest s (t' ++ l)) eq_refl C) as (w' & h' & csp' & u' & -> & AP & C'). rewrite with_rest_with. exists w', h', csp', u'. auto.
    + change (67 =? 10) with false. change (67 =? 87) with false. change (67 =? 72) with false. change (67 =? 67) with true. cbv iota. unfold fscanf. cbn [fscanf_from].
      rewrite (run_word H _ t (t' ++ l)); [|reflexivity|exact W|exact Z9|exact SW].
      cbn [bind app zlen length Z.of_nat Pos.of_succ_nat]. change (zlen [VWord t] =? 1) with true. cbv iota. rewrite !with_rest_with.
      destruct (csp_store csp t (proj1 C) Z9) as (b & -> & CB). cbn [bind].
      destruct (IH' w h b t (with_rest s (t' ++ l)) eq_refl CB) as (w' & h' & csp' & u' & -> & AP & C'). rewrite with_rest_with. exists w', h', csp', u'. auto.
    + destruct (Z.eqb_spec c 10) as [->|_]; [elim NW; unfold white; lia|]. destruct (Z.eqb_spec c 87) as [->|_]; [elim NI; cbn; auto|].
      destruct (Z.eqb_spec c 72) as [->|_]; [elim NI; cbn; auto|]. destruct (Z.eqb_spec c 67) as [->|_]; [elim NI; cbn; auto|].
      destruct (Z.eqb_spec c 32) as [->|_]; [elim NW; unfold white; lia|]. unfold fscanf. cbn [fscanf_from].
      rewrite (run_skip H _ t (t' ++ l)); [|reflexivity|exact W|exact SW].
      cbn [bind app]. change (zlen (@nil value) <? 0) with false. cbv iota. rewrite !with_rest_with.
      destruct (IH' w h csp u (with_rest s (t' ++ l)) eq_refl C) as (w' & h' & csp' & u' & -> & AP & C'). rewrite with_rest_with. exists w', h', csp', u'. auto.
Qed.

Lemma after_params_spec : forall ps w h t w0 h0 t0, 
  (In (PWidth w) ps \/ w0 = w) -> (forall v, In (PWidth v) ps -> v = w) ->
  (In (PHeight h) ps \/ h0 = h) -> (forall v, In (PHeight v) ps -> v = h) ->
  (In (PColour t) ps \/ t0 = t) -> (forall u, In (PColour u) ps -> u = t) ->
  after_params ps w0 h0 t0 = (w, h, t).
Proof.
  induction ps as [|p ps IH]; intros w h t w0 h0 t0 A1 A2 B1 B2 C1 C2.
  - destruct A1 as [[]| ->], B1 as [[]| ->], C1 as [[]| ->]. reflexivity.
  - assert (A3 : forall v, In (PWidth v) ps -> v = w) by (intros; apply A2; right; assumption).
    assert (B3 : forall v, In (PHeight v) ps -> v = h) by (intros; apply B2; right; assumption).
    assert (C3 : forall v, In (PColour v) ps -> v = t) by (intros; apply C2; right; assumption).
    assert (A4 : p <> PWidth w -> In (PWidth w) ps \/ w0 = w) by (intros X; destruct A1 as [[A1|A1]|A1]; auto; contradiction).
    assert (B4 : p <> PHeight h -> In (PHeight h) ps \/ h0 = h) by (intros X; destruct B1 as [[B1|B1]|B1]; auto; contradiction).
    assert (C4 : p <> PColour t -> In (PColour t) ps \/ t0 = t) by (intros X; destruct C1 as [[C1|C1]|C1]; auto; contradiction).
    destruct p as [v|v|u|c u]; cbn [after_params]; apply IH; try assumption; try (apply A4; discriminate); try (apply B4; discriminate); try (apply C4; discriminate).
    + right. apply A2. left. reflexivity.
    + right. apply B2. left. reflexivity.
    + right. apply C2. left. reflexivity.
Qed.

Lemma head_params H w h cs depth head s l : y4m_head w h cs depth head -> w <= SIZE_MAX -> h <= SIZE_MAX -> s_rest s = head ++ l ->
  exists s1 csp colour, fread 10 s = (Y4m.chars "YUV4MPEG2 ", s1) /\
    y4m_params (Datatypes.S (length (s_rest s1))) H 0 0 csp_default s1 = Ok (Some (w, h, csp), with_rest s l) /\ csp_holds csp colour /\ colour_space_text colour cs depth.
Proof.
  intros (ps & t & colour & PT & (A1 & A2 & B1 & B2 & C1 & C2) & CS & ->) W HH R. rewrite <- app_assoc in R.
  destruct PT as [sp _|p ps sp t t' S N PT P]; [destruct A1|].
  destruct S as [|c sp -> S]; [contradiction|].
  set (rest := sp ++ t ++ t' ++ l). assert (R1 : s_rest s = Y4m.chars "YUV4MPEG2 " ++ rest).
  { rewrite R. unfold rest. rewrite <- !app_assoc. reflexivity. }
  assert (F : fread 10 s = (Y4m.chars "YUV4MPEG2 ", with_rest s rest)).
  { unfold fread. rewrite R1. change 10 with (zlen (Y4m.chars "YUV4MPEG2 ")) at 1. rewrite zlen_app. pose proof (zlen_nonneg rest).
    destruct (Z.ltb_spec (zlen (Y4m.chars "YUV4MPEG2 ") + zlen rest) (zlen (Y4m.chars "YUV4MPEG2 "))); [lia|].
    change (Z.to_nat 10) with (length (Y4m.chars "YUV4MPEG2 ")). rewrite firstn_app_len, skipn_app_len. reflexivity. }
  assert (CD : csp_holds csp_default (Y4m.chars "420jpeg")) by (split; [reflexivity|exists [0; 0]; reflexivity]).
  (* the first separator lost a space *)
  assert (G : exists w' h' csp' u', y4m_params (Datatypes.S (length rest)) H 0 0 csp_default (with_rest s rest) = Ok (Some (w', h', csp'), with_rest s l) /\
     after_params (p :: ps) 0 0 (Y4m.chars "420jpeg") = (w', h', u') /\ csp_holds csp' u').
  { assert (P1 : params_text (p :: ps) ((32 :: sp) ++ t ++ t')).
    { constructor; [constructor; [reflexivity|exact S]|discriminate|exact PT|exact P]. }
    destruct (run_params H _ _ P1) with (fuel := Datatypes.S (Datatypes.S (length rest))) (w := 0) (h := 0) (csp := csp_default) (u := Y4m.chars "420jpeg")
      (s := mkStream (32 :: rest) (s_pos (with_rest s rest) - 1) (s_eof s) (s_broken s) (s_seekable s)) (l := l) as (w' & h' & csp' & u' & Q & AP & C').
    - intros v I. rewrite (A2 v I). exact W.
    - intros v I. rewrite (B2 v I). exact HH.
    - unfold rest. cbn [length app]. rewrite !app_length. lia.
    - cbn [s_rest]. unfold rest. cbn [app]. rewrite <- !app_assoc. reflexivity.
    - exact CD.
    - exists w', h', csp', u'. split; [|auto].
      change (Datatypes.S (Datatypes.S (length rest))) with (length [32] + Datatypes.S (length rest))%nat in Q.
      rewrite (skip_spaces H 0 0 csp_default rest [32]) in Q by (repeat constructor).
      assert (E1 : forall r, with_rest (mkStream (32 :: rest) (s_pos (with_rest s rest) - 1) (s_eof s) (s_broken s) (s_seekable s)) r = with_rest s r).
      { intros r. unfold with_rest. cbn [s_rest s_pos s_eof s_broken s_seekable]. rewrite zlen_cons. f_equal. lia. }
      rewrite !E1 in Q. exact Q. }
  destruct G as (w' & h' & csp' & u' & Q & AP & C').
  rewrite (after_params_spec (p :: ps) w h colour) in AP; try assumption; try (left; assumption).
  2: { destruct C2 as [C2|(_ & ->)]; [left; exact C2|right; reflexivity]. }
  inversion AP; subst w' h' u'. exists (with_rest s rest), csp', colour. cbn [s_rest with_rest] in *. auto.
Qed.

(** ** The colour space *)
Lemma number_text t c r : Forall digit t -> ~ digit c -> forall a, number_at (t ++ c :: r) a = Ok (fold_left (fun a c => a * 10 + (c - 48)) t a).
Proof.
  intros F N. induction F as [|d t D _ IH]; intros a; cbn [app number_at fold_left].
  - rewrite (not_digit _ N). reflexivity.
  - apply digit_is in D. rewrite D. apply IH.
Qed.
Lemma digit_char H c : digit c -> isdigit H c = Ok true.
Proof.
  intros D. unfold isdigit, ctype_arg. destruct (Z.geb_spec c 128); [unfold digit in D; lia|]. rewrite andb_false_r. cbn [bind].
  apply digit_is in D. rewrite D. reflexivity.
Qed.
Lemma nul_char H : isdigit H 0 = Ok false.
Proof. unfold isdigit, ctype_arg. change (0 >=? 128) with false. rewrite andb_false_r. reflexivity. Qed.
Lemma a_char H : isdigit H 97 = Ok false.
Proof. unfold isdigit, ctype_arg. change (97 >=? 128) with false. rewrite andb_false_r. reflexivity. Qed.
Lemma depth_text H pre t d junk : zlen pre = 4 -> spells t d ->
  (c <- get (pre ++ t ++ 0 :: junk) 4 ;; b <- isdigit H c ;;
   if b : bool then number_at (skipn (Z.to_nat 4) (pre ++ t ++ 0 :: junk)) 0 else Ok 8) = Ok d.
Proof.
  intros P T. assert (LP : length pre = 4%nat) by (unfold zlen in P; lia).
  pose proof (digits_starts _ _ T) as ST. destruct t as [|c t]; [contradiction|].
  assert (G : get (pre ++ (c :: t) ++ 0 :: junk) 4 = Ok c).
  { rewrite (get_at 0) by (rewrite zlen_app, zlen_app, !zlen_cons; pose proof (zlen_nonneg t); pose proof (zlen_nonneg junk); lia).
    unfold at_. rewrite app_nth2 by lia. rewrite LP. reflexivity. }
  rewrite G. cbn [bind]. rewrite (digit_char H c ST). cbn [bind]. change (Z.to_nat 4) with 4%nat. rewrite <- LP, skipn_app_len.
  rewrite number_text by (try apply (spells_digits _ _ T); unfold digit; lia). fold (digits_value (c :: t)). rewrite (spells_value _ _ T). reflexivity.
Qed.

Lemma half_up x : 1 <= x -> 2 * ((x + 1) / 2) <= 2 * x /\ 1 <= (x + 1) / 2 /\ (x + 1) / 2 <= x.
Proof.
  intros X. pose proof (Z.div_mod (x + 1) 2 ltac:(lia)). pose proof (Z.mod_pos_bound (x + 1) 2 ltac:(lia)). lia.
Qed.
Lemma chroma_bounds cs w h : 1 <= w -> 1 <= h -> 0 <= chroma cs w h <= 2 * (w * h).
Proof.
  intros W H. pose proof (half_up w W) as (A1 & A2 & A3). pose proof (half_up h H) as (B1 & B2 & B3). destruct cs; cbn [chroma]; nia.
Qed.
Lemma chroma_420 w h : 1 <= w -> 1 <= h -> w * h * 4 <= SIZE_MAX ->
  wrap (wrap (wrap (w + 1) / 2 * (wrap (h + 1) / 2)) * 2) = chroma S420 w h.
Proof.
  intros W H L. pose proof (chroma_bounds S420 w h W H) as C. cbn [chroma] in *. unfold SIZE_MAX in L.
  rewrite (wrap_small (w + 1)) by nia. rewrite (wrap_small (h + 1)) by nia. rewrite (wrap_small (_ / 2 * _)) by nia. rewrite wrap_small by nia. ring.
Qed.
Lemma chroma_422 w h : 1 <= w -> 1 <= h -> w * h * 4 <= SIZE_MAX -> wrap (wrap (wrap (w + 1) / 2 * h) * 2) = chroma S422 w h.
Proof.
  intros W H L. pose proof (chroma_bounds S422 w h W H) as C. cbn [chroma] in *. unfold SIZE_MAX in L.
  rewrite (wrap_small (w + 1)) by nia. rewrite (wrap_small (_ / 2 * _)) by nia. rewrite wrap_small by nia. ring.
Qed.
Lemma chroma_444 w h : 1 <= w -> 1 <= h -> w * h * 4 <= SIZE_MAX -> wrap (wrap (w * h) * 2) = chroma S444 w h.
Proof.
  intros W H L. cbn [chroma] in *. unfold SIZE_MAX in L. rewrite (wrap_small (w * h)) by nia. rewrite wrap_small by nia. ring.
Qed.

Lemma colour_space_from H buf w h uv depth c3 a b c d e : 
  strncmp_eq 4 buf (Y4m.chars "mono") = Ok false -> strncmp_eq 3 buf (Y4m.chars "420") = Ok a -> strncmp_eq 3 buf (Y4m.chars "411") = Ok b ->
  strncmp_eq 3 buf (Y4m.chars "422") = Ok c -> strncmp_eq 3 buf (Y4m.chars "444") = Ok d -> strncmp_eq 10 buf (Y4m.chars "444alpha") = Ok e ->
  (if a || b then Some (wrap (wrap (wrap (w + 1) / 2 * (wrap (h + 1) / 2)) * 2))
   else if c then Some (wrap (wrap (wrap (w + 1) / 2 * h) * 2))
   else if d then Some (wrap (wrap (w * h) * 2))
   else if e then Some (wrap (wrap (w * h) * 3)) else None) = Some uv ->
  zlen buf = 10 -> at_ 0 buf 3 = c3 ->
  (if c3 =? 112 then c <- get buf 4 ;; d <- isdigit H c ;; (if d : bool then number_at (skipn (Z.to_nat 4) buf) 0 else Ok 8) else Ok 8) = Ok depth ->
  colour_space H buf w h = Ok (Some (uv, depth)).
Proof.
  intros M A B C D F U L10 G G2. assert (G1 : get buf 3 = Ok c3) by (rewrite (get_at 0), G by lia; reflexivity). unfold colour_space. rewrite M. cbn [bind]. rewrite A. cbn [bind].
  assert (B' : exists b', (if a then Ok false else strncmp_eq 3 buf (Y4m.chars "411")) = Ok b' /\ a || b' = a || b).
  { rewrite B. destruct a; [exists false|exists b]; auto. }
  destruct B' as (b' & -> & AB). cbn [bind]. rewrite C. cbn [bind]. rewrite D. cbn [bind]. rewrite F. cbn [bind]. rewrite AB, U, G1. cbn [bind].
  rewrite G2. reflexivity.
Qed.
Lemma colour_space_mono H buf w h depth : strncmp_eq 4 buf (Y4m.chars "mono") = Ok true ->
  (c <- get buf 4 ;; d <- isdigit H c ;; if d : bool then number_at (skipn (Z.to_nat 4) buf) 0 else Ok 8) = Ok depth ->
  colour_space H buf w h = Ok (Some (0, depth)).
Proof. intros M G. unfold colour_space. rewrite M. cbn [bind]. rewrite G. reflexivity. Qed.

Lemma colour_space_run H buf t cs d w h : colour_space_text t cs d -> csp_holds buf t -> 1 <= w -> 1 <= h -> w * h * 4 <= SIZE_MAX ->
  colour_space H buf w h = Ok (Some (chroma cs w h, d)).
Proof.
  intros C (LB & junk & ->) W Hh L. destruct C as [t I|t d T _| |t d T _| |t d T _| |t d T _].
  - rewrite <- chroma_420 by assumption.
    cbn [In] in I. destruct I as [<-|[<-|[<-|[<-|[]]]]]; eapply colour_space_from; try reflexivity; try exact LB.
    change (at_ 0 (Y4m.chars "420paldv" ++ 0 :: junk) 3 =? 112) with true. cbv iota. rewrite (get_at 0) by lia.
    change (at_ 0 (Y4m.chars "420paldv" ++ 0 :: junk) 4) with 97. cbn [bind]. rewrite a_char. reflexivity.
  - rewrite <- app_assoc, <- chroma_420 by assumption. eapply colour_space_from; try reflexivity; [rewrite app_assoc; exact LB|]. exact (depth_text H (Y4m.chars "420p") t d junk eq_refl T).
  - rewrite <- chroma_422 by assumption. eapply colour_space_from; try reflexivity; exact LB.
  - rewrite <- app_assoc, <- chroma_422 by assumption. eapply colour_space_from; try reflexivity; [rewrite app_assoc; exact LB|]. exact (depth_text H (Y4m.chars "422p") t d junk eq_refl T).
  - rewrite <- chroma_444 by assumption. eapply colour_space_from; try reflexivity; exact LB.
  - rewrite <- app_assoc, <- chroma_444 by assumption. eapply colour_space_from; try reflexivity; [rewrite app_assoc; exact LB|]. exact (depth_text H (Y4m.chars "444p") t d junk eq_refl T).
  - apply colour_space_mono; [reflexivity|]. rewrite (get_at 0) by lia. change (at_ 0 (Y4m.chars "mono" ++ 0 :: junk) 4) with 0. cbn [bind]. rewrite nul_char. reflexivity.
  - rewrite <- app_assoc. apply colour_space_mono; [reflexivity|]. exact (depth_text H (Y4m.chars "mono") t d junk eq_refl T).
Qed.

(** ** Opening *)
Lemma bytes_sample depth : 8 <= depth <= 16 -> (depth + 7) / 8 = sample_size depth.
Proof.
  intros D. unfold sample_size. destruct (Z.leb_spec depth 8).
  - replace depth with 8 by lia. reflexivity.
  - symmetry. apply Z.div_unique with (r := depth + 7 - 16); lia.
Qed.
Lemma colour_depth t cs d : colour_space_text t cs d -> 8 <= d <= 16.
Proof. destruct 1; lia. Qed.
Lemma y4m_open_text E Y f s w h cs depth head l wd : config_ok (e_cfg E) = true -> system_ok Y -> delivers Y f s ->
  s_rest s = head ++ l -> y4m_head w h cs depth head -> 1 <= w <= SIZE_MAX -> 1 <= h <= SIZE_MAX ->
  (exists w0 h0 w2, y4m_open E Y f wd = Ok (None, w0, h0, RDENOMEM, w2) /\ exists k, e_alloc E k = false) \/
  (exists w2, y4m_open E Y f wd = Ok (None, w, h, RDETOOBIG, w2) /\ ~ y4m_within E w h cs depth) \/
  (exists blk fl buf sk w2, y4m_open E Y f wd =
      Ok (Some (mkY4m blk fl (with_rest s l) buf (w * h * sample_size depth) (chroma cs w h * sample_size depth) depth sk), w, h, RDEOK, w2) /\
     y4m_within E w h cs depth /\ sk = s_seekable s && ((w * h + chroma cs w h) * sample_size depth <=? LONG_MAX)).
Proof.
  intros CF SY DL R HD W Hh. unfold y4m_open. pose proof (holds_alloc (e_alloc E) wd wd [] [] (holds_refl wd)) as HA.
  destruct (alloc (e_alloc E) wd) as [[blk|] w1]; [|left; exists 0, 0, w1; split; [reflexivity|exists (w_count wd); apply HA]].
  pose proof (open_stream_ok Y f w1 wd _ _ SY HA) as HO. destruct (delivered Y f s w1 DL) as (fl & w2 & EO). rewrite EO in *.
  destruct HO as (K & HO & _). cbv zeta.
  assert (FAIL : forall s (width height e : Z) w, holds w wd [blk] (opt_list fl ++ []) ->
    exists w', (w <- y4m_close (mkY4m blk fl s None 0 0 0 false) w ;; Ok (@None y4m_context, width, height, e, w)) = Ok (None, width, height, e, w')).
  { intros s0 width height e w3 H3. destruct (y4m_close_ok (mkY4m blk fl s0 None 0 0 0 false) w3 wd [] [] H3) as (w4 & -> & _). cbn. eauto. }
  destruct (head_params (y_host Y) w h cs depth head s l HD) as (s1 & csp & colour & FR & PA & CH & CT); try lia; try exact R.
  rewrite FR. destruct (list_eq_dec Z.eq_dec (Y4m.chars "YUV4MPEG2 ") (Y4m.chars "YUV4MPEG2 ")) as [_|N]; [|elim N; reflexivity]. cbn [negb].
  rewrite PA. cbn [bind]. destruct (Z.eqb_spec w 0); [lia|]. destruct (Z.eqb_spec h 0); [lia|]. cbn [orb].
  unfold config_ok in CF. destruct (dims_limit_ok (e_cfg E) w h 4 1) as (big & -> & DM); try lia. cbn [bind].
  pose proof (colour_depth _ _ _ CT) as DP. pose proof (chroma_bounds cs w h (proj1 W) (proj1 Hh)) as CB. set (uv := chroma cs w h) in *.
  set (bw := sample_size depth). assert (BW : 1 <= bw <= 2) by (unfold bw, sample_size; destruct (depth <=? 8); lia).
  unfold y4m_within. fold uv bw. destruct big.
  { right. left. destruct (FAIL (with_rest s l) w h RDETOOBIG w2 HO) as (w3 & ->). exists w3. split; [reflexivity|]. intros (X & _).
    assert (true = false) by (apply DM; lia). discriminate. }
  destruct DM as [DM _]. specialize (DM eq_refl). assert (D : sane w h) by (unfold sane; lia).
  rewrite (colour_space_run (y_host Y) csp colour cs depth w h CT CH) by lia. cbn [bind]. fold uv.
  destruct ((depth <? 8) || (depth >? 16)) eqn:DD; [lia|]. rewrite (dims_wrap _ _ D), (bytes_sample depth DP). fold bw.
  unfold SIZE_MAX in DM. assert (WH : 1 <= w * h) by nia.
  rewrite (wrap_small (w * h + uv)) by lia.
  destruct (Z.ltb_spec (SIZE_MAX / bw) (w * h + uv)) as [OV|OV].
  { right. left. destruct (FAIL (with_rest s l) w h RDETOOBIG w2 HO) as (w3 & ->). exists w3. split; [reflexivity|]. intros (_ & X).
    apply (Z.div_le_mono _ _ bw) in X; [|lia]. rewrite Z.div_mul in X by lia. lia. }
  assert (TOT : (w * h + uv) * bw <= SIZE_MAX).
  { apply Z.le_trans with (SIZE_MAX / bw * bw); [apply Z.mul_le_mono_nonneg_r; lia|]. rewrite Z.mul_comm. apply Z.mul_div_le. lia. }
  assert (TOT' := TOT). unfold SIZE_MAX in TOT'. assert (0 <= w * h * bw) by nia. assert (0 <= uv * bw) by nia.
  rewrite (wrap_small (w * h * bw)) by nia. rewrite (wrap_small (uv * bw)) by nia. rewrite (wrap_small (w * h * bw + uv * bw)) by nia.
  rewrite <- Z.mul_add_distr_r.
  destruct DL as (EOFF & (SK1 & SK2 & SK3) & _).
  assert (Q : (if (w * h + uv) * bw <=? LONG_MAX then
        match fseek_cur 0 (with_rest s l) with (None, s) => (true, s) | (Some _, s) => (false, s) end
      else (false, with_rest s l)) = (s_seekable s && ((w * h + uv) * bw <=? LONG_MAX), with_rest s l)).
  { destruct (_ <=? LONG_MAX); [|rewrite andb_false_r; reflexivity]. rewrite andb_true_r. unfold fseek_cur, with_rest.
    cbn [s_seekable s_pos s_rest s_broken s_eof]. destruct (s_seekable s) eqn:SS; cbn [negb]; [|reflexivity]. specialize (SK3 eq_refl).
    rewrite R, zlen_app in SK3 |- *. pose proof (zlen_nonneg l).
    match goal with |- context [?a >? LONG_MAX] => destruct (Z.gtb_spec a LONG_MAX) end; [lia|]. rewrite EOFF. f_equal. f_equal. lia. }
  rewrite Q. pose proof (holds_alloc (e_alloc E) w2 wd _ _ HO) as HB. destruct (alloc (e_alloc E) w2) as [[b|] w3].
  - right. right. eexists _, _, _, _, _. split; [reflexivity|]. split; [|reflexivity]. split; [lia|exact TOT].
  - left. destruct (FAIL (with_rest s l) w h RDENOMEM w3 (proj1 HB)) as (w4 & ->). exists w, h, w4. split; [reflexivity|]. exists (w_count w2). apply HB.
Qed.

(** ** Samples *)
Definition y4m_val (H : host) (depth c : Z) : f32 := fdiv (f32_of_Z (taken_for H depth c)) (f32_of_Z (2 ^ depth - 1)).
Lemma map_at {A B} (d : A) (g : Z -> B) (f : A -> B) l : (forall i, 0 <= i < zlen l -> g i = f (at_ d l i)) -> map g (zrange 0 (zlen l)) = map f l.
Proof.
  induction l as [|a l IH] using rev_ind; intros G; [reflexivity|].
  rewrite zlen_app in G |- *. change (zlen [a]) with 1 in *. pose proof (zlen_nonneg l). rewrite zrange_snoc by lia. rewrite !map_app. cbn [map]. f_equal.
  - apply IH. intros i I. rewrite G by lia. rewrite at_app_l by lia. reflexivity.
  - rewrite G by lia. rewrite at_app_r by lia. rewrite Z.sub_diag. reflexivity.
Qed.
Lemma samples_one (samples : list Z) : concat (map (fun c => [c]) samples) = samples.
Proof. induction samples as [|c l IH]; [reflexivity|]. cbn. rewrite IH. reflexivity. Qed.
Lemma samples_two (samples r : list Z) : forall i, 0 <= i < zlen samples ->
  at_ 0 (concat (map (fun c => [c mod 256; c / 256]) samples) ++ r) (2 * i) = at_ 0 samples i mod 256 /\
  at_ 0 (concat (map (fun c => [c mod 256; c / 256]) samples) ++ r) (2 * i + 1) = at_ 0 samples i / 256.
Proof.
  induction samples as [|c l IH]; intros i I; [change (zlen (@nil Z)) with 0 in I; lia|]. rewrite zlen_cons in I. cbn [map concat app].
  destruct (Z.eqb_spec i 0) as [->|N]; [split; reflexivity|]. unfold at_.
  replace (Z.to_nat (2 * i)) with (Datatypes.S (Datatypes.S (Z.to_nat (2 * (i - 1))))) by lia.
  replace (Z.to_nat (2 * i + 1)) with (Datatypes.S (Datatypes.S (Z.to_nat (2 * (i - 1) + 1)))) by lia.
  replace (Z.to_nat i) with (Datatypes.S (Z.to_nat (i - 1))) by lia. cbn [nth]. apply IH. lia.
Qed.
Lemma luma_values H depth samples r :
  map (y4m_value H depth (concat (map (sample_bytes depth) samples) ++ r)) (zrange 0 (zlen samples)) = map (y4m_val H depth) samples.
Proof.
  apply (map_at 0). intros i I. unfold y4m_value, y4m_val. f_equal. f_equal. unfold y4m_sample, sample_bytes, taken_for.
  destruct (Z.leb_spec depth 8) as [D|D].
  - destruct (Z.gtb_spec depth 8); [lia|]. rewrite samples_one, orb_true_r. apply at_app_l. exact I.
  - destruct (Z.gtb_spec depth 8); [|lia]. rewrite orb_false_r. destruct (samples_two samples r i I) as (-> & ->).
    pose proof (Z.div_mod (at_ 0 samples i) 256). destruct (h_little H); lia.
Qed.
Lemma luma_length depth samples : zlen (concat (map (sample_bytes depth) samples)) = zlen samples * sample_size depth.
Proof.
  induction samples as [|c l IH]; [reflexivity|]. cbn [map concat]. rewrite zlen_app, IH, zlen_cons. unfold sample_bytes, sample_size.
  destruct (depth <=? 8); change (zlen [c]) with 1; change (zlen [c mod 256; c / 256]) with 2; lia.
Qed.
Lemma taken_range H depth c : 0 <= c < 256 ^ sample_size depth -> 0 <= taken_for H depth c < 2 ^ 16.
Proof.
  unfold sample_size, taken_for. change (2 ^ 16) with 65536. destruct (Z.leb_spec depth 8); intros C.
  - change (256 ^ 1) with 256 in C. rewrite orb_true_r. lia.
  - change (256 ^ 2) with 65536 in C. rewrite orb_false_r. pose proof (Z.mod_pos_bound c 256 ltac:(lia)).
    pose proof (Z.div_pos c 256 ltac:(lia)). pose proof (Z.div_lt_upper_bound c 256 256 ltac:(lia)). destruct (h_little H); lia.
Qed.
Lemma val_quotient H depth c : 8 <= depth <= 16 -> 0 <= c < 256 ^ sample_size depth -> quotient (taken_for H depth c) (2 ^ depth - 1) (y4m_val H depth c).
Proof.
  intros D C. pose proof (taken_range H depth c C) as T. change (2 ^ 16) with 65536 in T. apply quotient_div; [lia|].
  pose proof (Z.pow_le_mono_r 2 8 depth). pose proof (Z.pow_le_mono_r 2 depth 16). change (2 ^ 8) with 256 in *. change (2 ^ 16) with 65536 in *. lia.
Qed.

(** ** Frames *)
Lemma after_line_text ps r : ~ In 10 ps -> after_line (ps ++ 10 :: r) = Some r.
Proof.
  induction ps as [|c ps IH]; intros N; [reflexivity|]. cbn [app after_line]. destruct (Z.eqb_spec c 10) as [->|_]; [elim N; left; reflexivity|].
  apply IH. intros I. apply N. right. exact I.
Qed.
Lemma frame_header_text s ps r : s_rest s = Y4m.chars "FRAME" ++ ps ++ 10 :: r -> ~ In 10 ps -> y4m_frame_header s = (true, RDEOK, with_rest s r).
Proof.
  intros R N. unfold y4m_frame_header, fread. rewrite R.
  assert (L : zlen (Y4m.chars "FRAME" ++ ps ++ 10 :: r) <? 5 = false).
  { rewrite zlen_app. change (zlen (Y4m.chars "FRAME")) with 5. pose proof (zlen_nonneg (ps ++ 10 :: r)). lia. }
  rewrite L. change (Z.to_nat 5) with (length (Y4m.chars "FRAME")). rewrite firstn_app_len, skipn_app_len. change (zlen (Y4m.chars "FRAME") <? 5) with false. cbv iota.
  destruct (list_eq_dec Z.eq_dec (Y4m.chars "FRAME") (Y4m.chars "FRAME")) as [_|X]; [|elim X; reflexivity]. cbn [negb s_rest with_rest].
  rewrite (after_line_text _ _ N), with_rest_with. reflexivity.
Qed.
Lemma frame_header_end s : s_rest s = [] -> (s_broken s = true -> s_eof s = false) ->
  y4m_frame_header s = (false, en_of (s_broken s), at_end s).
Proof.
  intros R B. unfold y4m_frame_header, fread. rewrite R. change (zlen (@nil Z) <? 5) with true. cbv iota. change (zlen (@nil Z) <? 5) with true. change (zlen (@nil Z) =? 0) with true.
  cbv iota. unfold feof, at_end. cbn [s_eof andb]. destruct (s_broken s); [rewrite B by reflexivity|]; reflexivity.
Qed.

Record y4m_state (br sk : bool) (w h : Z) (cs : subsampling) (depth : Z) (c : y4m_context) : Prop := {
  ys_ok : y4m_ok w h c;
  ys_depth : ym_depth c = depth;
  ys_uv : ym_uv c = chroma cs w h * sample_size depth;
  ys_broken : s_broken (ym_s c) = br;
  ys_eof : br = true -> s_eof (ym_s c) = false;
  ys_flag : ym_seekable c = sk;
  ys_seek : sk = true -> s_seekable (ym_s c) = true
}.
Lemma state_with br sk w h cs depth c s : y4m_state br sk w h cs depth c -> s_broken s = br -> (br = true -> s_eof s = false) -> stream_ok s ->
  (sk = true -> s_seekable s = true) -> y4m_state br sk w h cs depth (with_stream c s).
Proof.
  intros [(K1 & K2) A B C D E F] G1 G2 G3 G4. constructor; try assumption. split; [exact G3|exact K2].
Qed.
Lemma state_bytes br sk w h cs depth c : y4m_state br sk w h cs depth c -> 8 <= depth <= 16 /\ ym_y c = w * h * sample_size depth.
Proof.
  intros [(K1 & K2 & K3 & _) A B C D E F]. rewrite A in *. split; [exact K2|]. unfold bytes_per in K3. rewrite bytes_sample in K3 by exact K2. exact K3.
Qed.
Lemma state_skip br sk w h cs depth c n : y4m_state br sk w h cs depth c -> n = ym_y c \/ n = ym_uv c ->
  exists sb, skip_buf c = Ok sb /\ (forall s, (sk = true -> s_seekable s = true) -> sb = None /\ s_seekable s = true \/ exists b, sb = Some b /\ n <= b) /\
    (sk = true -> sb = None) /\ (sk = false -> exists b, sb = Some b /\ n <= b).
Proof.
  intros [(_ & _ & _ & _ & _ & b & size & KB & L & LU) A B C D E F] N. unfold skip_buf. rewrite E. destruct sk.
  - eexists. split; [reflexivity|]. split; [intros; left; auto|]. split; [reflexivity|discriminate].
  - rewrite KB. eexists. split; [reflexivity|]. specialize (LU E).
    assert (n <= size) by (destruct N; lia). split; [intros; right; eauto|]. split; [discriminate|eauto].
Qed.

Definition y4m_at (br sk : bool) (w h : Z) (cs : subsampling) (depth : Z) (t : list Z) (c : y4m_context) (fz : list (list Z)) : Prop :=
  y4m_state br sk w h cs depth c /\ y4m_frames w h cs depth t fz (s_rest (ym_s c)).
Lemma reader_steady_y4m Y c w h b e vs c' : steady (w * h) (fun image => y4m_read (y_host Y) c image w h) b e vs c' ->
  steady (w * h) (fun image => reader_read Y (CY4m c) image w h) b e vs (CY4m c').
Proof.
  intros (L & S). split; [exact L|]. intros image Z. destruct (S image Z) as (im & Q & R). exists im. cbn [reader_read]. rewrite Q. cbn [bind]. auto.
Qed.

(** a frame of which [r] follows the luma samples *)
Lemma y4m_read_luma Y br sk w h cs depth c samples ps r blk : sane w h ->
  y4m_state br sk w h cs depth c -> s_rest (ym_s c) = Y4m.chars "FRAME" ++ ps ++ 10 :: concat (map (sample_bytes depth) samples) ++ r -> ~ In 10 ps ->
  zlen samples = w * h ->
  exists s1, s_rest s1 = r /\ s_broken s1 = br /\ (br = true -> s_eof s1 = false) /\ stream_ok s1 /\ (sk = true -> s_seekable s1 = true) /\
    s_pos s1 = s_pos (ym_s c) + (zlen (s_rest (ym_s c)) - zlen r) /\
  exists sb e2 s2, skip_buf c = Ok sb /\ resdet_fskip s1 (chroma cs w h * sample_size depth) sb = Ok (e2, s2) /\
    gives Y (mkImage blk (CY4m c) w h) (e2 =? 0) e2 (map (y4m_val (y_host Y) depth) samples) (mkImage blk (CY4m (with_stream c s2)) w h).
Proof.
  intros D ST R NP ZS. destruct (state_bytes _ _ _ _ _ _ _ ST) as (DP & YB). assert (ST' := ST). destruct ST' as [K A B C G F SK].
  pose proof (frame_header_text _ _ _ R NP) as FH. set (lum := concat (map (sample_bytes depth) samples)) in *.
  destruct (y4m_read_full (y_host Y) c w h true RDEOK _ D K FH) as (sb & ESB & RF). cbv zeta in RF. cbn [negb s_rest with_rest] in RF.
  assert (LL : length lum = Z.to_nat (ym_y c)).
  { rewrite YB, <- ZS. unfold lum. rewrite <- luma_length. unfold zlen. rewrite Nat2Z.id. reflexivity. }
  assert (N : (Z.to_nat (ym_y c) <=? length (lum ++ r))%nat = true) by (apply Nat.leb_le; rewrite app_length; lia).
  rewrite N in RF. rewrite <- LL, skipn_app_len, with_rest_with, A, B in RF. pose proof (luma_values (y_host Y) depth samples r) as LV. rewrite ZS in LV. unfold lum in RF. rewrite LV in RF. fold lum in RF.
  exists (with_rest (ym_s c) r). split; [reflexivity|]. split; [exact C|]. split; [exact G|].
  split. { apply (later_ok_rest _ (Y4m.chars "FRAME" ++ ps ++ 10 :: lum)); [rewrite R, <- !app_assoc; reflexivity|]. apply K. }
  split; [exact SK|]. split; [reflexivity|].
  destruct RF as (e2 & s2 & EF & S). exists sb, e2, s2. split; [exact ESB|]. split; [exact EF|]. apply steady_gives, reader_steady_y4m. exact S.
Qed.
Lemma y4m_read_text Y br sk w h cs depth t c samples fz blk : sane w h ->
  y4m_at br sk w h cs depth t c (samples :: fz) ->
  exists c', gives Y (mkImage blk (CY4m c) w h) true RDEOK (map (y4m_val (y_host Y) depth) samples) (mkImage blk (CY4m c') w h) /\ y4m_at br sk w h cs depth t c' fz /\
    s_pos (ym_s c') + zlen (s_rest (ym_s c')) = s_pos (ym_s c) + zlen (s_rest (ym_s c)).
Proof.
  intros D (ST & FR). remember (s_rest (ym_s c)) as rest eqn:R. inversion FR as [|f0 fs0 l l' (ps & uv & NP & ZS & BS & ZU & EL) FR' Q1 Q2]. subst f0 fs0 l.
  rewrite R in Q2. symmetry in Q2. rewrite <- !app_assoc in Q2. cbn [app] in Q2.
  destruct (y4m_read_luma Y br sk w h cs depth c samples ps (uv ++ l') blk D ST) as (s1 & R1 & B1 & E1 & K1 & SK1 & P1 & sb & e2 & s2 & ESB & EF & GV); try assumption.
  destruct (state_skip br sk w h cs depth c (ym_uv c) ST (or_intror eq_refl)) as (sb' & ESB' & SB & _). rewrite ESB in ESB'. inversion ESB'; subst sb'.
  rewrite (ys_uv _ _ _ _ _ _ _ ST) in SB.
  destruct (fskip_frame s1 (chroma cs w h * sample_size depth) sb (length uv) K1) as (s' & EF' & R' & B' & E' & K' & SK' & P').
  { unfold zlen in ZU. lia. } { rewrite R1, app_length. lia. } { apply SB. exact SK1. }
  rewrite EF in EF'. inversion EF'; subst e2 s'. exists (with_stream c s2). split; [exact GV|]. split; [|cbn [ym_s with_stream]; rewrite R1 in P'; rewrite Q2 in P1; rewrite <- !app_assoc; cbn [app] in *; lia]. split.
  - apply state_with; try assumption; try congruence; [intros X; apply E'; apply E1; exact X|intros X; rewrite SK'; apply SK1; exact X].
  - cbn [ym_s with_stream]. rewrite R', R1, skipn_app_len. exact FR'.
Qed.

(** ** The film *)
Definition y4m_inv (H : host) (br sk : bool) (w h : Z) (cs : subsampling) (depth : Z) (t : list Z) (i : rdimage) (fs : list (list f32)) : Prop :=
  im_width i = w /\ im_height i = h /\ sane w h /\ exists c fz, im_ctx i = CY4m c /\ fs = map (map (y4m_val H depth)) fz /\ y4m_at br sk w h cs depth t c fz.
Lemma y4m_inv_size H br sk w h cs depth t i fs : y4m_inv H br sk w h cs depth t i fs -> im_width i = w /\ im_height i = h.
Proof. intros (A & B & _). auto. Qed.
Lemma y4m_inv_read Y br sk w h cs depth t i f fs : y4m_inv (y_host Y) br sk w h cs depth t i (f :: fs) ->
  exists i', gives Y i true RDEOK f i' /\ y4m_inv (y_host Y) br sk w h cs depth t i' fs.
Proof.
  intros (A & B & D & c & [|samples fz] & C & Q & AT); [discriminate|]. inversion Q; subst f fs.
  destruct i as [blk ctx w0 h0]. cbn [im_width im_height im_ctx] in *. subst w0 h0 ctx.
  destruct (y4m_read_text Y _ _ _ _ _ _ _ _ _ _ blk D AT) as (c' & G & AT' & _). eexists. split; [exact G|].
  split; [reflexivity|]. split; [reflexivity|]. split; [exact D|]. exists c', fz. auto.
Qed.
Lemma y4m_at_end br sk w h cs depth c fz : y4m_at br sk w h cs depth [] c fz -> fz = [] ->
  y4m_frame_header (ym_s c) = (false, en_of br, at_end (ym_s c)) /\ y4m_at br sk w h cs depth [] (with_stream c (at_end (ym_s c))) [].
Proof.
  intros (ST & FR) ->. assert (R : s_rest (ym_s c) = []) by (inversion FR; reflexivity). assert (ST' := ST). destruct ST' as [K A B C G F SK]. split.
  - rewrite <- C. apply frame_header_end; [exact R|]. rewrite C. exact G.
  - split; [|cbn [ym_s with_stream at_end s_rest]; constructor]. apply state_with; try assumption.
    + intros X. cbn [at_end s_eof]. rewrite C, X, (G X). reflexivity.
    + apply later_ok with (ym_s c). apply later_at_end. apply K.
Qed.
Lemma y4m_inv_end Y br sk w h cs depth i : y4m_inv (y_host Y) br sk w h cs depth [] i [] -> exists i', y4m_inv (y_host Y) br sk w h cs depth [] i' [] /\
  forall buf, w * h <= zlen buf -> resdet_read_image_frame Y (Some i) (Some buf) = Ok (false, en_of br, Some buf, Some i').
Proof.
  intros (A & B & D & c & fz & C & Q & AT). assert (fz = []) by (destruct fz; [reflexivity|discriminate]). subst fz.
  destruct (y4m_at_end _ _ _ _ _ _ _ _ AT eq_refl) as (EH & AT'). destruct i as [blk ctx w0 h0]. cbn [im_width im_height im_ctx] in *. subst w0 h0 ctx.
  eexists (mkImage blk (CY4m (with_stream c (at_end (ym_s c)))) w h). split.
  - split; [reflexivity|]. split; [reflexivity|]. split; [exact D|]. eexists _, []. split; [reflexivity|]. split; [reflexivity|exact AT'].
  - intros buf _. cbn [resdet_read_image_frame im_ctx im_width im_height im_blk reader_read]. unfold y4m_read. rewrite EH. reflexivity.
Qed.
Lemma zrange_step i n : zrange i (i + Z.of_nat (Datatypes.S n)) = i :: zrange (i + 1) (i + 1 + Z.of_nat n).
Proof. rewrite zrange_from by lia. f_equal. f_equal. lia. Qed.
Lemma y4m_skip_text br sk w h cs depth : sane w h -> forall n i calls c fz, y4m_at br sk w h cs depth [] c fz ->
  exists c', y4m_skip n i calls c =
    Ok ((n <=? length fz)%nat, (if (n <=? length fz)%nat then RDEOK else en_of br), calls ++ zrange (i + 1) (i + 1 + Z.of_nat (Nat.min n (length fz))), c') /\
    y4m_at br sk w h cs depth [] c' (skipn n fz).
Proof.
  intros D. induction n as [|n IH]; intros i calls c fz AT.
  - exists c. cbn [y4m_skip Nat.min Z.of_nat Nat.leb skipn]. rewrite Z.add_0_r. rewrite zrange_none, app_nil_r. split; [reflexivity|exact AT].
  - cbn [y4m_skip]. destruct fz as [|samples fz].
    + destruct (y4m_at_end _ _ _ _ _ _ _ _ AT eq_refl) as (EH & AT'). rewrite EH. cbn [negb length Nat.min Z.of_nat Nat.leb]. rewrite Z.add_0_r, zrange_none, app_nil_r.
      eexists. split; [reflexivity|]. rewrite skipn_nil. exact AT'.
    + destruct AT as (ST & FR). remember (s_rest (ym_s c)) as rest eqn:R. inversion FR as [|f0 fs0 l l' (ps & uv & NP & ZS & BS & ZU & EL) FR' Q1 Q2]. subst f0 fs0 l.
      rewrite R in Q2. symmetry in Q2. rewrite <- !app_assoc in Q2. cbn [app] in Q2.
      rewrite (frame_header_text _ _ _ Q2 NP). cbn [negb]. set (lum := concat (map (sample_bytes depth) samples)) in *.
      destruct (state_bytes _ _ _ _ _ _ _ ST) as (DP & YB). assert (ST' := ST). destruct ST' as [K A B C G F SK].
      destruct (state_skip br sk w h cs depth c (ym_y c) ST (or_introl eq_refl)) as (sb & ESB & SB & _).
      destruct (state_skip br sk w h cs depth c (ym_uv c) ST (or_intror eq_refl)) as (sb' & ESB' & SB' & _). rewrite ESB in ESB'. inversion ESB'; subst sb'.
      rewrite ESB. cbn [bind].
      assert (KS : stream_ok (with_rest (ym_s c) (lum ++ uv ++ l'))).
      { apply (later_ok_rest _ (Y4m.chars "FRAME" ++ ps ++ [10])); [rewrite Q2, <- !app_assoc; reflexivity|apply K]. }
      assert (LL : ym_y c = Z.of_nat (length lum)) by (rewrite YB, <- ZS; unfold lum; rewrite <- luma_length; reflexivity).
      destruct (fskip_frame (with_rest (ym_s c) (lum ++ uv ++ l')) (ym_y c) sb (length lum) KS LL) as (s1 & EF1 & R1 & B1 & E1 & K1 & SK1 & _).
      { cbn [s_rest with_rest]. rewrite app_length. lia. } { apply SB. exact SK. }
      rewrite EF1. cbn [bind]. change (negb (RDEOK =? 0)) with false. cbv iota. cbn [s_rest with_rest] in R1. rewrite skipn_app_len in R1.
      destruct (fskip_frame s1 (ym_uv c) sb (length uv) K1) as (s2 & EF2 & R2 & B2 & E2 & K2 & SK2 & _).
      { rewrite B, <- ZU. reflexivity. } { rewrite R1, app_length. apply Nat.le_add_r. } { apply SB'. intros X. rewrite SK1. exact (SK X). }
      rewrite EF2. cbn [bind]. change (negb (RDEOK =? 0)) with false. cbv iota. rewrite R1, skipn_app_len in R2.
      destruct (IH (i + 1) (calls ++ [i + 1]) (with_stream c s2) fz) as (c' & EQ & AT').
      { split; [|cbn [ym_s with_stream]; rewrite R2; exact FR']. apply state_with; try assumption.
        - rewrite B2, B1. exact C.
        - intros X. apply E2, E1. exact (G X).
        - intros X. rewrite SK2, SK1. exact (SK X). }
      exists c'. rewrite EQ. split; [|exact AT']. f_equal. f_equal. f_equal. cbn [length Nat.min]. rewrite <- app_assoc. f_equal. cbn [app].
      symmetry. apply zrange_step.
Qed.
Lemma y4m_inv_seek E Y br sk w h cs depth i fs k wd : y4m_inv (y_host Y) br sk w h cs depth [] i fs -> 0 <= k -> exists i' wd',
  resdet_seek_frame E Y (Some i) k wd = Ok (k <=? zlen fs, if k <=? zlen fs then RDEOK else en_of br, zrange 1 (Z.min k (zlen fs) + 1), Some i', wd') /\
  y4m_inv (y_host Y) br sk w h cs depth [] i' (skipn (Z.to_nat k) fs).
Proof.
  intros (A & B & D & c & fz & C & -> & AT) K. destruct i as [blk ctx w0 h0]. cbn [im_width im_height im_ctx] in *. subst w0 h0 ctx.
  cbn [resdet_seek_frame im_ctx reader_seek im_width im_height im_blk]. unfold y4m_seek.
  destruct (y4m_skip_text br sk w h cs depth D (Z.to_nat k) 0 [] c fz AT) as (c' & EQ & AT'). rewrite EQ. cbn [bind app].
  assert (ZL : zlen (map (map (y4m_val (y_host Y) depth)) fz) = Z.of_nat (length fz)) by (unfold zlen; rewrite map_length; reflexivity). rewrite ZL.
  assert (LE : (Z.to_nat k <=? length fz)%nat = (k <=? Z.of_nat (length fz))).
  { apply Bool.eq_true_iff_eq. rewrite Nat.leb_le, Z.leb_le. lia. }
  rewrite LE. replace (0 + 1 + Z.of_nat (Nat.min (Z.to_nat k) (length fz))) with (Z.min k (Z.of_nat (length fz)) + 1) by lia. change (0 + 1) with 1.
  eexists _, wd. split; [reflexivity|]. split; [reflexivity|]. split; [reflexivity|]. split; [exact D|]. exists c', (skipn (Z.to_nat k) fz).
  split; [reflexivity|]. split; [rewrite skipn_map; reflexivity|exact AT'].
Qed.

Lemma values_quotient Y w h cs depth t fz l : 8 <= depth <= 16 -> y4m_frames w h cs depth t fz l ->
  Forall2 (Forall2 (fun c v => quotient (taken_for (y_host Y) depth c) (2 ^ depth - 1) v)) fz (map (map (y4m_val (y_host Y) depth)) fz).
Proof.
  intros D F. induction F as [|f fz l l' (ps & uv & _ & _ & BS & _) _ IH]; [constructor|]. cbn [map]. constructor; [|exact IH].
  clear -BS D. induction BS as [|c f C _ IH]; [constructor|]. cbn [map]. constructor; [apply val_quotient; assumption|exact IH].
Qed.
Lemma head_depth w h cs depth head : y4m_head w h cs depth head -> 8 <= depth <= 16.
Proof. intros (ps & t & colour & _ & _ & CS & _). exact (colour_depth _ _ _ CS). Qed.

(** what opening a YUV4MPEG2 file leads to *)
Lemma y4m_opens R E Y f want wd s w h cs depth head tail fz l (P : rdimage -> Prop) :
  config_ok (e_cfg E) = true -> system_ok Y -> r_y4m R = true -> delivers Y f s -> s_rest s = head ++ l ->
  y4m_head w h cs depth head -> y4m_frames w h cs depth tail fz l -> 1 <= w <= SIZE_MAX -> 1 <= h <= SIZE_MAX ->
  (forall i, y4m_inv (y_host Y) (s_broken s) (s_seekable s && ((w * h + chroma cs w h) * sample_size depth <=? LONG_MAX)) w h cs depth tail i (map (map (y4m_val (y_host Y) depth)) fz) ->
     (exists blk c, i = mkImage blk (CY4m c) w h /\ ym_s c = with_rest s l) -> P i) ->
  opens_as E w h (y4m_within E w h cs depth) P (resdet_open_image_with_reader R E Y (Some f) (Some "Y4M"%string) true want wd).
Proof.
  intros CF SY RP DL RS HD FR W Hh PI. pose proof (head_depth _ _ _ _ _ HD) as DP.
  apply (open_native E R Y f want wd RY4m w h); try assumption; try lia; try exact I.
  - unfold resdet_image_readers, when. rewrite RP. apply in_or_app. right. apply in_or_app. right. left. reflexivity.
  - intros (A & _). unfold config_ok in CF. unfold within. nia.
  - intros w1. cbn [reader_open].
    destruct (y4m_open_text E Y f s w h cs depth head l w1 CF SY DL RS HD W Hh) as [(w0 & h0 & w2 & -> & A)|[(w2 & -> & A)|(blk & fl & buf & sk & w2 & -> & A & SK)]]; cbn [map_open bind option_map].
    + eexists _, _, _, _, _. split; [reflexivity|]. left. auto.
    + eexists _, _, _, _, _. split; [reflexivity|]. right. left. auto.
    + eexists _, _, _, _, _. split; [reflexivity|]. right. right. split; [reflexivity|]. split; [reflexivity|]. split; [reflexivity|]. split; [intros _; exact A|].
      intros ctx Q sz b (D & KO). inversion Q; subst ctx. cbn [im_width im_height im_ctx] in *. destruct DL as (D1 & D2 & _). apply PI.
      * split; [reflexivity|]. split; [reflexivity|]. split; [exact D|]. eexists _, fz. split; [reflexivity|]. split; [reflexivity|]. split; [|exact FR].
        constructor; try reflexivity; [exact KO|intros _; exact D1|exact SK|]. cbn [ym_s with_rest s_seekable]. intros X. apply andb_true_iff in X. apply X.
      * eexists _, _. split; reflexivity.
Qed.

Lemma y4m_film R E Y f want wd s w h cs depth head fz l :
  config_ok (e_cfg E) = true -> system_ok Y -> r_y4m R = true -> delivers Y f s -> s_rest s = head ++ l ->
  y4m_head w h cs depth head -> y4m_frames w h cs depth [] fz l -> 1 <= w <= SIZE_MAX -> 1 <= h <= SIZE_MAX ->
  exists fs, Forall2 (Forall2 (fun c v => quotient (taken_for (y_host Y) depth c) (2 ^ depth - 1) v)) fz fs /\
  opens_as E w h (y4m_within E w h cs depth)
    (fun i => (exists i', frames Y i fs (end_of s) i') /\ (forall calls, Forall (proper w h) calls -> screens E Y (end_of s) i fs calls))
    (resdet_open_image_with_reader R E Y (Some f) (Some "Y4M"%string) true want wd).
Proof.
  intros CF SY RP DL RS HD FR W Hh. pose proof (head_depth _ _ _ _ _ HD) as DP. exists (map (map (y4m_val (y_host Y) depth)) fz).
  split; [exact (values_quotient Y w h cs depth [] fz l DP FR)|].
  apply (y4m_opens R E Y f want wd s w h cs depth head [] fz l); try assumption. intros i IV _. split.
  - exact (film_frames Y _ w h _ (y4m_inv_size _ _ _ w h cs depth []) (y4m_inv_read Y _ _ w h cs depth []) (y4m_inv_end Y _ _ w h cs depth) _ _ IV).
  - intros calls PC. exact (film_screens E Y _ w h _ (y4m_inv_size _ _ _ w h cs depth []) (y4m_inv_read Y _ _ w h cs depth []) (y4m_inv_end Y _ _ w h cs depth)
      (y4m_inv_seek E Y _ _ w h cs depth) calls _ _ IV PC).
Qed.

(** ** Incomplete frames *)
Lemma frame_header_word s t r : Y4m.chars "FRAME" = t ++ r -> t <> [] -> r <> [] -> s_rest s = t ->
  y4m_frame_header s = (false, RDEINVAL, at_end s).
Proof.
  intros Q T N R. assert (L : zlen t + zlen r = 5) by (rewrite <- zlen_app, <- Q; reflexivity).
  assert (1 <= zlen t) by (destruct t; [contradiction|]; rewrite zlen_cons; pose proof (zlen_nonneg t); lia).
  assert (1 <= zlen r) by (destruct r; [contradiction|]; rewrite zlen_cons; pose proof (zlen_nonneg r); lia).
  unfold y4m_frame_header, fread. rewrite R. destruct (Z.ltb_spec (zlen t) 5) as [_|X]; [|lia]. destruct (Z.ltb_spec (zlen t) 5) as [_|X]; [|lia].
  destruct (Z.eqb_spec (zlen t) 0); [lia|]. reflexivity.
Qed.
Lemma after_line_none ps : ~ In 10 ps -> after_line ps = None.
Proof.
  induction ps as [|c ps IH]; intros N; [reflexivity|]. cbn [after_line]. destruct (Z.eqb_spec c 10) as [->|_]; [elim N; left; reflexivity|].
  apply IH. intros I. apply N. right. exact I.
Qed.
Lemma frame_header_line s ps : s_rest s = Y4m.chars "FRAME" ++ ps -> ~ In 10 ps -> exists s', y4m_frame_header s = (false, RDEINVAL, s').
Proof.
  intros R N. unfold y4m_frame_header, fread. rewrite R.
  assert (L : zlen (Y4m.chars "FRAME" ++ ps) <? 5 = false).
  { rewrite zlen_app. change (zlen (Y4m.chars "FRAME")) with 5. pose proof (zlen_nonneg ps). lia. }
  rewrite L. change (Z.to_nat 5) with (length (Y4m.chars "FRAME")). rewrite firstn_app_len, skipn_app_len. change (zlen (Y4m.chars "FRAME") <? 5) with false. cbv iota.
  destruct (list_eq_dec Z.eq_dec (Y4m.chars "FRAME") (Y4m.chars "FRAME")) as [_|X]; [|elim X; reflexivity]. cbn [negb s_rest with_rest].
  rewrite (after_line_none _ N). eauto.
Qed.
Lemma y4m_cut_read Y br sk w h cs depth c t need blk : sane w h -> y4m_state br sk w h cs depth c -> s_rest (ym_s c) = t -> y4m_cut need t ->
  (need = w * h * sample_size depth \/ (sk = false /\ need = (w * h + chroma cs w h) * sample_size depth)) ->
  exists vs i', gives Y (mkImage blk (CY4m c) w h) false RDEINVAL vs i'.
Proof.
  intros D ST R CU NE. destruct (state_bytes _ _ _ _ _ _ _ ST) as (DP & YB). assert (K := ys_ok _ _ _ _ _ _ _ ST).
  assert (HF : forall s1, y4m_frame_header (ym_s c) = (false, RDEINVAL, s1) -> exists vs i', gives Y (mkImage blk (CY4m c) w h) false RDEINVAL vs i').
  { intros s1 FH. destruct (y4m_read_full (y_host Y) c w h false RDEINVAL s1 D K FH) as (sb & _ & RF). cbv zeta in RF. cbn [negb] in RF.
    eexists _, _. apply steady_gives, reader_steady_y4m. exact RF. }
  destruct CU as [t r Q T N|ps N|ps data N LD].
  - exact (HF _ (frame_header_word _ _ _ Q T N R)).
  - destruct (frame_header_line _ _ R N) as (s' & FH). exact (HF _ FH).
  - pose proof (frame_header_text _ _ _ R N) as FH. destruct (y4m_read_full (y_host Y) c w h true RDEOK _ D K FH) as (sb & ESB & RF). cbv zeta in RF. cbn [negb s_rest with_rest] in RF.
    destruct (Nat.leb_spec (Z.to_nat (ym_y c)) (length data)) as [G|G].
    + destruct NE as [->|(SK & NE)]; [unfold zlen in LD; lia|].
      destruct (state_skip br sk w h cs depth c (ym_uv c) ST (or_intror eq_refl)) as (sb' & ESB' & _ & _ & SB). rewrite ESB in ESB'. inversion ESB'; subst sb'.
      destruct (SB SK) as (b & -> & LB). destruct RF as (e2 & s2 & EF & RF). rewrite with_rest_with in EF.
      unfold resdet_fskip in EF. destruct (Z.gtb_spec (ym_uv c) b) as [X|_]; [lia|]. unfold fread in EF. cbn [s_rest with_rest] in EF.
      assert (SH : zlen (skipn (Z.to_nat (ym_y c)) data) < ym_uv c).
      { rewrite (ys_uv _ _ _ _ _ _ _ ST). unfold zlen in *. rewrite skipn_length. assert (0 <= ym_y c) by (apply (y4m_y_nonneg w h c K); destruct D as (? & ? & ?); nia).
        rewrite YB in *. rewrite Z.mul_add_distr_r in NE. lia. }
      destruct (Z.ltb_spec (zlen (skipn (Z.to_nat (ym_y c)) data)) (ym_uv c)) as [_|X]; [|lia].
      destruct (Z.eqb_spec (zlen (skipn (Z.to_nat (ym_y c)) data)) (ym_uv c)) as [X|_]; [lia|]. inversion EF; subst e2 s2.
      change (RDEINVAL =? 0) with false in RF. eexists _, _. apply steady_gives, reader_steady_y4m. exact RF.
    + eexists _, _. apply steady_gives, reader_steady_y4m. exact RF.
Qed.
Lemma y4m_short R E Y f want wd s w h cs depth head t fz l :
  config_ok (e_cfg E) = true -> system_ok Y -> r_y4m R = true -> delivers Y f s -> s_rest s = head ++ l ->
  y4m_head w h cs depth head -> y4m_frames w h cs depth t fz l ->
  y4m_cut ((w * h + if s_seekable s then 0 else chroma cs w h) * sample_size depth) t -> 1 <= w <= SIZE_MAX -> 1 <= h <= SIZE_MAX ->
  exists fs, Forall2 (Forall2 (fun c v => quotient (taken_for (y_host Y) depth c) (2 ^ depth - 1) v)) fz fs /\
  opens_as E w h (y4m_within E w h cs depth) (fun i => exists i', frames Y i fs RDEINVAL i')
    (resdet_open_image_with_reader R E Y (Some f) (Some "Y4M"%string) true want wd).
Proof.
  intros CF SY RP DL RS HD FR CU W Hh. pose proof (head_depth _ _ _ _ _ HD) as DP. exists (map (map (y4m_val (y_host Y) depth)) fz).
  split; [exact (values_quotient Y w h cs depth t fz l DP FR)|].
  apply (y4m_opens R E Y f want wd s w h cs depth head t fz l); try assumption. intros i IV _. revert IV. apply frames_until.
  - intros i1 f1 fs1. apply y4m_inv_read.
  - intros i1 (A & B & D & c & fz1 & C & Q & ST & FR1). assert (fz1 = []) by (destruct fz1; [reflexivity|discriminate]). subst fz1.
    assert (R1 : s_rest (ym_s c) = t) by (inversion FR1; reflexivity). destruct i1 as [blk ctx w0 h0]. cbn [im_width im_height im_ctx] in *. subst w0 h0 ctx.
    apply (y4m_cut_read Y _ _ w h cs depth c t _ blk D ST R1 CU). destruct (s_seekable s); [left; ring|right; split; reflexivity].
Qed.
(** a seekable file with a frame that lacks chroma samples: the frame is read *)
Lemma y4m_short_chroma R E Y f want wd s w h cs depth head fz l ps samples part :
  config_ok (e_cfg E) = true -> system_ok Y -> r_y4m R = true -> delivers Y f s -> s_rest s = head ++ l ->
  y4m_head w h cs depth head -> y4m_frames w h cs depth (Y4m.chars "FRAME" ++ ps ++ 10 :: concat (map (sample_bytes depth) samples) ++ part) fz l ->
  ~ In 10 ps -> zlen samples = w * h -> Forall (fun c => 0 <= c < 256 ^ sample_size depth) samples -> zlen part < chroma cs w h * sample_size depth ->
  1 <= w <= SIZE_MAX -> 1 <= h <= SIZE_MAX ->
  s_seekable s = true -> s_pos s + zlen (s_rest s) + chroma cs w h * sample_size depth <= LONG_MAX ->
  exists fs, Forall2 (Forall2 (fun c v => quotient (taken_for (y_host Y) depth c) (2 ^ depth - 1) v)) (fz ++ [samples]) fs /\
  opens_as E w h (y4m_within E w h cs depth) (fun i => exists i', frames Y i fs (end_of s) i')
    (resdet_open_image_with_reader R E Y (Some f) (Some "Y4M"%string) true want wd).
Proof.
  intros CF SY RP DL RS HD FR NP ZS BS SH W Hh SK PO. pose proof (head_depth _ _ _ _ _ HD) as DP.
  set (t := Y4m.chars "FRAME" ++ ps ++ 10 :: concat (map (sample_bytes depth) samples) ++ part) in *.
  exists (map (map (y4m_val (y_host Y) depth)) (fz ++ [samples])). split.
  { rewrite map_app. apply Forall2_app; [exact (values_quotient Y w h cs depth t fz l DP FR)|]. constructor; [|constructor].
    clear -BS DP. induction BS as [|c f C _ IH]; [constructor|]. cbn [map]. constructor; [apply val_quotient; assumption|exact IH]. }
  set (uv := chroma cs w h * sample_size depth) in *. set (total := s_pos s + zlen (s_rest s)) in *.
  set (sk := s_seekable s && ((w * h + chroma cs w h) * sample_size depth <=? LONG_MAX)).
  apply (y4m_opens R E Y f want wd s w h cs depth head t fz l); try assumption. intros i IV (blk0 & c0 & Q0 & SC).
  assert (TOT : (w * h + chroma cs w h) * sample_size depth <= LONG_MAX).
  { destruct DL as (_ & (_ & P0 & _) & _). unfold total in PO. rewrite RS, zlen_app in PO.
    assert (LL : w * h * sample_size depth <= zlen l).
    { clear -FR ZS. induction FR as [|f0 fz l l' (ps0 & uv0 & _ & Z0 & _ & ZU & ->) _ IH].
      - unfold t. rewrite !zlen_app, zlen_cons, zlen_app, luma_length, ZS. pose proof (zlen_nonneg ps). pose proof (zlen_nonneg part). pose proof (zlen_nonneg (Y4m.chars "FRAME")). lia.
      - rewrite zlen_app. match goal with |- _ <= zlen ?a + _ => pose proof (zlen_nonneg a) end. lia. }
    pose proof (zlen_nonneg head). unfold uv in PO. rewrite Z.mul_add_distr_r. lia. }
  assert (SKT : sk = true) by (unfold sk; rewrite SK; apply Z.leb_le; exact TOT). fold sk in IV.
  set (Inv := fun i fs => im_width i = w /\ im_height i = h /\ sane w h /\ exists c fz, im_ctx i = CY4m c /\
     ((fs = map (map (y4m_val (y_host Y) depth)) (fz ++ [samples]) /\ y4m_at (s_broken s) sk w h cs depth t c fz /\ s_pos (ym_s c) + zlen (s_rest (ym_s c)) = total) \/
      (fs = [] /\ y4m_at (s_broken s) sk w h cs depth [] c []))).
  assert (I0 : Inv i (map (map (y4m_val (y_host Y) depth)) (fz ++ [samples]))).
  { destruct IV as (A & B & D & c & fz1 & C & Q & AT). split; [exact A|]. split; [exact B|]. split; [exact D|]. exists c, fz1. split; [exact C|]. left.
    split; [rewrite !map_app, Q; reflexivity|]. split; [exact AT|]. subst i. cbn [im_ctx] in C. inversion C; subst c0. rewrite SC. cbn [with_rest s_pos s_rest]. unfold total. lia. }
  revert I0. apply frames_until.
  - intros i1 f1 fs1 (A & B & D & c & fz1 & C & [(Q & AT & P)|(Q & _)]); [|discriminate].
    destruct i1 as [blk ctx w0 h0]. cbn [im_width im_height im_ctx] in *. subst w0 h0 ctx. destruct fz1 as [|smp fz1].
    + cbn [app map] in Q. inversion Q; subst f1 fs1. destruct AT as (ST & FR1). assert (R1 : s_rest (ym_s c) = t) by (inversion FR1; reflexivity).
      destruct (y4m_read_luma Y _ sk w h cs depth c samples ps part blk D ST R1 NP ZS) as (s1 & R2 & B2 & E2 & K2 & SK2 & P2 & sb & e2 & s2 & ESB & EF & GV).
      destruct (state_skip _ sk w h cs depth c (ym_uv c) ST (or_intror eq_refl)) as (sb' & ESB' & _ & SB & _). rewrite ESB in ESB'. inversion ESB'; subst sb'.
      rewrite (SB SKT) in EF. fold uv in EF. unfold resdet_fskip in EF. assert (0 <= uv) by (unfold uv; pose proof (chroma_bounds cs w h (proj1 W) (proj1 Hh)); unfold sample_size; destruct (depth <=? 8); nia).
      destruct K2 as (K2a & K2b & K2c). pose proof (zlen_nonneg (s_rest s)). pose proof (zlen_nonneg part). rewrite R2 in *. assert (PS : s_pos s1 + zlen part = total) by lia.
      assert (0 <= total) by lia.
      destruct (Z.gtb_spec uv LONG_MAX) as [X|_]; [lia|]. unfold fseek_cur in EF. rewrite (SK2 SKT) in EF. cbn [negb] in EF.
      destruct (Z.gtb_spec (s_pos s1 + uv) LONG_MAX) as [X|_]; [lia|]. inversion EF; subst e2 s2. change (RDEOK =? 0) with true in GV.
      eexists. split; [exact GV|]. split; [reflexivity|]. split; [reflexivity|]. split; [exact D|]. eexists _, []. split; [reflexivity|]. right. split; [reflexivity|].
      rewrite R2, skipn_all2 by (unfold zlen in SH; lia). split; [|constructor]. apply state_with; try assumption.
      * intros _. reflexivity.
      * split; [constructor|]. cbn [s_pos s_rest s_seekable]. split; [lia|]. intros _. change (zlen (@nil Z)) with 0. lia.
      * intros _. reflexivity.
    + cbn [app map] in Q. inversion Q; subst f1 fs1. destruct (y4m_read_text Y _ _ _ _ _ _ _ _ _ _ blk D AT) as (c' & G & AT' & P'). eexists. split; [exact G|].
      split; [reflexivity|]. split; [reflexivity|]. split; [exact D|]. exists c', fz1. split; [reflexivity|]. left. split; [reflexivity|]. split; [exact AT'|lia].
  - intros i1 (A & B & D & c & fz1 & C & [(Q & _)|(_ & AT)]).
    { rewrite map_app in Q. destruct (map (map (y4m_val (y_host Y) depth)) fz1); discriminate. }
    assert (IE : y4m_inv (y_host Y) (s_broken s) sk w h cs depth [] i1 []) by (split; [exact A|]; split; [exact B|]; split; [exact D|]; exists c, []; auto).
    destruct (y4m_inv_end Y _ _ _ _ _ _ _ IE) as (i' & _ & RD). exists [], i'. intros buf LB. rewrite A, B in LB. exists buf.
    split; [apply RD; exact LB|]. split; [reflexivity|discriminate].
Qed.
