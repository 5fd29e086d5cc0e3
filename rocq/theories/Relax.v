(** Hosts that leave undefined what the C standard does.  Up to the point where undefined
    behaviour of that kind occurs such a host does what the relaxed host does. *)
From Verif Require Import Base BaseProofs Flt Util Methods Analysis Stdio Pgm Pfm Y4m Image ImageHistory.
Open Scope list_scope.
Open Scope Z_scope.

Definition relax (H : host) : host := mkHost false (h_signed H) (h_little H) (h_float H).
Definition relax_system (Y : system) : system := mkSystem (relax (y_host Y)) (y_stdin Y) (y_fopen Y) (y_ext Y).
Lemma relax_system_ok Y : system_ok Y -> system_ok (relax_system Y). Proof. exact (fun x => x). Qed.
Lemma relax_relaxed Y : relaxed (relax_system Y). Proof. reflexivity. Qed.

Definition weaker {A} (m m' : res A) : Prop := m = m' \/ m = Undef BadCtype \/ m = Undef IntOverflow.
Lemma weaker_refl {A} (m : res A) : weaker m m. Proof. left. reflexivity. Qed.
Lemma weaker_bind {A B} (m m' : res A) (k k' : A -> res B) : weaker m m' -> (forall a, weaker (k a) (k' a)) -> weaker (bind m k) (bind m' k').
Proof.
  intros [->|[->| ->]] K; [|right; left; reflexivity|right; right; reflexivity].
  destruct m'; [apply K|apply weaker_refl].
Qed.
Lemma weaker_if {A} (b : bool) (m m' n n' : res A) : weaker m m' -> weaker n n' -> weaker (if b then m else n) (if b then m' else n').
Proof. destruct b; auto. Qed.


Lemma weak_ctype H c : weaker (ctype_arg H c) (ctype_arg (relax H) c).
Proof. unfold ctype_arg. cbn. destruct (_ && _ && _)%bool; [right; left; reflexivity|apply weaker_refl]. Qed.
Lemma weak_strtoul H neg l : weaker (strtoul H neg l) (strtoul (relax H) neg l).
Proof. unfold strtoul. cbn. destruct (_ >? _); [|apply weaker_refl]. destruct (h_strict H); [right; right; reflexivity|apply weaker_refl]. Qed.
Lemma weak_ushort H v : weaker (to_ushort H v) (to_ushort (relax H) v).
Proof. unfold to_ushort. cbn. destruct (_ >? _); [|apply weaker_refl]. destruct (h_strict H); [right; right; reflexivity|apply weaker_refl]. Qed.
Lemma weak_isdigit H c : weaker (isdigit H c) (isdigit (relax H) c).
Proof. unfold isdigit. apply weaker_bind; [apply weak_ctype|intros; apply weaker_refl]. Qed.
Lemma weak_tolower H c : weaker (tolower H c) (tolower (relax H) c).
Proof. unfold tolower. apply weaker_bind; [apply weak_ctype|intros; apply weaker_refl]. Qed.

Lemma weak_directive H d s : weaker (run_directive H d s) (run_directive (relax H) d s).
Proof.
  destruct d; cbn [run_directive]; try apply weaker_refl.
  - destruct (s_rest (skip_space s)); [apply weaker_refl|]. destruct (split_sign _) as [neg l0]. destruct (take_while is_digit l0); [apply weaker_refl|].
    apply weaker_bind; [apply weak_strtoul|]. intros v. apply weaker_refl.
  - destruct (s_rest (skip_space s)); [apply weaker_refl|]. destruct (split_sign _) as [neg l0]. destruct (take_while is_digit l0); [apply weaker_refl|].
    apply weaker_bind; [apply weak_strtoul|]. intros v. apply weaker_bind; [apply weak_ushort|]. intros v0. apply weaker_refl.
Qed.
Lemma weak_fscanf_from H : forall fmt s b vs, weaker (fscanf_from H fmt s b vs) (fscanf_from (relax H) fmt s b vs).
Proof.
  induction fmt as [|d fmt IH]; intros s b vs; [apply weaker_refl|]. cbn [fscanf_from].
  apply weaker_bind; [apply weak_directive|]. intros [[| |v] s1]; try apply weaker_refl. apply IH.
Qed.
Lemma weak_fscanf H fmt s : weaker (fscanf H fmt s) (fscanf (relax H) fmt s).
Proof. apply weak_fscanf_from. Qed.

Lemma weak_pgm_header H s : weaker (pgm_header H s) (pgm_header (relax H) s).
Proof.
  unfold pgm_header. apply weaker_bind; [apply weak_fscanf|]. intros [[n vs] s1]. destruct (n <? 0); [apply weaker_refl|].
  destruct (skip_comments s1) as [b s2]. destruct b; cbn [negb]; [|apply weaker_refl].
  apply weaker_bind; [apply weak_fscanf|]. intros [[n3 vs3] s3]. apply weaker_refl.
Qed.
Lemma weak_pgm_open E Y f w : weaker (pgm_open E Y f w) (pgm_open E (relax_system Y) f w).
Proof.
  unfold pgm_open. destruct (alloc (e_alloc E) w) as [[blk|] w1]; [|apply weaker_refl].
  change (open_stream (relax_system Y) f w1) with (open_stream Y f w1).
  destruct (open_stream Y f w1) as [[[h s]|errno] w2]; [|apply weaker_refl].
  apply weaker_bind; [apply weak_pgm_header|]. intros [h0 s0]. apply weaker_refl.
Qed.

Lemma weak_pfm_rest H s : weaker (pfm_rest H s) (pfm_rest (relax H) s).
Proof.
  unfold pfm_rest. apply weaker_bind; [apply weak_fscanf|]. intros [[n vs] s1]. destruct (n =? -1); [apply weaker_refl|].
  destruct (skip_comments s1) as [b s2]. destruct b; cbn [negb]; [|apply weaker_refl].
  apply weaker_bind; [apply weak_fscanf|]. intros [[n3 vs3] s3]. apply weaker_refl.
Qed.
Lemma weak_pfm_header H s : weaker (pfm_header H s) (pfm_header (relax H) s).
Proof.
  unfold pfm_header. apply weaker_bind; [apply weak_fscanf|]. intros [[n vs] s1]. destruct (negb (n =? 1)); [apply weaker_refl|].
  destruct vs as [|[| |c|] [|? ?]]; try apply weaker_refl. destruct (negb (is_format c)); [apply weaker_refl|].
  apply weaker_bind; [apply weak_pfm_rest|]. intros [h s2]. apply weaker_refl.
Qed.
Lemma weak_pfm_open E Y f w : weaker (pfm_open E Y f w) (pfm_open E (relax_system Y) f w).
Proof.
  unfold pfm_open. destruct (alloc (e_alloc E) w) as [[blk|] w1]; [|apply weaker_refl].
  change (open_stream (relax_system Y) f w1) with (open_stream Y f w1).
  destruct (open_stream Y f w1) as [[[h s]|errno] w2]; [|apply weaker_refl].
  apply weaker_bind; [apply weak_pfm_header|]. intros [h0 s0]. apply weaker_refl.
Qed.
Lemma weak_next_header H c w h : weaker (pfm_next_header H c w h) (pfm_next_header (relax H) c w h).
Proof.
  unfold pfm_next_header. destruct (pf_consumed c); [apply weaker_refl|]. destruct (fgetc (pf_s c)) as [[p|] s]; [|apply weaker_refl].
  destruct (negb (p =? 80)); [apply weaker_refl|]. apply weaker_bind; [apply weak_fscanf|]. intros [[n vs] s1].
  destruct (negb (n =? 1)); [apply weaker_refl|]. destruct vs as [|[| |f|] [|? ?]]; try apply weaker_refl. destruct (negb (is_format f)); [apply weaker_refl|].
  apply weaker_bind; [apply weak_pfm_rest|]. intros [h0 s2]. apply weaker_refl.
Qed.
Lemma weak_pfm_read H c image w h : weaker (pfm_read H c image w h) (pfm_read (relax H) c image w h).
Proof.
  unfold pfm_read. apply weaker_bind; [apply weak_next_header|]. intros [[b e] c1]. apply weaker_refl.
Qed.
Lemma weak_pfm_skip H w h size buf : forall n i calls c, weaker (pfm_skip n i H w h size buf calls c) (pfm_skip n i (relax H) w h size buf calls c).
Proof.
  induction n as [|n IH]; intros i calls c; [apply weaker_refl|]. cbn [pfm_skip].
  apply weaker_bind; [apply weak_next_header|]. intros [[b e] c1]. destruct (negb b); [apply weaker_refl|].
  apply weaker_bind; [apply weaker_refl|]. intros [e1 s1]. destruct (negb (e1 =? 0)); [apply weaker_refl|apply IH].
Qed.
Lemma weak_pfm_seek E Y c k w h wd : weaker (pfm_seek E Y c k w h wd) (pfm_seek E (relax_system Y) c k w h wd).
Proof.
  unfold pfm_seek. cbv zeta.
  match goal with |- context [let '(seekable, c) := ?x in _] => destruct x as [seekable c1] end.
  match goal with |- context [let '(buf, w) := ?x in _] => destruct x as [buf w1] end.
  destruct (_ && _)%bool; [apply weaker_refl|]. apply weaker_bind; [apply weak_pfm_skip|]. intros [[[r e] calls] c2]. apply weaker_refl.
Qed.

Lemma weak_y4m_params H : forall fuel w h csp s, weaker (y4m_params fuel H w h csp s) (y4m_params fuel (relax H) w h csp s).
Proof.
  induction fuel as [|fuel IH]; intros w h csp s; [apply weaker_refl|]. cbn [y4m_params].
  destruct (fgetc s) as [[c|] s1]; [|apply weaker_refl]. destruct (c =? 10); [apply weaker_refl|].
  destruct (c =? 87).
  { apply weaker_bind; [apply weak_fscanf|]. intros [[n vs] s2]. destruct vs as [|[v| | |] [|? ?]]; try apply weaker_refl. destruct (n =? 1); [apply IH|apply weaker_refl]. }
  destruct (c =? 72).
  { apply weaker_bind; [apply weak_fscanf|]. intros [[n vs] s2]. destruct vs as [|[v| | |] [|? ?]]; try apply weaker_refl. destruct (n =? 1); [apply IH|apply weaker_refl]. }
  destruct (c =? 67).
  { apply weaker_bind; [apply weak_fscanf|]. intros [[n vs] s2]. destruct vs as [|[| | |v] [|? ?]]; try apply weaker_refl. destruct (n =? 1); [|apply weaker_refl].
    apply weaker_bind; [apply weaker_refl|]. intros csp2. apply IH. }
  destruct (c =? 32); [apply IH|].
  apply weaker_bind; [apply weak_fscanf|]. intros [[n vs] s2]. destruct (n <? 0); [apply weaker_refl|apply IH].
Qed.
Lemma weak_colour H csp w h : weaker (colour_space H csp w h) (colour_space (relax H) csp w h).
Proof.
  unfold colour_space. cbv zeta.
  assert (D : forall i, weaker (c <- get csp i ;; d <- isdigit H c ;; if d : bool then number_at (skipn (Z.to_nat i) csp) 0 else Ok 8)
                               (c <- get csp i ;; d <- isdigit (relax H) c ;; if d : bool then number_at (skipn (Z.to_nat i) csp) 0 else Ok 8)).
  { intros i. apply weaker_bind; [apply weaker_refl|]. intros c. apply weaker_bind; [apply weak_isdigit|]. intros d. apply weaker_refl. }
  apply weaker_bind; [apply weaker_refl|]. intros mono. destruct mono.
  { apply weaker_bind; [apply D|]. intros d. apply weaker_refl. }
  apply weaker_bind; [apply weaker_refl|]. intros c420. apply weaker_bind; [apply weaker_refl|]. intros c411.
  apply weaker_bind; [apply weaker_refl|]. intros c422. apply weaker_bind; [apply weaker_refl|]. intros c444.
  apply weaker_bind; [apply weaker_refl|]. intros alpha.
  match goal with |- weaker (match ?x with _ => _ end) _ => destruct x as [uv|] end; [|apply weaker_refl].
  apply weaker_bind; [apply weaker_refl|]. intros c3. apply weaker_bind; [|intros d; apply weaker_refl].
  destruct (c3 =? 112); [apply D|apply weaker_refl].
Qed.
Lemma weak_y4m_open E Y f w : weaker (y4m_open E Y f w) (y4m_open E (relax_system Y) f w).
Proof.
  unfold y4m_open. destruct (alloc (e_alloc E) w) as [[blk|] w1]; [|apply weaker_refl].
  change (open_stream (relax_system Y) f w1) with (open_stream Y f w1).
  destruct (open_stream Y f w1) as [[[h s]|errno] w2]; [|apply weaker_refl]. cbv zeta.
  destruct (fread 10 s) as [magic s1]. destruct (negb _); [apply weaker_refl|].
  apply weaker_bind; [apply weak_y4m_params|]. intros [[[[wi he] csp]|] s2]; [|apply weaker_refl].
  destruct (_ || _)%bool; [apply weaker_refl|]. apply weaker_bind; [apply weaker_refl|]. intros big. destruct big; [apply weaker_refl|].
  apply weaker_bind; [apply weak_colour|]. intros cs. apply weaker_refl.
Qed.

Lemma weak_strieq H : forall l r, weaker (strieq_chars H l r) (strieq_chars (relax H) l r).
Proof.
  induction l as [|c l IH]; intros [|d r]; try apply weaker_refl. cbn [strieq_chars].
  apply weaker_bind; [apply weak_tolower|]. intros a. apply weaker_bind; [apply weak_tolower|]. intros b. destruct (a =? b); [apply IH|apply weaker_refl].
Qed.
Lemma weak_supports R Y r ext : weaker (supports_ext R Y r ext) (supports_ext R (relax_system Y) r ext).
Proof.
  unfold supports_ext, resdet_strieq. destruct r as [| | |[]]; try apply weak_strieq; try apply weaker_refl.
  apply weaker_bind; [apply weak_strieq|]. intros b. destruct b; [apply weaker_refl|apply weak_strieq].
Qed.
Lemma weak_first {A} (t t' : A -> res bool) : (forall a, weaker (t a) (t' a)) -> forall l, weaker (first_that t l) (first_that t' l).
Proof.
  intros T. induction l as [|a l IH]; [apply weaker_refl|]. cbn [first_that]. apply weaker_bind; [apply T|]. intros b. destruct b; [apply weaker_refl|exact IH].
Qed.
Lemma weak_reader_open E Y r f w : weaker (reader_open E Y r f w) (reader_open E (relax_system Y) r f w).
Proof.
  destruct r as [| | |x]; cbn [reader_open]; unfold map_open.
  - apply weaker_bind; [apply weak_pgm_open|]. intros [[[[c a] b] e] w1]. apply weaker_refl.
  - apply weaker_bind; [apply weak_pfm_open|]. intros [[[[c a] b] e] w1]. apply weaker_refl.
  - apply weaker_bind; [apply weak_y4m_open|]. intros [[[[c a] b] e] w1]. apply weaker_refl.
  - apply weaker_refl.
Qed.
Lemma weak_open_image E Y r f want w : weaker (open_image E Y r f want w) (open_image E (relax_system Y) r f want w).
Proof.
  unfold open_image. destruct (alloc (e_alloc E) w) as [[blk|] w1]; [|apply weaker_refl]. destruct r as [r|]; [|apply weaker_refl].
  apply weaker_bind; [apply weak_reader_open|]. intros [[[[c a] b] e] w2]. apply weaker_refl.
Qed.
Lemma weak_open_by R E Y f o ptrs want w : weaker (open_by R E Y f o ptrs want w) (open_by R E (relax_system Y) f o ptrs want w).
Proof.
  destruct o as [t|n]; cbn [open_by].
  - unfold resdet_open_image. destruct (negb ptrs); [apply weaker_refl|]. destruct f as [f|]; [|apply weaker_refl].
    apply weaker_bind; [|intros r; apply weak_open_image]. apply weak_first. intros a. apply weak_supports.
  - unfold resdet_open_image_with_reader. destruct (negb ptrs); [apply weaker_refl|]. destruct f as [f|]; [|apply weaker_refl]. destruct n as [n|]; [|apply weaker_refl].
    apply weaker_bind. { apply weak_first. intros [i m]. apply weak_strieq. }
    intros i. apply weaker_bind; [apply weaker_refl|]. intros r. apply weak_open_image.
Qed.
Lemma weak_reader_read Y c image w h : weaker (reader_read Y c image w h) (reader_read (relax_system Y) c image w h).
Proof.
  destruct c as [c|c|c|x c]; cbn [reader_read]; try apply weaker_refl.
  apply weaker_bind; [apply weak_pfm_read|]. intros [[[b e] im] c1]. apply weaker_refl.
Qed.
Lemma weak_read_frame Y im image : weaker (resdet_read_image_frame Y im image) (resdet_read_image_frame (relax_system Y) im image).
Proof.
  unfold resdet_read_image_frame. destruct im as [im|]; [|apply weaker_refl]. destruct image as [image|]; [|apply weaker_refl].
  apply weaker_bind; [apply weak_reader_read|]. intros [[[b e] image1] c1]. apply weaker_refl.
Qed.
Lemma weak_seek_frame E Y im k w : weaker (resdet_seek_frame E Y im k w) (resdet_seek_frame E (relax_system Y) im k w).
Proof.
  unfold resdet_seek_frame. destruct im as [im|]; [|apply weaker_refl]. apply weaker_bind.
  - destruct (im_ctx im) as [c|c|c|x c]; cbn [reader_seek]; try apply weaker_refl.
    apply weaker_bind; [apply weak_pfm_seek|]. intros [[[[b e] calls] c1] w1]. apply weaker_refl.
  - intros [[[[b e] calls] c1] w1]. apply weaker_refl.
Qed.
Lemma weak_calls E Y : forall cs im w, weaker (do_image_calls E Y cs im w) (do_image_calls E (relax_system Y) cs im w).
Proof.
  induction cs as [|c cs IH]; intros im w; [apply weaker_refl|]. cbn [do_image_calls]. apply weaker_bind.
  - destruct c as [buf|k]; cbn [do_image_call].
    + apply weaker_bind; [apply weak_read_frame|]. intros [[[b e] bf] im1]. apply weaker_refl.
    + apply weaker_bind; [apply weak_seek_frame|]. intros [[[[b e] calls] im1] w1]. apply weaker_refl.
  - intros [[r im1] w1]. apply weaker_bind; [apply IH|]. intros [[rs im2] w2]. apply weaker_refl.
Qed.
Lemma weak_program R E Y f o ptrs want cs w : weaker (image_program R E Y f o ptrs want cs w) (image_program R E (relax_system Y) f o ptrs want cs w).
Proof.
  unfold image_program. apply weaker_bind; [apply weak_open_by|]. intros [[[[[im width] height] buf] e] w1].
  apply weaker_bind; [apply weak_calls|]. intros [[rs im2] w2]. apply weaker_refl.
Qed.

(** ** Whole files *)
Lemma weak_read_at Y im image off : weaker (read_at Y im image off) (read_at (relax_system Y) im image off).
Proof.
  unfold read_at. destruct (_ || _)%bool; [apply weaker_refl|]. apply weaker_bind; [apply weak_read_frame|]. intros [[[b e] r] im1]. apply weaker_refl.
Qed.
Lemma weak_read_loop E Y : forall fuel im blk image n width height w,
  weaker (read_loop fuel E Y im blk image n width height w) (read_loop fuel E (relax_system Y) im blk image n width height w).
Proof.
  induction fuel as [|fuel IH]; intros; [apply weaker_refl|]. cbn [read_loop]. apply weaker_bind; [apply weak_read_at|].
  intros [[[b e] image1] im1]. destruct (negb b); [apply weaker_refl|]. cbv zeta. apply weaker_bind; [apply weaker_refl|]. intros big. destruct big; [apply weaker_refl|].
  apply weaker_bind; [apply weaker_refl|]. intros [[blk1|] w1]; [apply IH|apply weaker_refl].
Qed.
Lemma frames_bound_relax Y c : frames_bound (relax_system Y) c = frames_bound Y c. Proof. reflexivity. Qed.
Lemma weak_read_image R E Y f t ptrs w : weaker (resdet_read_image R E Y f t ptrs w) (resdet_read_image R E (relax_system Y) f t ptrs w).
Proof.
  unfold resdet_read_image. apply weaker_bind; [apply (weak_open_by R E Y f (ByType t))|]. intros [[[[[im width] height] buf] e] w1].
  destruct (negb (e =? 0)); [apply weaker_refl|]. destruct im as [im|]; [|apply weaker_refl]. destruct buf as [[blk image]|]; [|apply weaker_refl].
  apply weaker_bind; [apply weak_read_loop|]. intros [[[[e1 im1] buf1] n] w2]. apply weaker_refl.
Qed.
Lemma weak_file_loop E Y : forall fuel im image a w, weaker (file_loop fuel E Y im image a w) (file_loop fuel E (relax_system Y) im image a w).
Proof.
  induction fuel as [|fuel IH]; intros; [apply weaker_refl|]. cbn [file_loop]. apply weaker_bind; [apply weak_read_at|].
  intros [[[b e] image1] im1]. destruct (negb b); [apply weaker_refl|]. apply weaker_bind; [apply weaker_refl|]. intros f.
  apply weaker_bind; [apply weaker_refl|]. intros [[e1 a1] w1]. destruct (negb (e1 =? 0)); [apply weaker_refl|apply IH].
Qed.
Lemma weak_resdetect_file R E Y f t q m p o w : weaker (resdetect_file R E Y f t q m p o w) (resdetect_file R E (relax_system Y) f t q m p o w).
Proof.
  unfold resdetect_file. cbv zeta. destruct (bad_wants q); [apply weaker_refl|].
  apply weaker_bind; [apply (weak_open_by R E Y f (ByType t))|]. intros [[[[[im width] height] buf] e] w1].
  destruct (negb (e =? 0)); [apply weaker_refl|]. destruct im as [im|]; [|apply weaker_refl]. destruct buf as [[blk image]|]; [|apply weaker_refl].
  apply weaker_bind; [apply weaker_refl|]. intros [[a e1] w2]. apply weaker_bind; [|intros [[[[e3 im3] a3] o3] w3]; apply weaker_refl].
  destruct (negb (e1 =? 0)); [apply weaker_refl|]. apply weaker_bind; [apply weak_file_loop|]. intros [[[e4 im4] a4] w4]. apply weaker_refl.
Qed.
