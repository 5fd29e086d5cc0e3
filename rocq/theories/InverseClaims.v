(** @header
    Property C97: the inverse transforms of KISS FFT, their buffers, and its fast sizes. *)
From Coq Require Import Reals Lra Lia.
From Verif Require Import Base Spec Kiss History SpecTransform KissInverse SpecInverse.
From Verif Require Import BaseProofs WorldProofs KissProofs KissFactor KissTransform KissExact KissInverseProofs KissInverseTransform KissInverseExact FastSize.
Open Scope list_scope.
Open Scope Z_scope.

(** C97.  The direction in a state only matters where it should: the forward transform
    with stride 1 is the one resdet uses. *)
Lemma inverse_forward_claim : forall (T : Type) (K : ops T) al st fin fout wd,
  kiss_fft_stride K al (mkCfg false st) fin fout 1 wd = kiss_fft K al st fin fout wd.
Proof.
  intros. unfold kiss_fft_stride, kiss_fft. cbn [c_inverse c_state].
  apply (kf_work_forward K al (ft_nfft st) (ft_twiddles st) fin 1 (List.length (ft_factors st))). lia.
Qed.

(** C97.  In exact arithmetic a state made for the inverse computes the unnormalised
    inverse Fourier transform, and one made for the forward direction the Fourier
    transform, of every in_stride-th input. *)
Lemma inverse_fft_claim : forall al n inverse fin fout in_stride wd,
  1 <= n <= INT_MAX / 3 -> 0 <= in_stride -> (n - 1) * in_stride < zlen fin -> zlen fout = n -> (forall k, al k = true) ->
  exists c out wd', kiss_fft_new exact_ops exact_inverse_ops n inverse = Ok c /\
    kiss_fft_stride exact_ops al c fin fout in_stride wd = Ok (out, wd') /\ owns wd' wd [] /\ zlen out = n /\
    forall k, 0 <= k < n -> at_ (0, 0)%R out k =
      (if inverse then inverse_dft n else dft n) (fun j => at_ (0, 0)%R fin (j * in_stride)) k.
Proof.
  intros al n inverse fin fout ins wd Hn Hs Li Lo Hal.
  destruct (kiss_fft_new_ok exact_ops exact_inverse_ops n inverse Hn) as (c & E & D & C).
  destruct (stride_ok exact_ops exact_inverse_ops al n c fin fout ins wd Hn C Hs Li Lo) as (out & wd' & E2 & O & L & V).
  exists c, out, wd'. split; [exact E|]. split; [exact E2|]. split; [exact O|]. split; [exact L|].
  intros k Hk. etransitivity; [exact (V Hal k Hk)|]. unfold dir_val. unfold cfg_ok in C. rewrite D in *.
  destruct inverse; [apply ifft_exact|apply fft_exact]; try assumption; lia.
Qed.

Example inverse_fft_example : exists c out wd', kiss_fft_new exact_ops exact_inverse_ops 4 true = Ok c /\
  kiss_fft_stride exact_ops (fun _ => true) c [(0, 0); (9, 9); (1, 0); (9, 9); (0, 0); (9, 9); (0, 0)]%R [(7, 7); (7, 7); (7, 7); (7, 7)]%R 2 world0 = Ok (out, wd') /\
  at_ (0, 0)%R out 1 = (0, 1)%R.
Proof.
  destruct (inverse_fft_claim (fun _ => true) 4 true [(0, 0); (9, 9); (1, 0); (9, 9); (0, 0); (9, 9); (0, 0)]%R [(7, 7); (7, 7); (7, 7); (7, 7)]%R 2 world0
    ltac:(vm_compute; intuition discriminate) ltac:(lia) eq_refl eq_refl (fun _ => eq_refl)) as (c & out & wd' & A & B & _ & _ & V).
  exists c, out, wd'. split; [exact A|]. split; [exact B|]. rewrite V by lia. unfold inverse_dft, csum. change (zrange 0 4) with [0; 1; 2; 3].
  cbn [fold_right].
  change (at_ (0, 0)%R [(0, 0); (9, 9); (1, 0); (9, 9); (0, 0); (9, 9); (0, 0)]%R (0 * 2)) with (0, 0)%R.
  change (at_ (0, 0)%R [(0, 0); (9, 9); (1, 0); (9, 9); (0, 0); (9, 9); (0, 0)]%R (1 * 2)) with (1, 0)%R.
  change (at_ (0, 0)%R [(0, 0); (9, 9); (1, 0); (9, 9); (0, 0); (9, 9); (0, 0)]%R (2 * 2)) with (0, 0)%R.
  change (at_ (0, 0)%R [(0, 0); (9, 9); (1, 0); (9, 9); (0, 0); (9, 9); (0, 0)]%R (3 * 2)) with (0, 0)%R.
  change (1 * 1) with 1. replace (2 * PI * 1 / 4)%R with (PI / 2)%R by field. unfold cis at 2. rewrite cos_PI2, sin_PI2.
  apply injective_projections; cbn [fst snd cadd cmul]; ring.
Qed.

(** C97.  A forward transform followed by an inverse one multiplies by the length. *)
Lemma inverse_round_trip_claim : forall al n fin fmid fout wd,
  1 <= n <= INT_MAX / 3 -> n <= zlen fin -> zlen fmid = n -> zlen fout = n -> (forall k, al k = true) ->
  exists c ci mid wd1 out wd2, kiss_fft_new exact_ops exact_inverse_ops n false = Ok c /\
    kiss_fft_new exact_ops exact_inverse_ops n true = Ok ci /\
    kiss_fft_stride exact_ops al c fin fmid 1 wd = Ok (mid, wd1) /\
    kiss_fft_stride exact_ops al ci mid fout 1 wd1 = Ok (out, wd2) /\
    forall k, 0 <= k < n -> at_ (0, 0)%R out k = (IZR n * fst (at_ (0, 0)%R fin k), IZR n * snd (at_ (0, 0)%R fin k))%R.
Proof.
  intros al n fin fmid fout wd Hn Li Lm Lo Hal.
  destruct (inverse_fft_claim al n false fin fmid 1 wd Hn ltac:(lia) ltac:(lia) Lm Hal) as (c & mid & wd1 & A & B & _ & L & V).
  destruct (inverse_fft_claim al n true mid fout 1 wd1 Hn ltac:(lia) ltac:(lia) Lo Hal) as (ci & out & wd2 & A' & B' & _ & _ & V').
  exists c, ci, mid, wd1, out, wd2. split; [exact A|]. split; [exact A'|]. split; [exact B|]. split; [exact B'|].
  intros k Hk. rewrite V' by exact Hk.
  rewrite (inverse_dft_ext n _ (dft n (fun j => at_ (0, 0)%R fin (j * 1)))) by (intros j Hj; rewrite Z.mul_1_r; apply V; exact Hj).
  rewrite dft_inverse, Z.mul_1_r by lia. destruct (at_ (0, 0)%R fin k) as (a & b). unfold cmul. cbn [fst snd]. f_equal; ring.
Qed.

Example inverse_round_trip_example : exists c ci mid wd1 out wd2, kiss_fft_new exact_ops exact_inverse_ops 3 false = Ok c /\
  kiss_fft_new exact_ops exact_inverse_ops 3 true = Ok ci /\
  kiss_fft_stride exact_ops (fun _ => true) c [(1, 2); (3, 4); (5, 6)]%R [(7, 7); (7, 7); (7, 7)]%R 1 world0 = Ok (mid, wd1) /\
  kiss_fft_stride exact_ops (fun _ => true) ci mid [(8, 8); (8, 8); (8, 8)]%R 1 wd1 = Ok (out, wd2) /\ at_ (0, 0)%R out 2 = (15, 18)%R.
Proof.
  destruct (inverse_round_trip_claim (fun _ => true) 3 [(1, 2); (3, 4); (5, 6)]%R [(7, 7); (7, 7); (7, 7)]%R [(8, 8); (8, 8); (8, 8)]%R world0
    ltac:(vm_compute; intuition discriminate) ltac:(vm_compute; discriminate) eq_refl eq_refl (fun _ => eq_refl)) as (c & ci & mid & wd1 & out & wd2 & A & B & C & D & V).
  exists c, ci, mid, wd1, out, wd2. split; [exact A|]. split; [exact B|]. split; [exact C|]. split; [exact D|].
  rewrite V by lia. change (at_ (0, 0)%R [(1, 2); (3, 4); (5, 6)]%R 2) with (5, 6)%R. cbn [fst snd]. f_equal; lra.
Qed.

(** C97.  In exact arithmetic kiss_fftri turns any n + 1 coefficients into the 2n real
    samples whose spectrum has them, times 2n; the imaginary parts of the first and the
    last coefficient are not read. *)
Lemma inverse_real_claim : forall al n freq tmp time wd,
  1 <= n <= INT_MAX / 3 -> n + 1 <= zlen freq -> zlen tmp = n -> zlen time = 2 * n -> (forall k, al k = true) ->
  exists c out tmp' wd', kiss_fftr_new exact_ops exact_inverse_ops (n * 2) true = Ok (Some c) /\
    kiss_fftri exact_ops al c freq tmp time wd = Ok (out, tmp', wd') /\ owns wd' wd [] /\ zlen out = 2 * n /\
    forall j, 0 <= j < 2 * n ->
      at_ 0%R out j = fst (inverse_dft (2 * n) (real_spectrum n (at_ (0, 0)%R freq)) j).
Proof.
  intros al n freq tmp time wd Hn Lf Lp Lt Hal.
  destruct (kiss_fftr_new_ok exact_ops exact_inverse_ops n true Hn) as (c & E & D & C).
  destruct (kiss_fftri_ok exact_ops exact_inverse_ops al n c freq tmp time wd Hn D C Lf Lp Lt) as (out & tmp' & wd' & E2 & O & L & _ & V).
  exists c, out, tmp', wd'. split; [exact E|]. split; [exact E2|]. split; [exact O|]. split; [exact L|].
  intros j Hj. pose proof (Z.div_mod j 2 ltac:(lia)) as DM. pose proof (Z.mod_pos_bound j 2 ltac:(lia)) as MB.
  specialize (V Hal (j / 2) ltac:(split; [apply Z.div_pos; lia|apply Z.div_lt_upper_bound; lia])).
  rewrite real_ifft_exact in V by (try exact C; split || lia; try apply Z.div_pos; try apply Z.div_lt_upper_bound; lia).
  injection V as V0 V1. assert (P : j = 2 * (j / 2) \/ j = 2 * (j / 2) + 1) by lia. destruct P as [P|P]; rewrite P; assumption.
Qed.

Example inverse_real_example : exists c out tmp' wd', kiss_fftr_new exact_ops exact_inverse_ops (1 * 2) true = Ok (Some c) /\
  kiss_fftri exact_ops (fun _ => true) c [(5, 9); (3, 9)]%R [(7, 7)]%R [6; 6]%R world0 = Ok (out, tmp', wd') /\
  at_ 0%R out 0 = 8%R /\ at_ 0%R out 1 = 2%R.
Proof.
  destruct (inverse_real_claim (fun _ => true) 1 [(5, 9); (3, 9)]%R [(7, 7)]%R [6; 6]%R world0
    ltac:(vm_compute; intuition discriminate) ltac:(vm_compute; discriminate) eq_refl eq_refl (fun _ => eq_refl)) as (c & out & tmp' & wd' & A & B & _ & _ & V).
  exists c, out, tmp', wd'. split; [exact A|]. split; [exact B|]. rewrite !V by lia. unfold inverse_dft, csum. change (zrange 0 (2 * 1)) with [0; 1]. cbn [fold_right].
  change (real_spectrum 1 (at_ (0, 0)%R [(5, 9); (3, 9)]%R) 0) with (5, 0)%R. change (real_spectrum 1 (at_ (0, 0)%R [(5, 9); (3, 9)]%R) 1) with (3, 0)%R.
  change (0 * 0) with 0. change (1 * 0) with 0. change (0 * 1) with 0. change (1 * 1) with 1. change (2 * 1) with 2.
  replace (2 * PI * 0 / 2)%R with 0%R by field. replace (2 * PI * 1 / 2)%R with PI by field.
  unfold cis. rewrite cos_0, sin_0, cos_PI, sin_PI. cbn [fst snd cadd cmul]. split; ring.
Qed.

(** C97.  kiss_fftr followed by kiss_fftri multiplies by the 2n of the data's length. *)
Lemma inverse_real_round_trip_claim : forall al n time tmp freq tmp2 time2 wd,
  1 <= n <= INT_MAX / 3 -> zlen time = 2 * n -> zlen tmp = n -> n + 1 <= zlen freq -> zlen tmp2 = n -> zlen time2 = 2 * n -> (forall k, al k = true) ->
  exists c ci freq' tmp' wd1 out tmp2' wd2, kiss_fftr_new exact_ops exact_inverse_ops (n * 2) false = Ok (Some c) /\
    kiss_fftr_new exact_ops exact_inverse_ops (n * 2) true = Ok (Some ci) /\
    kiss_fftr_checked exact_ops al c time tmp freq wd = Ok (freq', tmp', wd1) /\
    kiss_fftri exact_ops al ci freq' tmp2 time2 wd1 = Ok (out, tmp2', wd2) /\
    forall j, 0 <= j < 2 * n -> at_ 0%R out j = (IZR (2 * n) * at_ 0%R time j)%R.
Proof.
  intros al n time tmp freq tmp2 time2 wd Hn Lt Lp Lf Lp2 Lt2 Hal.
  destruct (kiss_fftr_new_ok exact_ops exact_inverse_ops n false Hn) as (c & E & D & C).
  destruct (kiss_fftr_ok exact_ops al n n (r_state c) time tmp freq wd Hn C Lt ltac:(lia) Lp Lf) as (freq' & tmp' & wd1 & E1 & _ & Lf' & _ & V).
  destruct (kiss_fftr_new_ok exact_ops exact_inverse_ops n true Hn) as (ci & Ei & Di & Ci).
  destruct (kiss_fftri_ok exact_ops exact_inverse_ops al n ci freq' tmp2 time2 wd1 Hn Di Ci ltac:(lia) Lp2 Lt2) as (out & tmp2' & wd2 & E2 & _ & L & _ & V2).
  exists c, ci, freq', tmp', wd1, out, tmp2', wd2. split; [exact E|]. split; [exact Ei|].
  split; [unfold kiss_fftr_checked; rewrite D; exact E1|]. split; [exact E2|].
  intros j Hj. pose proof (Z.div_mod j 2 ltac:(lia)) as DM. pose proof (Z.mod_pos_bound j 2 ltac:(lia)) as MB.
  assert (HJ : 0 <= j / 2 < n) by (split; [apply Z.div_pos; lia|apply Z.div_lt_upper_bound; lia]).
  specialize (V2 Hal (j / 2) HJ).
  assert (G : real_ifft exact_ops (r_state ci) n (at_ (czero exact_ops) freq') (j / 2) =
    real_ifft exact_ops (r_state ci) n (dft (2 * n) (fun i => re (at_ 0%R time i))) (j / 2)).
  { assert (FV : forall i, 0 <= i <= n -> at_ (czero exact_ops) freq' i = dft (2 * n) (fun i => re (at_ 0%R time i)) i).
    { intros i Hi. rewrite V by assumption. apply real_fft_exact; [exact C|lia|exact Hi]. }
    unfold real_ifft. apply (ifft_val_ext exact_ops _ n _ n); [apply (fk_factors _ _ _ (rk_sub _ _ _ Ci))|exact HJ|].
    intros i Hi. apply irfft_val_ext; [lia|exact Hi|rewrite FV by lia; reflexivity|rewrite FV by lia; reflexivity|]. intros r Hr. apply FV. lia. }
  rewrite G, real_ifft_round in V2 by (assumption || lia).
  injection V2 as V0 V1. assert (P : j = 2 * (j / 2) \/ j = 2 * (j / 2) + 1) by lia. destruct P as [P|P]; rewrite P; assumption.
Qed.

Example inverse_real_round_trip_example : exists c ci freq' tmp' wd1 out tmp2' wd2, kiss_fftr_new exact_ops exact_inverse_ops (2 * 2) false = Ok (Some c) /\
  kiss_fftr_new exact_ops exact_inverse_ops (2 * 2) true = Ok (Some ci) /\
  kiss_fftr_checked exact_ops (fun _ => true) c [1; 2; 3; 4]%R [(7, 7); (7, 7)]%R [(6, 6); (6, 6); (6, 6)]%R world0 = Ok (freq', tmp', wd1) /\
  kiss_fftri exact_ops (fun _ => true) ci freq' [(5, 5); (5, 5)]%R [9; 9; 9; 9]%R wd1 = Ok (out, tmp2', wd2) /\ at_ 0%R out 3 = 16%R.
Proof.
  destruct (inverse_real_round_trip_claim (fun _ => true) 2 [1; 2; 3; 4]%R [(7, 7); (7, 7)]%R [(6, 6); (6, 6); (6, 6)]%R [(5, 5); (5, 5)]%R [9; 9; 9; 9]%R world0
    ltac:(vm_compute; intuition discriminate) eq_refl eq_refl ltac:(vm_compute; discriminate) eq_refl eq_refl (fun _ => eq_refl))
    as (c & ci & freq' & tmp' & wd1 & out & tmp2' & wd2 & A & B & C & D & V).
  exists c, ci, freq', tmp', wd1, out, tmp2', wd2. split; [exact A|]. split; [exact B|]. split; [exact C|]. split; [exact D|].
  rewrite V by lia. change (at_ 0%R [1; 2; 3; 4]%R 3) with 4%R. change (2 * 2) with 4. lra.
Qed.

(** C97.  Whatever the scalars are and whichever allocations fail, the inverse
    transforms have no undefined behaviour, keep the sizes of their buffers and return
    their working memory; the in-place complex transform leaves what lies behind its n
    values alone, and without memory for its buffer it changes nothing. *)
Lemma inverse_safe_claim : forall (T : Type) (K I : ops T) al n, 1 <= n <= INT_MAX / 3 ->
  (forall inverse, exists c, kiss_fft_new K I n inverse = Ok c /\
    (forall fin fout in_stride wd, 0 <= in_stride -> (n - 1) * in_stride < zlen fin -> zlen fout = n ->
      exists out wd', kiss_fft_stride K al c fin fout in_stride wd = Ok (out, wd') /\ owns wd' wd [] /\ zlen out = n) /\
    (forall buf in_stride junk wd, 1 <= in_stride -> (n - 1) * in_stride < zlen buf ->
      exists out wd', kiss_fft_in_place K al c buf in_stride junk wd = Ok (out, wd') /\ owns wd' wd [] /\ zlen out = zlen buf /\
        (forall k, n <= k -> at_ (czero K) out k = at_ (czero K) buf k) /\ (al (w_count wd) = false -> out = buf))) /\
  exists c, kiss_fftr_new K I (n * 2) true = Ok (Some c) /\
    forall freq tmp time wd, n + 1 <= zlen freq -> zlen tmp = n -> zlen time = 2 * n ->
      exists out tmp' wd', kiss_fftri K al c freq tmp time wd = Ok (out, tmp', wd') /\ owns wd' wd [] /\ zlen out = 2 * n /\ zlen tmp' = n.
Proof.
  intros T K I al n Hn. split.
  - intros inverse. destruct (kiss_fft_new_ok K I n inverse Hn) as (c & E & _ & C). exists c. split; [exact E|]. split.
    + intros fin fout ins wd Hs Li Lo. destruct (stride_ok K I al n c fin fout ins wd Hn C Hs Li Lo) as (out & wd' & A & B & D & _). eauto 6.
    + intros buf ins junk wd Hs Lb. destruct (in_place_ok K I al n c buf ins junk wd Hn C Hs Lb) as (out & wd' & A & B & D & F & G & _). eauto 8.
  - destruct (kiss_fftr_new_ok K I n true Hn) as (c & E & D & C). exists c. split; [exact E|].
    intros freq tmp time wd Lf Lp Lt. destruct (kiss_fftri_ok K I al n c freq tmp time wd Hn D C Lf Lp Lt) as (out & tmp' & wd' & A & B & F & G & _). eauto 8.
Qed.

Example inverse_safe_example : exists c out wd', kiss_fft_new exact_ops exact_inverse_ops 7 true = Ok c /\
  kiss_fft_in_place exact_ops (fun _ => false) c [(1, 0); (2, 0); (3, 0); (4, 0); (5, 0); (6, 0); (7, 0); (8, 0)]%R 1 (9, 9)%R world0 = Ok (out, wd') /\
  out = [(1, 0); (2, 0); (3, 0); (4, 0); (5, 0); (6, 0); (7, 0); (8, 0)]%R.
Proof.
  destruct (inverse_safe_claim R exact_ops exact_inverse_ops (fun _ => false) 7 ltac:(vm_compute; intuition discriminate)) as (A & _).
  destruct (A true) as (c & E & _ & P).
  destruct (P [(1, 0); (2, 0); (3, 0); (4, 0); (5, 0); (6, 0); (7, 0); (8, 0)]%R 1 (9, 9)%R world0 ltac:(lia) ltac:(vm_compute; reflexivity)) as (out & wd' & B & _ & _ & _ & Q).
  exists c, out, wd'. split; [exact E|]. split; [exact B|]. apply Q. reflexivity.
Qed.

(** C97.  With memory, transforming in place gives what transforming into another
    buffer gives. *)
Lemma inverse_in_place_claim : forall (T : Type) (K I : ops T) al n inverse c buf fout in_stride junk wd wd2,
  1 <= n <= INT_MAX / 3 -> kiss_fft_new K I n inverse = Ok c -> 1 <= in_stride -> (n - 1) * in_stride < zlen buf -> zlen fout = n ->
  (forall k, al k = true) ->
  exists out wd' out2 wd2', kiss_fft_in_place K al c buf in_stride junk wd = Ok (out, wd') /\
    kiss_fft_stride K al c buf fout in_stride wd2 = Ok (out2, wd2') /\
    forall k, 0 <= k < n -> at_ (czero K) out k = at_ (czero K) out2 k.
Proof.
  intros T K I al n inverse c buf fout ins junk wd wd2 Hn E Hs Lb Lo Hal.
  destruct (kiss_fft_new_ok K I n inverse Hn) as (c' & E' & _ & C). rewrite E in E'. injection E' as <-.
  destruct (in_place_ok K I al n c buf ins junk wd Hn C Hs Lb) as (out & wd' & A & _ & _ & _ & _ & V).
  destruct (stride_ok K I al n c buf fout ins wd2 Hn C ltac:(lia) Lb Lo) as (out2 & wd2' & A2 & _ & _ & V2).
  exists out, wd', out2, wd2'. split; [exact A|]. split; [exact A2|]. intros k Hk. rewrite V, V2 by assumption. reflexivity.
Qed.

Example inverse_in_place_example : exists c out wd', kiss_fft_new exact_ops exact_inverse_ops 2 true = Ok c /\
  kiss_fft_in_place exact_ops (fun _ => true) c [(3, 1); (1, 2); (8, 8)]%R 1 (9, 9)%R world0 = Ok (out, wd') /\
  at_ (0, 0)%R out 0 = (4, 3)%R /\ at_ (0, 0)%R out 1 = (2, -1)%R.
Proof.
  destruct (inverse_fft_claim (fun _ => true) 2 true [(3, 1); (1, 2); (8, 8)]%R [(7, 7); (7, 7)]%R 1 world0
    ltac:(vm_compute; intuition discriminate) ltac:(lia) eq_refl eq_refl (fun _ => eq_refl)) as (c & out2 & wd2 & A & B & _ & _ & V).
  destruct (inverse_in_place_claim R exact_ops exact_inverse_ops (fun _ => true) 2 true c [(3, 1); (1, 2); (8, 8)]%R [(7, 7); (7, 7)]%R 1 (9, 9)%R world0 world0
    ltac:(vm_compute; intuition discriminate) A ltac:(lia) eq_refl eq_refl (fun _ => eq_refl)) as (out & wd' & out2' & wd2' & C & D & W).
  rewrite B in D. injection D as <- <-. exists c, out, wd'. split; [exact A|]. split; [exact C|].
  change (at_ (0, 0)%R out 0) with (at_ (czero exact_ops) out 0). change (at_ (0, 0)%R out 1) with (at_ (czero exact_ops) out 1).
  rewrite !W by lia. change (czero exact_ops) with (0, 0)%R. rewrite !V by lia. unfold inverse_dft, csum. change (zrange 0 2) with [0; 1]. cbn [fold_right].
  change (at_ (0, 0)%R [(3, 1); (1, 2); (8, 8)]%R (0 * 1)) with (3, 1)%R. change (at_ (0, 0)%R [(3, 1); (1, 2); (8, 8)]%R (1 * 1)) with (1, 2)%R.
  change (0 * 0) with 0. change (1 * 0) with 0. change (0 * 1) with 0. change (1 * 1) with 1.
  replace (2 * PI * 0 / 2)%R with 0%R by field. replace (2 * PI * 1 / 2)%R with PI by field.
  unfold cis. rewrite cos_0, sin_0, cos_PI, sin_PI.
  split; apply injective_projections; cbn [fst snd cadd cmul]; lra.
Qed.

(** C97.  The real transforms given a state for the other direction write nothing. *)
Lemma inverse_misuse_claim : forall (T : Type) (K : ops T) al c time tmp freq wd,
  (r_inverse c = true -> kiss_fftr_checked K al c time tmp freq wd = Ok (freq, tmp, wd)) /\
  (r_inverse c = false -> kiss_fftri K al c freq tmp time wd = Ok (time, tmp, wd)).
Proof. intros. unfold kiss_fftr_checked, kiss_fftri. split; intros ->; reflexivity. Qed.

Example inverse_misuse_example : exists c, kiss_fftr_new exact_ops exact_inverse_ops (1 * 2) false = Ok (Some c) /\
  kiss_fftri exact_ops (fun _ => true) c [(5, 9); (3, 9)]%R [(7, 7)]%R [6; 6]%R world0 = Ok ([6; 6]%R, [(7, 7)]%R, world0).
Proof.
  destruct (kiss_fftr_new_ok exact_ops exact_inverse_ops 1 false ltac:(vm_compute; intuition discriminate)) as (c & E & D & _).
  exists c. split; [exact E|]. apply (inverse_misuse_claim R exact_ops). exact D.
Qed.

(** C97.  kiss_fft_next_fast_size returns the least product of twos, threes and fives
    from n on, up to the largest such int; negative numbers are returned as they are. *)
Lemma next_fast_size_claim : forall n,
  (1 <= n <= 2125764000 -> exists m, kiss_fft_next_fast_size n = Ok m /\ n <= m <= 2125764000 /\ m < 2 * n /\ smooth m /\
     forall j, n <= j < m -> ~ smooth j) /\
  (n < 0 -> kiss_fft_next_fast_size n = Ok n).
Proof.
  intros n. split; [|apply next_fast_size_negative]. intros Hn.
  destruct (least_smooth n 2125764000 ltac:(lia) smooth_2125764000) as (k & K & S & L). exists k.
  split; [apply next_fast_size_found; try assumption; unfold INT_MAX; lia|]. split; [exact K|]. split; [|split; assumption].
  destruct (power_above n ltac:(lia)) as (e & He & B). destruct (Z.lt_ge_cases k (2 * n)); [assumption|].
  exfalso. apply (L (2 ^ e)); [lia|]. apply power_smooth. exact He.
Qed.

Example next_fast_size_example : kiss_fft_next_fast_size 1 = Ok 1 /\ kiss_fft_next_fast_size 7 = Ok 8 /\ kiss_fft_next_fast_size 1921 = Ok 1944 /\
  kiss_fft_next_fast_size (-14) = Ok (-14).
Proof. repeat split; vm_compute; reflexivity. Qed.

(** C97.  kiss_fftr_next_fast_size_real returns the least even length from n on whose half
    is such a product. *)
Lemma next_fast_size_real_claim : forall n, 1 <= n <= 2125764000 ->
  exists k, kiss_fftr_next_fast_size_real n = Ok (2 * k) /\ n <= 2 * k <= 2125764000 /\ smooth k /\
    forall j, n <= 2 * j < 2 * k -> ~ smooth j.
Proof.
  intros n Hn. unfold kiss_fftr_next_fast_size_real. rewrite cint_ok by (unfold INT_MAX; lia). cbn [bind].
  pose proof (Z.div_mod (n + 1) 2 ltac:(lia)) as DM. pose proof (Z.mod_pos_bound (n + 1) 2 ltac:(lia)) as MB. set (h := (n + 1) / 2) in *.
  assert (SH : smooth 1062882000) by (exists 4, 12, 3; repeat split; lia).
  destruct (least_smooth h 1062882000 ltac:(lia) SH) as (k & K & S & L).
  rewrite (next_fast_size_found h k) by (try assumption; unfold INT_MAX; lia). cbn [bind].
  destruct (Z.ltb_spec k 0); [lia|]. rewrite cint_ok by (unfold INT_MAX; lia).
  exists k. split; [f_equal; ring|]. split; [lia|]. split; [exact S|]. intros j Hj. apply L. lia.
Qed.

Example next_fast_size_real_example : kiss_fftr_next_fast_size_real 1 = Ok 2 /\ kiss_fftr_next_fast_size_real 1921 = Ok 1944 /\
  kiss_fftr_next_fast_size_real 2125764000 = Ok 2125764000.
Proof. repeat split; vm_compute; reflexivity. Qed.

(** C97, finding: the remaining ints do not work.  For 0 the first inner loop ends after
    no number of rounds, and beyond the largest product that fits, n++ overflows.  The macro
    for real transforms passes 0 on for -1 and 0, overflows as well, and shifts negative
    numbers to the left. *)
Lemma next_fast_size_refuted_claim :
  (forall fuel, divide_out fuel 2 0 = Undef OutOfFuel) /\
  (forall n, 2125764000 < n <= INT_MAX -> kiss_fft_next_fast_size n = Undef IntOverflow /\ kiss_fftr_next_fast_size_real n = Undef IntOverflow) /\
  kiss_fftr_next_fast_size_real 0 = Undef OutOfFuel /\ kiss_fftr_next_fast_size_real (-1) = Undef OutOfFuel /\
  (forall n, - 2^31 <= n < -1 -> kiss_fftr_next_fast_size_real n = Undef BadShift).
Proof.
  split; [apply divide_zero|]. split; [|split; [reflexivity|split; [reflexivity|]]].
  - intros n Hn. split.
    + apply next_fast_size_none; [lia|]. intros j Hj S. apply smooth_last in S; lia.
    + unfold kiss_fftr_next_fast_size_real. destruct (Z.eq_dec n INT_MAX) as [->|NE]; [reflexivity|].
      rewrite cint_ok by (unfold INT_MAX in *; lia). cbn [bind].
      pose proof (Z.div_mod (n + 1) 2 ltac:(lia)) as DM. pose proof (Z.mod_pos_bound (n + 1) 2 ltac:(lia)) as MB. set (h := (n + 1) / 2) in *.
      unfold INT_MAX in Hn. destruct (least_smooth h (2 ^ 30) ltac:(lia) (power_smooth 30 ltac:(lia))) as (k & K & S & L).
      rewrite (next_fast_size_found h k) by (try assumption; unfold INT_MAX; lia). cbn [bind].
      destruct (Z.ltb_spec k 0); [lia|]. unfold cint.
      assert (S2 : smooth (k * 2)).
      { destruct S as (a & b & c & A & B & C & Q). exists (a + 1), b, c. repeat split; try lia. rewrite Z.pow_add_r by lia. rewrite Q. ring. }
      destruct (Z.leb_spec (k * 2) INT_MAX) as [LE|GT]; [pose proof (smooth_last _ S2 LE); lia|]. rewrite andb_false_r. reflexivity.
  - intros n Hn. unfold kiss_fftr_next_fast_size_real. rewrite cint_ok by (unfold INT_MAX; lia). cbn [bind].
    pose proof (Z.div_lt_upper_bound (n + 1) 2 0 ltac:(lia) ltac:(lia)) as H.
    rewrite (next_fast_size_negative _ H). cbn [bind]. destruct (Z.ltb_spec ((n + 1) / 2) 0); [reflexivity|lia].
Qed.
