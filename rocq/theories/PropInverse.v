(**     Property C97: the inverse transforms of KISS FFT, their buffers, and its fast sizes. *)
From Coq Require Import Reals Lra Lia.
From Verif Require Import Base Spec Kiss History SpecTransform KissInverse SpecInverse.
From Verif Require Import BaseProofs WorldProofs KissProofs KissFactor KissTransform KissExact KissInverseProofs KissInverseTransform KissInverseExact FastSize.
Open Scope list_scope.
Open Scope Z_scope.
From Verif Require Import InverseClaims.

(** C97.  The direction in a state only matters where it should: the forward transform
    with stride 1 is the one resdet uses. *)
Theorem inverse_forward : forall (T : Type) (K : ops T) al st fin fout wd,
  kiss_fft_stride K al (mkCfg false st) fin fout 1 wd = kiss_fft K al st fin fout wd.
Proof. exact inverse_forward_claim. Qed.
Print Assumptions inverse_forward.

(** C97.  In exact arithmetic a state made for the inverse computes the unnormalised
    inverse Fourier transform, and one made for the forward direction the Fourier
    transform, of every in_stride-th input. *)
Theorem inverse_fft : forall al n inverse fin fout in_stride wd,
  1 <= n <= INT_MAX / 3 -> 0 <= in_stride -> (n - 1) * in_stride < zlen fin -> zlen fout = n -> (forall k, al k = true) ->
  exists c out wd', kiss_fft_new exact_ops exact_inverse_ops n inverse = Ok c /\
    kiss_fft_stride exact_ops al c fin fout in_stride wd = Ok (out, wd') /\ owns wd' wd [] /\ zlen out = n /\
    forall k, 0 <= k < n -> at_ (0, 0)%R out k =
      (if inverse then inverse_dft n else dft n) (fun j => at_ (0, 0)%R fin (j * in_stride)) k.
Proof. exact inverse_fft_claim. Qed.
Print Assumptions inverse_fft.

Example inverse_fft_witness : exists c out wd', kiss_fft_new exact_ops exact_inverse_ops 4 true = Ok c /\
  kiss_fft_stride exact_ops (fun _ => true) c [(0, 0); (9, 9); (1, 0); (9, 9); (0, 0); (9, 9); (0, 0)]%R [(7, 7); (7, 7); (7, 7); (7, 7)]%R 2 world0 = Ok (out, wd') /\
  at_ (0, 0)%R out 1 = (0, 1)%R.
Proof. exact inverse_fft_example. Qed.

(** C97.  A forward transform followed by an inverse one multiplies by the length. *)
Theorem inverse_round_trip : forall al n fin fmid fout wd,
  1 <= n <= INT_MAX / 3 -> n <= zlen fin -> zlen fmid = n -> zlen fout = n -> (forall k, al k = true) ->
  exists c ci mid wd1 out wd2, kiss_fft_new exact_ops exact_inverse_ops n false = Ok c /\
    kiss_fft_new exact_ops exact_inverse_ops n true = Ok ci /\
    kiss_fft_stride exact_ops al c fin fmid 1 wd = Ok (mid, wd1) /\
    kiss_fft_stride exact_ops al ci mid fout 1 wd1 = Ok (out, wd2) /\
    forall k, 0 <= k < n -> at_ (0, 0)%R out k = (IZR n * fst (at_ (0, 0)%R fin k), IZR n * snd (at_ (0, 0)%R fin k))%R.
Proof. exact inverse_round_trip_claim. Qed.
Print Assumptions inverse_round_trip.

Example inverse_round_trip_witness : exists c ci mid wd1 out wd2, kiss_fft_new exact_ops exact_inverse_ops 3 false = Ok c /\
  kiss_fft_new exact_ops exact_inverse_ops 3 true = Ok ci /\
  kiss_fft_stride exact_ops (fun _ => true) c [(1, 2); (3, 4); (5, 6)]%R [(7, 7); (7, 7); (7, 7)]%R 1 world0 = Ok (mid, wd1) /\
  kiss_fft_stride exact_ops (fun _ => true) ci mid [(8, 8); (8, 8); (8, 8)]%R 1 wd1 = Ok (out, wd2) /\ at_ (0, 0)%R out 2 = (15, 18)%R.
Proof. exact inverse_round_trip_example. Qed.

(** C97.  In exact arithmetic kiss_fftri turns any n + 1 coefficients into the 2n real
    samples whose spectrum has them, times 2n; the imaginary parts of the first and the
    last coefficient are not read. *)
Theorem inverse_real : forall al n freq tmp time wd,
  1 <= n <= INT_MAX / 3 -> n + 1 <= zlen freq -> zlen tmp = n -> zlen time = 2 * n -> (forall k, al k = true) ->
  exists c out tmp' wd', kiss_fftr_new exact_ops exact_inverse_ops (n * 2) true = Ok (Some c) /\
    kiss_fftri exact_ops al c freq tmp time wd = Ok (out, tmp', wd') /\ owns wd' wd [] /\ zlen out = 2 * n /\
    forall j, 0 <= j < 2 * n ->
      at_ 0%R out j = fst (inverse_dft (2 * n) (real_spectrum n (at_ (0, 0)%R freq)) j).
Proof. exact inverse_real_claim. Qed.
Print Assumptions inverse_real.

Example inverse_real_witness : exists c out tmp' wd', kiss_fftr_new exact_ops exact_inverse_ops (1 * 2) true = Ok (Some c) /\
  kiss_fftri exact_ops (fun _ => true) c [(5, 9); (3, 9)]%R [(7, 7)]%R [6; 6]%R world0 = Ok (out, tmp', wd') /\
  at_ 0%R out 0 = 8%R /\ at_ 0%R out 1 = 2%R.
Proof. exact inverse_real_example. Qed.

(** C97.  kiss_fftr followed by kiss_fftri multiplies by the 2n of the data's length. *)
Theorem inverse_real_round_trip : forall al n time tmp freq tmp2 time2 wd,
  1 <= n <= INT_MAX / 3 -> zlen time = 2 * n -> zlen tmp = n -> n + 1 <= zlen freq -> zlen tmp2 = n -> zlen time2 = 2 * n -> (forall k, al k = true) ->
  exists c ci freq' tmp' wd1 out tmp2' wd2, kiss_fftr_new exact_ops exact_inverse_ops (n * 2) false = Ok (Some c) /\
    kiss_fftr_new exact_ops exact_inverse_ops (n * 2) true = Ok (Some ci) /\
    kiss_fftr_checked exact_ops al c time tmp freq wd = Ok (freq', tmp', wd1) /\
    kiss_fftri exact_ops al ci freq' tmp2 time2 wd1 = Ok (out, tmp2', wd2) /\
    forall j, 0 <= j < 2 * n -> at_ 0%R out j = (IZR (2 * n) * at_ 0%R time j)%R.
Proof. exact inverse_real_round_trip_claim. Qed.
Print Assumptions inverse_real_round_trip.

Example inverse_real_round_trip_witness : exists c ci freq' tmp' wd1 out tmp2' wd2, kiss_fftr_new exact_ops exact_inverse_ops (2 * 2) false = Ok (Some c) /\
  kiss_fftr_new exact_ops exact_inverse_ops (2 * 2) true = Ok (Some ci) /\
  kiss_fftr_checked exact_ops (fun _ => true) c [1; 2; 3; 4]%R [(7, 7); (7, 7)]%R [(6, 6); (6, 6); (6, 6)]%R world0 = Ok (freq', tmp', wd1) /\
  kiss_fftri exact_ops (fun _ => true) ci freq' [(5, 5); (5, 5)]%R [9; 9; 9; 9]%R wd1 = Ok (out, tmp2', wd2) /\ at_ 0%R out 3 = 16%R.
Proof. exact inverse_real_round_trip_example. Qed.

(** C97.  Whatever the scalars are and whichever allocations fail, the inverse
    transforms have no undefined behaviour, keep the sizes of their buffers and return
    their working memory; the in-place complex transform leaves what lies behind its n
    values alone, and without memory for its buffer it changes nothing. *)
Theorem inverse_safe : forall (T : Type) (K I : ops T) al n, 1 <= n <= INT_MAX / 3 ->
  (forall inverse, exists c, kiss_fft_new K I n inverse = Ok c /\
    (forall fin fout in_stride wd, 0 <= in_stride -> (n - 1) * in_stride < zlen fin -> zlen fout = n ->
      exists out wd', kiss_fft_stride K al c fin fout in_stride wd = Ok (out, wd') /\ owns wd' wd [] /\ zlen out = n) /\
    (forall buf in_stride junk wd, 1 <= in_stride -> (n - 1) * in_stride < zlen buf ->
      exists out wd', kiss_fft_in_place K al c buf in_stride junk wd = Ok (out, wd') /\ owns wd' wd [] /\ zlen out = zlen buf /\
        (forall k, n <= k -> at_ (czero K) out k = at_ (czero K) buf k) /\ (al (w_count wd) = false -> out = buf))) /\
  exists c, kiss_fftr_new K I (n * 2) true = Ok (Some c) /\
    forall freq tmp time wd, n + 1 <= zlen freq -> zlen tmp = n -> zlen time = 2 * n ->
      exists out tmp' wd', kiss_fftri K al c freq tmp time wd = Ok (out, tmp', wd') /\ owns wd' wd [] /\ zlen out = 2 * n /\ zlen tmp' = n.
Proof. exact inverse_safe_claim. Qed.
Print Assumptions inverse_safe.

Example inverse_safe_witness : exists c out wd', kiss_fft_new exact_ops exact_inverse_ops 7 true = Ok c /\
  kiss_fft_in_place exact_ops (fun _ => false) c [(1, 0); (2, 0); (3, 0); (4, 0); (5, 0); (6, 0); (7, 0); (8, 0)]%R 1 (9, 9)%R world0 = Ok (out, wd') /\
  out = [(1, 0); (2, 0); (3, 0); (4, 0); (5, 0); (6, 0); (7, 0); (8, 0)]%R.
Proof. exact inverse_safe_example. Qed.

(** C97.  With memory, transforming in place gives what transforming into another
    buffer gives. *)
Theorem inverse_in_place : forall (T : Type) (K I : ops T) al n inverse c buf fout in_stride junk wd wd2,
  1 <= n <= INT_MAX / 3 -> kiss_fft_new K I n inverse = Ok c -> 1 <= in_stride -> (n - 1) * in_stride < zlen buf -> zlen fout = n ->
  (forall k, al k = true) ->
  exists out wd' out2 wd2', kiss_fft_in_place K al c buf in_stride junk wd = Ok (out, wd') /\
    kiss_fft_stride K al c buf fout in_stride wd2 = Ok (out2, wd2') /\
    forall k, 0 <= k < n -> at_ (czero K) out k = at_ (czero K) out2 k.
Proof. exact inverse_in_place_claim. Qed.
Print Assumptions inverse_in_place.

Example inverse_in_place_witness : exists c out wd', kiss_fft_new exact_ops exact_inverse_ops 2 true = Ok c /\
  kiss_fft_in_place exact_ops (fun _ => true) c [(3, 1); (1, 2); (8, 8)]%R 1 (9, 9)%R world0 = Ok (out, wd') /\
  at_ (0, 0)%R out 0 = (4, 3)%R /\ at_ (0, 0)%R out 1 = (2, -1)%R.
Proof. exact inverse_in_place_example. Qed.

(** C97.  The real transforms given a state for the other direction write nothing. *)
Theorem inverse_misuse : forall (T : Type) (K : ops T) al c time tmp freq wd,
  (r_inverse c = true -> kiss_fftr_checked K al c time tmp freq wd = Ok (freq, tmp, wd)) /\
  (r_inverse c = false -> kiss_fftri K al c freq tmp time wd = Ok (time, tmp, wd)).
Proof. exact inverse_misuse_claim. Qed.
Print Assumptions inverse_misuse.

Example inverse_misuse_witness : exists c, kiss_fftr_new exact_ops exact_inverse_ops (1 * 2) false = Ok (Some c) /\
  kiss_fftri exact_ops (fun _ => true) c [(5, 9); (3, 9)]%R [(7, 7)]%R [6; 6]%R world0 = Ok ([6; 6]%R, [(7, 7)]%R, world0).
Proof. exact inverse_misuse_example. Qed.

(** C97.  kiss_fft_next_fast_size returns the least product of twos, threes and fives
    from n on, up to the largest such int; negative numbers are returned as they are. *)
Theorem next_fast_size : forall n,
  (1 <= n <= 2125764000 -> exists m, kiss_fft_next_fast_size n = Ok m /\ n <= m <= 2125764000 /\ m < 2 * n /\ smooth m /\
     forall j, n <= j < m -> ~ smooth j) /\
  (n < 0 -> kiss_fft_next_fast_size n = Ok n).
Proof. exact next_fast_size_claim. Qed.
Print Assumptions next_fast_size.

Example next_fast_size_witness : kiss_fft_next_fast_size 1 = Ok 1 /\ kiss_fft_next_fast_size 7 = Ok 8 /\ kiss_fft_next_fast_size 1921 = Ok 1944 /\
  kiss_fft_next_fast_size (-14) = Ok (-14).
Proof. exact next_fast_size_example. Qed.

(** C97.  kiss_fftr_next_fast_size_real returns the least even length from n on whose half
    is such a product. *)
Theorem next_fast_size_real : forall n, 1 <= n <= 2125764000 ->
  exists k, kiss_fftr_next_fast_size_real n = Ok (2 * k) /\ n <= 2 * k <= 2125764000 /\ smooth k /\
    forall j, n <= 2 * j < 2 * k -> ~ smooth j.
Proof. exact next_fast_size_real_claim. Qed.
Print Assumptions next_fast_size_real.

Example next_fast_size_real_witness : kiss_fftr_next_fast_size_real 1 = Ok 2 /\ kiss_fftr_next_fast_size_real 1921 = Ok 1944 /\
  kiss_fftr_next_fast_size_real 2125764000 = Ok 2125764000.
Proof. exact next_fast_size_real_example. Qed.

(** C97, finding: the remaining ints do not work.  For 0 the first inner loop ends after
    no number of rounds, and beyond the largest product that fits, n++ overflows.  The macro
    for real transforms passes 0 on for -1 and 0, overflows as well, and shifts negative
    numbers to the left. *)
Theorem next_fast_size_refuted :
  (forall fuel, divide_out fuel 2 0 = Undef OutOfFuel) /\
  (forall n, 2125764000 < n <= INT_MAX -> kiss_fft_next_fast_size n = Undef IntOverflow /\ kiss_fftr_next_fast_size_real n = Undef IntOverflow) /\
  kiss_fftr_next_fast_size_real 0 = Undef OutOfFuel /\ kiss_fftr_next_fast_size_real (-1) = Undef OutOfFuel /\
  (forall n, - 2^31 <= n < -1 -> kiss_fftr_next_fast_size_real n = Undef BadShift).
Proof. exact next_fast_size_refuted_claim. Qed.
Print Assumptions next_fast_size_refuted.
