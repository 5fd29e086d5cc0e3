(**     Properties C83 and C84: the trigonometric tables, and the program from the bytes of
    a file to the text printed. *)
From Coq Require Import Reals Lra Ascii String.
From Flocq Require Import Core IEEE754.BinarySingleNaN IEEE754.Binary.
From Verif Require Import Base BaseProofs Flt FltProofs Util Methods Analysis History Spec SpecAnalysis SpecUtil SpecReport Kiss SpecTransform SpecAccuracy SpecInterpolate Stdio Pgm Pfm Y4m Image ImageHistory SpecImage SpecFormats Cli SpecCli Printf SpecText Tables SpecTables SpecEnd Demo DemoImages DemoFormats.
From Verif Require Import UtilProofs ClientProofs CompareProofs AnalysisClaims CliProofs CliRun CliClaims KissClaims AccuracyClaims InterpolateClaims TextRuns TablesProofs EndProofs EndText.
Open Scope string_scope.
Open Scope list_scope.
Open Scope Z_scope.
From Verif Require Import EndClaims.

(** C83.  With a C library whose cos and sin are good to 2^-30 on arguments up to 8, and
    whose atan is at 1, the tables the transform computes for lengths up to 2^40 are good
    to 2^-24.  This is what the theorems about accuracy ask for. *)
Theorem tables_accurate : forall M n, libm_ok M -> 1 <= n <= 2^40 ->
  tables_close (twiddle_table M) (super_table M) (shift_table M) n.
Proof. exact tables_accurate_claim. Qed.
Print Assumptions tables_accurate.

(** there is such a library *)
Example tables_accurate_witness : exists M, libm_ok M.
Proof. exact tables_accurate_example. Qed.

(** C83.  So the transform with the tables it computes itself is as accurate. *)
Theorem transform_from_libm : forall M al w h f mirror F tmp0 tmp1 wd B lw lh, libm_ok M ->
  (forall k, al k = true) -> 1 <= w <= 2^20 -> 1 <= h <= 2^20 ->
  zlen f = w * h -> zlen mirror = 2 * Z.max w h -> zlen F = Z.max w h + 1 -> zlen tmp0 = w -> zlen tmp1 = h ->
  (1 <= B <= 1048576)%R ->
  (forall i, 0 <= i < w * h -> ffinite (at_ f0 f i) = true /\ (Rabs (B2R 24 128 (at_ f0 f i)) <= B)%R) ->
  kf_factor w = Ok lw -> kf_factor h = Ok lh ->
  exists f' wd', kiss_transform (c_ops M) al w h f mirror F tmp0 tmp1 wd = Ok (f', wd') /\
    forall y x, 0 <= y < h -> 0 <= x < w ->
      ffinite (at_ f0 f' (y * w + x)) = true /\
      (Rabs (B2R 24 128 (at_ f0 f' (y * w + x)) - dct_2d w h (fun y x => B2R 24 128 (at_ f0 f (y * w + x)%Z)) y x)
         <= coefficient_error w h (radices_of lw) (radices_of lh) B)%R.
Proof. exact transform_from_libm_claim. Qed.
Print Assumptions transform_from_libm.

(** C84.  Given a well-formed film within the limits, memory enough, and finite samples in
    the frames selected, the program succeeds: it prints the lists the library has for
    these frames and nothing to standard error. *)
Theorem film_run : forall R E Y T self args w o m blk p input w1 s width height used, env_ok E -> machine_ok Y ->
  invoked R E T self args w o m blk p input w1 -> good_run R E Y o input s width height used ->
  exists x w' rw rh, cli_main R E Y T self args w = Ok (x, w') /\ detects R E Y o m (auto_filter o input p) input w1 width height used rw rh /\
    x_status x = status_of (o_verbosity o) rw rh /\ x_out x = printed (o_verbosity o) width height rw rh /\ (o_progress o = false -> x_err x = []).
Proof. exact film_run_claim. Qed.
Print Assumptions film_run.

(** C84.  From bytes to text: if every frame selected was scaled up from N columns by
    interpolation, the program with the KISS transform, the sign method and no compression
    filter exits with 0 and names width N with 100%; likewise height. *)
Theorem upscaled_run : forall M R E0 t0 F t Y T strerror self args w o blk p input w1 s width height used,
  let E := kiss_env (e_cfg E0) (e_alloc E0) (c_ops M) (e_qsort E0) t0 F t in
  libm_ok M -> env_ok E0 -> machine_ok Y ->
  invoked R E T self args w o Msign blk p input w1 -> p_filter (auto_filter o input p) = 0 ->
  good_run R E Y o input s width height used -> width <= 2^20 -> height <= 2^20 -> zlen used <= 2^53 ->
  exists x w', cli_main R E Y T self args w = Ok (x, w') /\
    (forall N, p_range p < N < width - p_range p -> (forall image, In image used -> interpolated_x N width height (p_range p) image) ->
       x_status x = 0 /\ says_width (o_verbosity o) width N (text strerror (x_out x))) /\
    (forall N, p_range p < N < height - p_range p -> (forall image, In image used -> interpolated_y N width height (p_range p) image) ->
       x_status x = 0 /\ says_height (o_verbosity o) height N (text strerror (x_out x))).
Proof. exact upscaled_run_claim. Qed.
Print Assumptions upscaled_run.

Example film_run_witness : exists R E Y T self args w o m blk p input w1 s width height used, env_ok E /\ machine_ok Y /\
  invoked R E T self args w o m blk p input w1 /\ good_run R E Y o input s width height used.
Proof. exact film_run_example. Qed.

(** with any good C library, "resdet -r 1 a.pfm" prints a line "    2 (100.00%)   ..." *)
Example upscaled_run_witness : forall M, libm_ok M -> env_ok demo_env /\ machine_ok (system_of demo_host upscaled_file) /\
  (exists p w1, invoked native_readers (upscaled_env M) demo_terminal "resdet" ["-r"; "1"; "a.pfm"] w0 upscaled_opts Msign 0 p "a.pfm" w1 /\
     p_range p = 1 /\ p_filter (auto_filter upscaled_opts "a.pfm" p) = 0) /\
  good_run native_readers (upscaled_env M) (system_of demo_host upscaled_file) upscaled_opts "a.pfm" (file_of upscaled_file) 4 1 [four_samples] /\
  interpolated_x 2 4 1 1 four_samples /\
  exists x w' rest, cli_main native_readers (upscaled_env M) (system_of demo_host upscaled_file) demo_terminal "resdet" ["-r"; "1"; "a.pfm"] w0 = Ok (x, w') /\
    x_status x = 0 /\ a_line (text (fun _ => "") (x_out x)) (chars "    2 (100.00%)   " ++ rest).
Proof. exact upscaled_run_example. Qed.
