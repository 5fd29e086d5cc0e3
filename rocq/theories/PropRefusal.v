(**     Property C72: why the native readers refuse a file. *)
From Coq Require Import Reals.
From Flocq Require Import Core IEEE754.Binary IEEE754.Bits.
From Verif Require Import Base Flt Util Methods Analysis Spec Stdio Pgm Pfm Y4m Image ImageHistory SpecImage SpecFormats SpecRefusal Demo DemoImages DemoFormats.
From Verif Require Import BaseProofs SelectProofs FilmProofs RefusalProofs.
Open Scope list_scope.
Open Scope Z_scope.
From Verif Require Import RefusalClaims.

(** C72.  Whatever the file holds: if a native reader gives no image then an allocation
    failed, or the file could not be opened and the error is its errno, or the image is
    reported as too large or as invalid. *)
Theorem native_refusal : forall R E Y filename name want w im width height buf e w',
  In name ["PGM"; "PFM"; "Y4M"]%string -> In name (resdet_list_image_readers R) ->
  resdet_open_image_with_reader R E Y (Some filename) (Some name) true want w = Ok (im, width, height, buf, e, w') ->
  (e = RDEOK /\ im <> None) \/ (im = None /\ reason E Y filename e).
Proof. exact native_refusal_claim. Qed.
Print Assumptions native_refusal.

Example native_refusal_witness : In "PGM"%string (resdet_list_image_readers native_readers) /\
  exists w', resdet_open_image_with_reader native_readers demo_env (system_of strict_host (chars "P5 2 ")) (Some "a.pgm"%string) (Some "PGM"%string) true true w0 =
    Ok (None, 0, 0, None, RDEINVAL, w').
Proof. exact native_refusal_example. Qed.

(** With enough memory, a file that cannot be opened is reported by its errno, and a file
    that does not start like a PFM or YUV4MPEG2 file as invalid. *)
Theorem native_errors : forall R E Y filename name want w im width height buf e w' (wrong : Z),
  (forall n, e_alloc E n = true) -> In name (resdet_list_image_readers R) ->
  resdet_open_image_with_reader R E Y (Some filename) (Some name) true want w = Ok (im, width, height, buf, e, w') ->
  (In name ["PGM"; "PFM"; "Y4M"]%string /\ filename <> "-"%string /\ wrong <> 0 /\ (forall t, y_fopen Y t filename = inr (- wrong))) \/
  (exists s, delivers Y filename s /\ wrong = RDEINVAL /\
     ((name = "PFM"%string /\ firstn 2 (s_rest s) <> chars "PF" /\ firstn 2 (s_rest s) <> chars "Pf") \/
      (name = "Y4M"%string /\ firstn 10 (s_rest s) <> chars "YUV4MPEG2 "))) ->
  im = None /\ e = wrong.
Proof. exact native_errors_claim. Qed.
Print Assumptions native_errors.

Example native_errors_witness : (forall n, e_alloc demo_env n = true) /\
  delivers (system_of strict_host (chars "YUV4MPEG")) "a.y4m" (file_of (chars "YUV4MPEG")) /\
  firstn 10 (s_rest (file_of (chars "YUV4MPEG"))) <> chars "YUV4MPEG2 ".
Proof. exact native_errors_example. Qed.

(** C72, finding: numbers in headers may have a sign, and a negative number is taken modulo
    2^64; such files are accepted. *)
Theorem header_sign_refuted : exists im im' buf buf' w' w'',
  open_by native_readers demo_env (system_of strict_host (chars "P5 +3 2 255 ")) (Some "a.pgm"%string) (ByType None) true true w0 = Ok (Some im, 3, 2, buf, RDEOK, w') /\
  open_by native_readers demo_env (system_of strict_host (chars "P5 -18446744073709551613 2 255 ")) (Some "a.pgm"%string) (ByType None) true true w0 = Ok (Some im', 3, 2, buf', RDEOK, w'').
Proof. exact header_sign_refuted_claim. Qed.
Print Assumptions header_sign_refuted.

(** C72, finding: a PGM or PFM image without pixels is reported as too large, not as invalid
    as for YUV4MPEG2. *)
Theorem empty_image_refuted : exists w' w'' w''',
  open_by native_readers demo_env (system_of demo_host (chars "P5 0 2 255 ")) (Some "a.pgm"%string) (ByType None) true true w0 = Ok (None, 0, 0, None, RDETOOBIG, w') /\
  open_by native_readers demo_env (system_of demo_host (chars "Pf 0 2 1.0 ")) (Some "a.pfm"%string) (ByType None) true true w0 = Ok (None, 0, 0, None, RDETOOBIG, w'') /\
  open_by native_readers demo_env (system_of demo_host (chars "YUV4MPEG2 W0 H2" ++ [10])) (Some "a.y4m"%string) (ByType None) true true w0 = Ok (None, 0, 0, None, RDEINVAL, w''').
Proof. exact empty_image_refuted_claim. Qed.
Print Assumptions empty_image_refuted.
