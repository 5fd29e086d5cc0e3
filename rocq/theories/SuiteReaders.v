(** The tests of test/lib/test_image_readers.c on the model, for the native readers.  Each
    example has the name of its test; the definitions are the run_*_test functions there. *)
From Coq Require Import Ascii String.
From Flocq Require Import IEEE754.Binary IEEE754.Bits.
From Verif Require Import Base Flt Util Methods Analysis Stdio Pgm Pfm Y4m Image ImageHistory Demo DemoImages SuiteFiles.
Open Scope list_scope.
Open Scope Z_scope.

Definition reader_test (name reader : string) (want : bool) (cs : list image_call) :=
  test_image native_readers (Some name) (ByReader (Some reader)) true want cs.
(** the image opens, the calls have these results, and everything is given back *)
Definition gives (name reader : string) (cs : list image_call) (vs : list view) : Prop :=
  reader_test name reader true cs = Ok ((true, 2, 2, true, RDEOK), vs, nothing).
Definition rejected (name reader : string) (e : Z) : Prop :=
  reader_test name reader false [] = Ok ((false, 0, 0, false, e), [], nothing).
Definition frame (l : list Z) : view := Frame true RDEOK (Some (checkerboard l)).
Definition end_ : view := Frame false RDEOK (Some (repeat None 4)).

Definition opens (name reader : string) : Prop := gives name reader [] [].
Definition nonexistent (name reader : string) : Prop := rejected name reader (- ENOENT).
Definition still_frame_reads (name reader : string) : Prop := gives name reader [read_; read_] [frame [1; 0; 0; 1]; end_].
Definition multi_frame_reads (name reader : string) : Prop :=
  gives name reader [read_; read_; read_] [frame [1; 0; 0; 1]; frame [0; 1; 1; 0]; end_].
Definition still_frame_seeks (name reader : string) : Prop :=
  gives name reader [ISeek 1; read_; ISeek 0; ISeek 1] [Sought true RDEOK [1]; end_; Sought true RDEOK []; Sought false RDEOK []].
Definition multi_frame_seeks (name reader : string) : Prop :=
  gives name reader [ISeek 1; read_; ISeek 0; ISeek 1]
    [Sought true RDEOK [1]; frame [0; 1; 1; 0]; Sought true RDEOK []; Sought false RDEOK []].
Definition still_frame_seeks_to_eof (name reader : string) : Prop :=
  gives name reader [ISeek 1; ISeek 1] [Sought true RDEOK [1]; Sought false RDEOK []].
Definition multi_frame_seeks_to_eof (name reader : string) : Prop :=
  gives name reader [ISeek 2; ISeek 1] [Sought true RDEOK [1; 2]; Sought false RDEOK []].
(** the tests do not say which progress calls are made before the end *)
Definition seeking_past_end (name reader : string) (n : Z) : Prop :=
  exists calls, gives name reader [ISeek n] [Sought false RDEOK calls].
Definition still_frame_reading_past_end (name reader : string) : Prop :=
  gives name reader [ISeek 1; read_] [Sought true RDEOK [1]; end_].
Definition multi_frame_reading_past_end (name reader : string) : Prop :=
  gives name reader [ISeek 2; read_] [Sought true RDEOK [1; 2]; end_].
(** the last call is what the counter of the test is left at *)
Definition still_frame_seeks_with_progress (name reader : string) : Prop := gives name reader [ISeek 1] [Sought true RDEOK [1]].
Definition multi_frame_seeks_with_progress (name reader : string) : Prop := gives name reader [ISeek 2] [Sought true RDEOK [1; 2]].
(** some samples may have been stored *)
Definition partial_data (name reader : string) : Prop :=
  exists image, gives name reader [read_] [Frame false RDEINVAL (Some image)].
Definition corrupt_header (name reader : string) : Prop := rejected name reader RDEINVAL.

Ltac run := vm_compute; reflexivity.

(** * PGM *)
Example test_opens_pgm : opens "test/files/checkerboard.pgm" "PGM".
Proof. run. Qed.
Example test_open_image_errors_on_nonexistent_pgm : nonexistent "test/files/doesntexist.pgm" "PGM".
Proof. run. Qed.
Example test_reads_pgm : still_frame_reads "test/files/checkerboard.pgm" "PGM".
Proof. run. Qed.
Example test_seeks_pgm : still_frame_seeks "test/files/checkerboard.pgm" "PGM".
Proof. run. Qed.
Example test_seeks_to_eof_pgm : still_frame_seeks_to_eof "test/files/checkerboard.pgm" "PGM".
Proof. run. Qed.
Example test_seeking_past_end_of_file_returns_false_pgm : seeking_past_end "test/files/checkerboard.pgm" "PGM" 2.
Proof. eexists; run. Qed.
Example test_reading_past_end_of_file_returns_false_pgm : still_frame_reading_past_end "test/files/checkerboard.pgm" "PGM".
Proof. run. Qed.
Example test_seeks_with_progress_pgm : still_frame_seeks_with_progress "test/files/checkerboard.pgm" "PGM".
Proof. run. Qed.
Example test_open_image_errors_on_corrupt_header_pgm : corrupt_header "test/files/corrupt_header.pgm" "PGM".
Proof. run. Qed.
Example test_read_frame_errors_on_partial_data_pgm : partial_data "test/files/partial_data.pgm" "PGM".
Proof. eexists; run. Qed.

(** * PFM *)
Example test_opens_pfm : opens "test/files/checkerboard.pfm" "PFM".
Proof. run. Qed.
Example test_open_image_errors_on_nonexistent_pfm : nonexistent "test/files/doesntexist.pfm" "PFM".
Proof. run. Qed.
Example test_reads_pfm : multi_frame_reads "test/files/checkerboard.pfm" "PFM".
Proof. run. Qed.
Example test_seeks_pfm : multi_frame_seeks "test/files/checkerboard.pfm" "PFM".
Proof. run. Qed.
Example test_seeks_to_eof_pfm : multi_frame_seeks_to_eof "test/files/checkerboard.pfm" "PFM".
Proof. run. Qed.
Example test_seeking_past_end_of_file_returns_false_pfm : seeking_past_end "test/files/checkerboard.pfm" "PFM" 3.
Proof. eexists; run. Qed.
Example test_reading_past_end_of_file_returns_false_pfm : multi_frame_reading_past_end "test/files/checkerboard.pfm" "PFM".
Proof. run. Qed.
Example test_seeks_with_progress_pfm : multi_frame_seeks_with_progress "test/files/checkerboard.pfm" "PFM".
Proof. run. Qed.
Example test_open_image_errors_on_corrupt_header_pfm : corrupt_header "test/files/corrupt_header.pfm" "PFM".
Proof. run. Qed.
Example test_read_frame_errors_on_partial_data_pfm : partial_data "test/files/partial_data.pfm" "PFM".
Proof. eexists; run. Qed.

(** * Y4M *)
Example test_opens_y4m : opens "test/files/checkerboard.y4m" "Y4M".
Proof. run. Qed.
Example test_open_image_errors_on_nonexistent_y4m : nonexistent "test/files/doesntexist.y4m" "Y4M".
Proof. run. Qed.
Example test_reads_y4m : multi_frame_reads "test/files/checkerboard.y4m" "Y4M".
Proof. run. Qed.
Example test_seeks_y4m : multi_frame_seeks "test/files/checkerboard.y4m" "Y4M".
Proof. run. Qed.
Example test_seeks_to_eof_y4m : multi_frame_seeks_to_eof "test/files/checkerboard.y4m" "Y4M".
Proof. run. Qed.
Example test_seeking_past_end_of_file_returns_false_y4m : seeking_past_end "test/files/checkerboard.y4m" "Y4M" 3.
Proof. eexists; run. Qed.
Example test_reading_past_end_of_file_returns_false_y4m : multi_frame_reading_past_end "test/files/checkerboard.y4m" "Y4M".
Proof. run. Qed.
Example test_seeks_with_progress_y4m : multi_frame_seeks_with_progress "test/files/checkerboard.y4m" "Y4M".
Proof. run. Qed.
Example test_open_image_errors_on_corrupt_header_y4m : corrupt_header "test/files/corrupt_header.y4m" "Y4M".
Proof. run. Qed.
Example test_read_frame_errors_on_partial_data_y4m : partial_data "test/files/partial_data.y4m" "Y4M".
Proof. eexists; run. Qed.

(** * Files that no test reads *)
Example reads_16_bit_y4m : multi_frame_reads "test/files/checkerboard_16_bit.y4m" "Y4M".
Proof. run. Qed.
Example reads_pgm_with_comment : still_frame_reads "test/files/with_comment.pgm" "PGM".
Proof. run. Qed.
Example reads_pfm_with_comment : multi_frame_reads "test/files/with_comment.pfm" "PFM".
Proof. run. Qed.
