(** The files of test/files that the native readers are tested with, and the surroundings
    in which Suite*.v run the project's own tests on the model. *)
From Coq Require Import Ascii String.
From Flocq Require Import IEEE754.Binary IEEE754.Bits.
From Verif Require Import Base Flt Util Methods Analysis Stdio Pgm Pfm Y4m Image ImageHistory Demo DemoImages.
Open Scope list_scope.
Open Scope Z_scope.

Definition suite_files : list (string * list Z) :=
  [ ("checkerboard"%string, chars "Pf" ++ [10] ++ chars "2 2" ++ [10] ++ chars "1.0" ++ [10; 0; 0; 0; 0] ++ chars "?" ++ [128; 0; 0] ++ chars "?" ++ [128; 0; 0; 0; 0; 0; 0] ++ chars "Pf" ++ [10] ++ chars "2 2" ++ [10] ++ chars "1.0" ++ [10] ++ chars "?" ++ [128; 0; 0; 0; 0; 0; 0; 0; 0; 0; 0] ++ chars "?" ++ [128; 0; 0]);
    ("checkerboard.pfm"%string, chars "Pf" ++ [10] ++ chars "2 2" ++ [10] ++ chars "1.0" ++ [10; 0; 0; 0; 0] ++ chars "?" ++ [128; 0; 0] ++ chars "?" ++ [128; 0; 0; 0; 0; 0; 0] ++ chars "Pf" ++ [10] ++ chars "2 2" ++ [10] ++ chars "1.0" ++ [10] ++ chars "?" ++ [128; 0; 0; 0; 0; 0; 0; 0; 0; 0; 0] ++ chars "?" ++ [128; 0; 0]);
    ("checkerboard.pgm"%string, chars "P5" ++ [10] ++ chars "2 2" ++ [10] ++ chars "255" ++ [10; 255; 0; 0; 255]);
    ("checkerboard.y4m"%string, chars "YUV4MPEG2 W2 H2 F100:1 Ip A0:0 Cmono XCOLORRANGE=FULL" ++ [10] ++ chars "FRAME" ++ [10; 255; 0; 0; 255] ++ chars "FRAME" ++ [10; 0; 255; 255; 0]);
    ("checkerboard_16_bit.y4m"%string, chars "YUV4MPEG2 W2 H2 F100:1 Ip A0:0 Cmono16 XCOLORRANGE=FULL" ++ [10] ++ chars "FRAME" ++ [10; 255; 255; 0; 0; 0; 0; 255; 255] ++ chars "FRAME" ++ [10; 0; 0; 255; 255; 255; 255; 0; 0]);
    ("corrupt_header.pfm"%string, chars "Pf" ++ [10] ++ chars "2 2" ++ [10; 10; 0; 0; 0; 0] ++ chars "?" ++ [128; 0; 0] ++ chars "?" ++ [128; 0; 0; 0; 0; 0; 0] ++ chars "Pf" ++ [10] ++ chars "2 2" ++ [10] ++ chars "1.0" ++ [10] ++ chars "?" ++ [128; 0; 0; 0; 0; 0; 0; 0; 0; 0; 0] ++ chars "?" ++ [128; 0; 0]);
    ("corrupt_header.pgm"%string, chars "P5" ++ [10] ++ chars "2 " ++ [10; 255; 0; 0; 255]);
    ("corrupt_header.y4m"%string, chars "YUV4MPEG2 W2 H F100:1 Ip A0:0 Cmono XCOLORRANGE=FULL" ++ [10] ++ chars "FRAME" ++ [10; 255; 0; 0; 255] ++ chars "FRAME" ++ [10; 0; 255; 255; 0]);
    ("partial_data.pfm"%string, chars "Pf" ++ [10] ++ chars "2 2" ++ [10] ++ chars "1.0" ++ [10; 0; 0; 0; 0] ++ chars "?" ++ [128; 0; 0] ++ chars "?" ++ [128; 0; 0; 0]);
    ("partial_data.pgm"%string, chars "P5" ++ [10] ++ chars "2 2" ++ [10] ++ chars "255" ++ [10; 255; 0]);
    ("partial_data.y4m"%string, chars "YUV4MPEG2 W2 H2 F100:1 Ip A0:0 Cmono XCOLORRANGE=FULL" ++ [10] ++ chars "FRAME" ++ [10; 255; 0]);
    ("with_comment.pfm"%string, chars "Pf" ++ [10] ++ chars "#comment" ++ [10] ++ chars "2 2" ++ [10] ++ chars "1.0" ++ [10; 0; 0; 0; 0] ++ chars "?" ++ [128; 0; 0] ++ chars "?" ++ [128; 0; 0; 0; 0; 0; 0] ++ chars "Pf" ++ [10] ++ chars "2 2" ++ [10] ++ chars "1.0" ++ [10] ++ chars "?" ++ [128; 0; 0; 0; 0; 0; 0; 0; 0; 0; 0] ++ chars "?" ++ [128; 0; 0]);
    ("with_comment.pgm"%string, chars "P5" ++ [10] ++ chars "#comment" ++ [10] ++ chars "2 2" ++ [10] ++ chars "255" ++ [10; 255; 0; 0; 255]) ].

(** what follows the last slash *)
Definition base_name (s : string) : string := match after_last slash s with Some b => b | None => s end.
Definition ENOENT := 2.
Definition suite_open (name : string) : stream + Z :=
  match find (fun '(n, _) => String.eqb n (base_name name)) suite_files with
  | Some (_, l) => inl (file_of l)
  | None => inr ENOENT
  end.
(** a little-endian host with signed characters that leaves undefined what C leaves undefined *)
Definition suite_system (stdin : list Z) : system :=
  mkSystem strict_host (fun _ => pipe_of stdin) (fun _ name => suite_open name) (fun _ => no_ext).

(** ** What a test sees *)
Definition pattern (l : list (option f32)) : list (option Z) := map (option_map bits_of_b32) l.
Definition checkerboard (l : list Z) : list (option Z) := map (fun v => Some (bits_of_b32 (f32_of_Z v))) l.
Inductive view := Frame (b : bool) (e : Z) (image : option (list (option Z))) | Sought (b : bool) (e : Z) (progress : list Z).
Definition view_of (r : image_reply) : view :=
  match r with
  | IFrame b e image => Frame b e (option_map pattern image)
  | ISought b e calls => Sought b e calls
  end.
(** an image was returned, width, height, a buffer was returned, error; the calls; what is
    still allocated after the buffer is freed and the image closed *)
Definition test_image (R : readers) (name : option string) (o : way) (ptrs want : bool) (cs : list image_call)
    : res ((bool * Z * Z * bool * Z) * list view * (list nat * list nat)) :=
  '((im, width, height, buf, e, _), rs, w) <- image_program R demo_env (suite_system []) name o ptrs want cs w0 ;;
  w <- free_opt (option_map fst buf) w ;;
  Ok ((match im with Some _ => true | None => false end, width, height,
       match buf with Some _ => true | None => false end, e), map view_of rs, (w_live w, w_files w)).
Definition nothing : list nat * list nat := ([], []).
Definition read_ : image_call := IRead (Some (repeat None 4)).
