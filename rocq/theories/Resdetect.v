(** Model of resdetect() in lib/resdetect.c.  (resdetect_file is in Image.v.) *)
From Verif Require Import Base Flt Util Methods Analysis.

(** The pointer image+off into the caller's buffer. *)
Definition ptr_add (image : list f32) (off : Z) : res (list f32) :=
  if (0 <=? off) && (off <=? zlen image) then Ok (skipn (Z.to_nat off) image)
  else Undef OutOfBounds.

(** lib/resdetect.c:30-31: for(i = 0; i < nimages && !error; i++) *)
Fixpoint resdetect_loop (E : env) (n : nat) (i : Z) (a : option analysis) (image : list f32)
    (width height : Z) (w : world) : res (Z * option analysis * world) :=
  match n with
  | O => Ok (RDEOK, a, w)
  | S n =>
      im <- ptr_add image (wrap (i * width * height)) ;;
      '(e, a, w) <- resdet_analyze_image E a (Some im) w ;;
      if negb (e =? 0) then Ok (e, a, w)
      else resdetect_loop E n (i + 1) a image width height w
  end.

(** lib/resdetect.c:8-38 resdetect *)
Definition resdetect (E : env) (image : option (list f32)) (nimages width height : Z)
    (q : wants) (m : option method) (p : option params) (o : outs) (w : world)
    : res (Z * outs * world) :=
  let o := clear_outs q o in
  if bad_wants q then Ok (RDEPARAM, o, w)
  else
    match image with
    | None => Ok (RDEPARAM, o, w)
    | Some image =>
        if nimages =? 0 then Ok (RDENOIMG, o, w)
        else
          '(a, e, w) <- resdet_create_analysis E m width height p w ;;
          match a with
          | None => Ok (e, o, w)
          | Some a =>
              '(e, a, w) <- resdetect_loop E (Z.to_nat nimages) 0 (Some a) image width height w ;;
              '(e, o, w) <- (if e =? 0 then resdet_analysis_results E a q o w
                             else Ok (e, o, w)) ;;
              w <- resdet_destroy_analysis a w ;;
              Ok (e, o, w)
          end
    end.
