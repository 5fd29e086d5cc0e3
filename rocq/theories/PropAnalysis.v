(**     Properties C05-C24: analyses, results, resdetect. *)
From Coq Require Import Reals Permutation Sorted Lra.
From Flocq Require Import Core IEEE754.Binary.
From Verif Require Import Base Flt Util Methods Analysis Resdetect History Spec SpecAnalysis SpecUtil SpecReport.
From Verif Require Import BaseProofs FltProofs MethodsProofs WorldProofs AnalysisProofs UtilProofs ResultsProofs.
From Verif Require Import ClientProofs ProgramProofs ErrorProofs CompareProofs FilterProofs Demo.
Open Scope list_scope.
Open Scope Z_scope.
From Verif Require Import AnalysisClaims.

(** A concrete analysis: a 7x5 image, one frame, range 2, threshold 1/2.  The
    hypotheses of the theorems below hold for it. *)
Example demo_reported_witness :
  client_ok demo_env 7 5 demo_params /\ countable [demo_image] /\
  exists lx ly, reported demo_env (Some Msign) 7 5 demo_params [demo_image] (seen_x demo_env 7 5 [demo_image]) 7 lx /\
                reported demo_env (Some Msign) 7 5 demo_params [demo_image] (seen_y demo_env 7 5 [demo_image]) 5 ly.
Proof. exact demo_reported_example. Qed.

(** ... and what is reported for it: two widths besides the size, and no height *)
Example demo_result_witness :
  match resdetect demo_env (Some demo_image) 1 7 5 (mkWants true true true true) (Some Msign) demo_params
          (mkOuts None 0 None 0) world0 with
  | Ok (e, o, wd) => e = RDEOK /\
      option_map (fun l => map r_index (snd l)) (o_rw o) = Some [3; 4; 7] /\ o_cw o = 3 /\
      option_map (fun l => map r_index (snd l)) (o_rh o) = Some [5] /\ o_ch o = 1
  | Undef _ => False
  end.
Proof. exact demo_result_example. Qed.

(** C05.  A client that creates an analysis, makes any calls, and destroys it: no
    undefined behaviour (out of bounds access, uninitialised read, bad shift, division
    by zero, double free), documented error codes only, and afterwards exactly the
    handed-out lists are still allocated - for every pattern of allocation failures. *)
Theorem analysis_safe : forall E m w h p calls wd,
  client_ok E w h p -> Forall (call_ok w h) calls -> countable calls ->
  exists e replies wd', program E m w h p calls wd = Ok (e, replies, wd') /\
    In e [RDEOK; RDEINVAL; RDETOOBIG; RDENOMEM; RDEINTERNAL] /\
    (e = RDEOK -> Forall2 reply_ok calls replies /\ owns wd' wd (reply_blocks calls replies)) /\
    (e <> RDEOK -> replies = [] /\ holds_only E w h wd wd' []).
Proof. exact analysis_safe_claim. Qed.
Print Assumptions analysis_safe.

Example analysis_safe_witness :
  client_ok demo_env 7 5 demo_params /\
  Forall (call_ok 7 5) [CAnalyze demo_image; CResults (mkWants true true false false) (mkOuts None 0 None 0); CAnalyze demo_image] /\
  match program demo_env (Some Mmag) 7 5 demo_params
     [CAnalyze demo_image; CResults (mkWants true true false false) (mkOuts None 0 None 0); CAnalyze demo_image] world0 with
  | Ok (e, [RAnalyze e1; RResults e2 o; RAnalyze e3], wd) =>
      e = RDEOK /\ e1 = RDEOK /\ e2 = RDEOK /\ e3 = RDEOK /\ List.length (w_live wd) = 1%nat
  | _ => False
  end.
Proof. exact analysis_safe_example. Qed.

(** C03.  Every error code a client sees has a library message. *)
Theorem analysis_codes : forall E m w h p calls wd e replies wd',
  client_ok E w h p -> Forall (call_ok w h) calls -> countable calls ->
  program E m w h p calls wd = Ok (e, replies, wd') ->
  forall code, code = e \/ In (RAnalyze code) replies \/ (exists o, In (RResults code o) replies) ->
  0 <= code <= resdet_get_max_error.
Proof. exact analysis_codes_claim. Qed.
Print Assumptions analysis_codes.

(** C05, finding: one block can be lost.  A 7x5 image with the KISS backend: the
    ninth allocation fails, creation reports "out of memory" and leaves a block. *)
Theorem create_leak_refuted : exists E w h p wd, client_ok E w h p /\
  match resdet_create_analysis E None w h p wd with
  | Ok (None, e, wd') => e = RDENOMEM /\ w_live wd = [] /\ w_live wd' <> []
  | _ => False
  end.
Proof. exact create_leak_refuted_claim. Qed.
Print Assumptions create_leak_refuted.

(** C06.  Every reported confidence is a finite number; all but the one of the image's
    own size lie between the threshold in effect and 1. *)
Theorem confidence_range : forall E m w h p images Ds len l,
  client_ok E w h p -> countable images -> reported E m w h p images Ds len l ->
  forall r, In r l -> is_finite 24 128 (r_conf r) = true /\
    (r = own_size len \/
     (B2R 24 128 (used_threshold m p) <= conf_real r <= 1 /\ 0 <= conf_real r)%R).
Proof. exact confidence_range_claim. Qed.
Print Assumptions confidence_range.

(** C06, finding: the bound fails if a previous frame ran out of memory half way.
    Method "orig", two frames of which the first fails in the height pass: the width
    confidence exceeds 1. *)
Theorem confidence_after_nomem_refuted : exists E m w h p calls wd,
  client_ok E w h p /\ Forall (call_ok w h) calls /\
  match program E m w h p calls wd with
  | Ok (_, replies, _) => exists o b l r, In (RResults RDEOK o) replies /\ o_rw o = Some (b, l) /\ In r l /\
      flt (f32_of_Z 1) (r_conf r) = true
  | Undef _ => False
  end.
Proof. exact confidence_after_nomem_refuted_claim. Qed.
Print Assumptions confidence_after_nomem_refuted.

(** C07.  Every list is ordered by non-increasing confidence and ends with the image's
    own size, confidence -1; no other entry has that index or a negative confidence. *)
Theorem list_order : forall E m w h p images Ds len l,
  client_ok E w h p -> countable images -> reported E m w h p images Ds len l ->
  StronglySorted (fun a b => (conf_real b <= conf_real a)%R) l /\
  exists others, l = others ++ [own_size len] /\
    forall r, In r others -> r_index r <> len /\ (0 <= conf_real r)%R.
Proof. exact list_order_claim. Qed.
Print Assumptions list_order.

(** C08.  Without a compression filter the list consists of the image's own size and,
    exactly once each, the indices of the search window whose mean detection ratio
    reaches the threshold, with that mean as confidence. *)
Theorem exact_results : forall E m w h p images Ds len l,
  client_ok E w h p -> countable images -> used_filter p = 0 -> reported E m w h p images Ds len l ->
  Permutation (pairs l) ((len, f32_of_Z (-1)) :: expected E m p Ds len).
Proof. exact exact_results_claim. Qed.
Print Assumptions exact_results.

(** C08.  No index is reported twice, with or without filter. *)
Theorem no_duplicates : forall E m w h p images Ds len l,
  client_ok E w h p -> countable images -> reported E m w h p images Ds len l -> NoDup (map r_index l).
Proof. exact no_duplicates_claim. Qed.
Print Assumptions no_duplicates.

(** C09.  Only indices at least [range] away from both ends are reported. *)
Theorem window_only : forall E m w h p images Ds len l,
  client_ok E w h p -> countable images -> reported E m w h p images Ds len l ->
  forall r, In r l -> r = own_size len \/
    used_range (e_cfg E) m p <= r_index r < len - used_range (e_cfg E) m p.
Proof. exact window_only_claim. Qed.
Print Assumptions window_only.

(** C09.  A dimension of at most twice the range reports its own size only. *)
Theorem narrow_dimension : forall E m w h p images Ds len l,
  client_ok E w h p -> countable images -> len <= 2 * used_range (e_cfg E) m p ->
  reported E m w h p images Ds len l -> l = [own_size len].
Proof. exact narrow_dimension_claim. Qed.
Print Assumptions narrow_dimension.

(** C10.  An image is refused as invalid exactly if one of its first w*h samples is
    not finite.  Refusing it does not change what later fetches return. *)
Theorem invalid_image : forall E m w h p images a image wd,
  client_ok E w h p -> countable images -> reaches E m w h p images a -> w * h <= Z.of_nat (length image) ->
  exists e a' wd', resdet_analyze_image E (Some a) (Some image) wd = Ok (e, Some a', wd') /\
    (e = RDEINVAL <-> ~ valid_image w h image) /\
    (e = RDEINVAL -> reaches E m w h p images a' /\ owns wd' wd [] /\
       forall q o wd1, resdet_analysis_results E (Some a') q o wd1 = resdet_analysis_results E (Some a) q o wd1).
Proof. exact invalid_image_claim. Qed.
Print Assumptions invalid_image.

(** C10.  A valid image is accepted unless the "orig" method runs out of memory. *)
Theorem valid_image_accepted : forall E m w h p images a image wd,
  client_ok E w h p -> countable images -> reaches E m w h p images a -> w * h <= Z.of_nat (length image) ->
  valid_image w h image ->
  exists e a' wd', resdet_analyze_image E (Some a) (Some image) wd = Ok (e, Some a', wd') /\
    ((e = RDEOK /\ reaches E m w h p (images ++ [image]) a') \/
     (e = RDENOMEM /\ used_method m = Morig /\ exists k, e_alloc E k = false)).
Proof. exact valid_image_accepted_claim. Qed.
Print Assumptions valid_image_accepted.

(** a frame with an infinite last sample is not valid; the demo frame is *)
Example invalid_image_witness :
  ~ valid_image 7 5 (map f32_of_Z (repeat 1 34) ++ [fdiv (f32_of_Z 1) (f32_of_Z 0)]) /\ valid_image 7 5 demo_image /\
  exists a, reaches demo_env None 7 5 demo_params [demo_image; demo_image] a.
Proof. exact invalid_image_example. Qed.

(** C11.  With no accepted image a fetch reports so (or a missing count pointer, which
    is checked first) and hands out nothing; with one it never does. *)
Theorem no_images : forall E m w h p images a q o wd,
  client_ok E w h p -> countable images -> reaches E m w h p images a ->
  exists e o' wd', resdet_analysis_results E (Some a) q o wd = Ok (e, o', wd') /\
    (images = [] -> (e = RDENOIMG \/ (e = RDEPARAM /\ bad_wants q = true)) /\ o' = clear_outs q o /\ wd' = wd) /\
    (images <> [] -> e <> RDENOIMG).
Proof. exact no_images_claim. Qed.
Print Assumptions no_images.

(** C12, C24.  Whatever the histories of two analyses were - refused images, other
    fetches, memory contents, even other allocation failures - if they accepted the
    same images they report the same lists. *)
Theorem same_images_same_results : forall E E' m w h p images Ds len l l',
  client_ok E w h p -> client_ok E' w h p -> same_but_memory E E' -> countable images ->
  reported E m w h p images Ds len l -> reported E' m w h p images Ds len l' -> l = l'.
Proof. exact same_images_same_results_claim. Qed.
Print Assumptions same_images_same_results.

(** C12, C24.  ... and their fetch calls behave identically in every respect. *)
Theorem same_images_same_fetch : forall E m w h p images a a' q o wd,
  client_ok E w h p -> countable images -> reaches E m w h p images a -> reaches E m w h p images a' ->
  resdet_analysis_results E (Some a) q o wd = resdet_analysis_results E (Some a') q o wd.
Proof. exact same_images_same_fetch_claim. Qed.
Print Assumptions same_images_same_fetch.

(** C13.  The output parameters of a fetch: a failure clears every requested output; a
    success fills the requested dimensions, count equal to the list length, and leaves
    the others alone (a lone count pointer is set to 0). *)
Theorem result_outputs : forall E m w h p images a q o wd,
  client_ok E w h p -> countable images -> reaches E m w h p images a ->
  exists e o' wd', resdet_analysis_results E (Some a) q o wd = Ok (e, o', wd') /\
    (e = RDEPARAM <-> (want_rw q = true /\ want_cw q = false) \/ (want_rh q = true /\ want_ch q = false)) /\
    (e <> RDEOK -> owns wd' wd [] /\
       o_rw o' = (if want_rw q then None else o_rw o) /\ o_cw o' = (if want_cw q then 0 else o_cw o) /\
       o_rh o' = (if want_rh q then None else o_rh o) /\ o_ch o' = (if want_ch q then 0 else o_ch o)) /\
    (e = RDEOK -> owns wd' wd (out_blocks q o') /\
       (want_rw q = true -> exists b l, o_rw o' = Some (b, l) /\ o_cw o' = Z.of_nat (length l)) /\
       (want_rw q = false -> o_rw o' = o_rw o /\ o_cw o' = if want_cw q then 0 else o_cw o) /\
       (want_rh q = true -> exists b l, o_rh o' = Some (b, l) /\ o_ch o' = Z.of_nat (length l)) /\
       (want_rh q = false -> o_rh o' = o_rh o /\ o_ch o' = if want_ch q then 0 else o_ch o)).
Proof. exact result_outputs_claim. Qed.
Print Assumptions result_outputs.

(** C13.  A NULL analysis is a parameter error. *)
Theorem result_null : forall E q o wd,
  resdet_analysis_results E None q o wd = Ok (RDEPARAM, clear_outs q o, wd).
Proof. exact result_null_claim. Qed.
Print Assumptions result_null.

(** C14.  resdetect on n frames is create, analyse the n consecutive frames, fetch,
    destroy - as a function: same error, same outputs, same heap, for every pattern of
    allocation failures. *)
Theorem resdetect_sequential : forall E image n w h q m p o wd,
  client_ok E w h p -> 0 <= n -> Z.of_nat (length image) < 2^62 -> n * (w * h) <= Z.of_nat (length image) ->
  resdetect E (Some image) n w h q m p o wd =
  if bad_wants q then Ok (RDEPARAM, clear_outs q o, wd)
  else if n =? 0 then Ok (RDENOIMG, clear_outs q o, wd)
  else by_hand E (frames_of (Z.to_nat n) (w * h) image) w h q m p o wd.
Proof. exact resdetect_sequential_claim. Qed.
Print Assumptions resdetect_sequential.

(** C14.  Its outcome: results of exactly these frames, or an error with cleared
    outputs; memory is held by the lists only. *)
Theorem resdetect_outcome : forall E image n w h q m p o wd,
  client_ok E w h p -> 1 <= n -> Z.of_nat (length image) < 2^62 -> n * (w * h) <= Z.of_nat (length image) ->
  bad_wants q = false ->
  let frames := frames_of (Z.to_nat n) (w * h) image in
  exists e o' wd', resdetect E (Some image) n w h q m p o wd = Ok (e, o', wd') /\
   (e = RDEOK -> Forall (valid_image w h) frames /\ owns wd' wd (out_blocks q o') /\
     (want_rw q = true -> exists b l, o_rw o' = Some (b, l) /\ o_cw o' = Z.of_nat (length l) /\
        reported E m w h p frames (seen_x E w h frames) w l) /\
     (want_rh q = true -> exists b l, o_rh o' = Some (b, l) /\ o_ch o' = Z.of_nat (length l) /\
        reported E m w h p frames (seen_y E w h frames) h l)) /\
   (e <> RDEOK -> o' = clear_outs q o /\ holds_only E w h wd wd' [] /\
     In e [RDEINVAL; RDETOOBIG; RDENOMEM; RDEINTERNAL] /\
     (e = RDEINVAL -> w = 0 \/ h = 0 \/ ~ Forall (valid_image w h) frames)).
Proof. exact resdetect_outcome_claim. Qed.
Print Assumptions resdetect_outcome.

(** C16.  After k frames every reported confidence is the exact mean, over the frames,
    of the fraction of pairs meeting the criterion, up to 2^-25 + (k+10) 2^-53. *)
Theorem mean_error : forall E m w h p images Ds len l,
  client_ok E w h p -> Z.of_nat (length images) <= 2^53 -> reported E m w h p images Ds len l ->
  forall r, In r l -> r = own_size len \/
   (Rabs (conf_real r - exact_mean (used_criterion (e_cfg E) m) Ds (used_range (e_cfg E) m p) (r_index r))
     <= / 2^25 + (INR (length images) + 10) * / 2^53)%R.
Proof. exact mean_error_claim. Qed.
Print Assumptions mean_error.

(** C17.  What each method adds to the result buffer for one coefficient array, in any
    memory layout: hits divided by the number tested ([ratio]), at every position of
    the window; [Morig] fails only if its scratch buffer cannot be allocated. *)
Theorem method_counts : forall c al m f n stride dist D range result wd,
  geometry f n stride dist D -> d_len D < 2^64 -> 1 <= range -> 2 * range < d_len D ->
  n * range < storage_mod c -> n <= 2^53 -> range <= 2^53 -> (m = Mzerox -> range = 1) ->
  Z.of_nat (length result) = d_len D - 2 * range ->
  (forall i, 0 <= i < Z.of_nat (length result) ->
    is_finite 53 1024 (at_ d0 result i) = true /\ Bsign 53 1024 (at_ d0 result i) = false) ->
  exists e result' wd',
    run_method c al wd m f (d_len D) n stride dist range result (range, d_len D - range) =
      Ok (e, result', (range, d_len D - range), wd') /\
    ((e = RDEOK /\ Z.of_nat (length result') = Z.of_nat (length result) /\
      forall i, 0 <= i < Z.of_nat (length result) ->
       at_ d0 result' i = dadd (at_ d0 result i)
         (ratio (match m with Msign => Sign | Mmag => Magnitude (c_frexp_special c <=? 0)
                            | Morig => Original | Mzerox => ZeroCrossing end) D range (range + i))) \/
     (e = RDENOMEM /\ result' = result /\ m = Morig /\ al (w_count wd) = false)).
Proof. exact method_counts_claim. Qed.
Print Assumptions method_counts.

(** C17.  For a single frame the confidence is the fraction itself, rounded to double
    and then to single precision. *)
Theorem single_frame : forall E m w h p image D len l,
  client_ok E w h p -> w * h <= 2^53 -> reported E m w h p [image] [D] len l ->
  forall r, In r l -> r = own_size len \/
    conf_real r = round radix2 (FLT_exp (-149) 24) ZnearestE
      (round radix2 (FLT_exp (-1074) 53) ZnearestE
        (exact_ratio (used_criterion (e_cfg E) m) (used_range (e_cfg E) m p) (r_index r) D)).
Proof. exact single_frame_claim. Qed.
Print Assumptions single_frame.

(** C18.  The parameters an analysis works with: the range and filter given (1 for
    zero crossing), and the threshold given or, if none was accepted by the setter, the
    method's. *)
Theorem analysis_parameters : forall E m w h p images a,
  client_ok E w h p -> countable images -> reaches E m w h p images a ->
  p_range (an_params a) = used_range (e_cfg E) m p /\
  p_threshold (an_params a) = used_threshold m p /\
  p_filter (an_params a) = used_filter p.
Proof. exact analysis_parameters_claim. Qed.
Print Assumptions analysis_parameters.

(** C18.  The method's default threshold is used exactly when no setter call with an
    acceptable threshold was made. *)
Theorem default_threshold : forall c m l es p, Forall typed l -> set_all (Some (default_params c)) l = (es, Some p) ->
  (forall t, In (Threshold t) l -> ~ unit_number t) /\ used_threshold m (Some p) = method_threshold (used_method m) \/
  (exists t, In (Threshold t) l /\ unit_number t /\ used_threshold m (Some p) = t /\ p_threshold p = t).
Proof. exact default_threshold_claim. Qed.
Print Assumptions default_threshold.

(** C19.  Raising the threshold only removes entries. *)
Theorem threshold_monotone : forall E m w h p p' images Ds len l l',
  client_ok E w h p -> client_ok E w h p' -> countable images ->
  used_range (e_cfg E) m p = used_range (e_cfg E) m p' -> used_filter p = used_filter p' ->
  (B2R 24 128 (used_threshold m p) <= B2R 24 128 (used_threshold m p'))%R ->
  reported E m w h p images Ds len l -> reported E m w h p' images Ds len l' ->
  forall r, In r l' -> In r l.
Proof. exact threshold_monotone_claim. Qed.
Print Assumptions threshold_monotone.

(** C20.  With threshold 0 and no filter every index of the window is reported. *)
Theorem threshold_zero : forall E m w h p images Ds len l,
  client_ok E w h p -> countable images ->
  B2R 24 128 (used_threshold m p) = 0%R -> used_filter p = 0 -> reported E m w h p images Ds len l ->
  Permutation (map r_index l) (len :: zrange (used_range (e_cfg E) m p) (len - used_range (e_cfg E) m p)).
Proof. exact threshold_zero_claim. Qed.
Print Assumptions threshold_zero.

(** C20, finding: "every single line/column" (doc/libresdet.md) is not reported; the
    range at both ends is left out.  7x5 image, range 2. *)
Theorem threshold_zero_every_line_refuted : exists E m w h p images l,
  client_ok E w h p /\ B2R 24 128 (used_threshold m p) = 0%R /\ used_filter p = 0 /\
  reported E m w h p images (seen_x E w h images) w l /\
  exists x, 0 < x < w /\ ~ In x (map r_index l).
Proof. exact threshold_zero_every_line_refuted_claim. Qed.
Print Assumptions threshold_zero_every_line_refuted.

(** C21.  Transposing the planes swaps the two lists. *)
Theorem transpose : forall E m w h p images images' lx ly lx' ly',
  client_ok E w h p -> countable images -> Forall2 (transposed E w h) images images' ->
  reported E m w h p images (seen_x E w h images) w lx -> reported E m w h p images (seen_y E w h images) h ly ->
  reported E m h w p images' (seen_x E h w images') h lx' -> reported E m h w p images' (seen_y E h w images') w ly' ->
  lx = ly' /\ ly = lx'.
Proof. exact transpose_claim. Qed.
Print Assumptions transpose.

Example transpose_witness :
  transposed demo_env 7 5 demo_image
    (map (fun k => at_ f0 demo_image ((k mod 5) * 7 + k / 5)) (zrange 0 35)).
Proof. exact transpose_example. Qed.

(** C22.  A filter value of 0 removes nothing ... (see [exact_results]); a value v
    (sides up to 2^22) keeps exactly the indices whose distance from the start of the
    window is a multiple of 2^v. *)
Theorem filter_law : forall E m w h p images Ds len l,
  client_ok E w h p -> countable images -> used_filter p <> 0 -> len <= 2^22 -> reported E m w h p images Ds len l ->
  Permutation (pairs l) ((len, f32_of_Z (-1)) ::
    found (used_criterion (e_cfg E) m) Ds len (used_range (e_cfg E) m p) (used_threshold m p)
      (fun x => (x - used_range (e_cfg E) m p) mod 2 ^ used_filter p =? 0)).
Proof. exact filter_law_claim. Qed.
Print Assumptions filter_law.

(** C22, finding: the documented behaviour ("removes results at intervals of the image
    size / 2^value") is not what happens.  Image 7x5, range 1, threshold 0, filter 1:
    index 2, which is at no multiple of 7/2, is removed, though it is reported without
    the filter. *)
Theorem filter_documentation_refuted : exists E m w h p p' images l l' r,
  client_ok E w h p /\ client_ok E w h p' /\ used_filter p = 1 /\ used_filter p' = 0 /\
  reported E m w h p images (seen_x E w h images) w l /\ reported E m w h p' images (seen_x E w h images) w l' /\
  In r l' /\ ~ In r l /\ ~ (exists k, 2 * r_index r = k * w).
Proof. exact filter_documentation_refuted_claim. Qed.
Print Assumptions filter_documentation_refuted.

(** C23.  The zero crossing method ignores the range parameter. *)
Theorem zerox_range : forall E w h p p' images Ds len l l',
  client_ok E w h p -> client_ok E w h p' -> countable images ->
  used_threshold (Some Mzerox) p = used_threshold (Some Mzerox) p' -> used_filter p = used_filter p' ->
  reported E (Some Mzerox) w h p images Ds len l -> reported E (Some Mzerox) w h p' images Ds len l' -> l = l'.
Proof. exact zerox_range_claim. Qed.
Print Assumptions zerox_range.

(** C23.  Its window is [1, size-1). *)
Theorem zerox_window : forall E w h p images Ds len l,
  client_ok E w h p -> countable images -> reported E (Some Mzerox) w h p images Ds len l ->
  forall r, In r l -> r = own_size len \/ 1 <= r_index r < len - 1.
Proof. exact zerox_window_claim. Qed.
Print Assumptions zerox_window.
