(** @header
    Properties C78 and C87: the memory the library asks for is the memory it uses. *)
From Coq Require Import Permutation Lia Psatz.
From Verif Require Import Base Flt Util Methods Analysis History Kiss Sizes Spec SpecAnalysis SpecUtil SpecReport SpecSizes.
From Verif Require Import BaseProofs UtilProofs AnalysisProofs ResultsProofs ClientProofs CompareProofs KissFactor KissTransform SizeProofs UtilClaims AnalysisClaims Demo.
Open Scope list_scope.
Open Scope Z_scope.

(** C78.  The size check of resdet_internal.h, for size_t of any width: it accepts exactly the
    sizes whose byte count is a size_t. *)
Lemma size_limit_words_claim : forall P pixel_max width height n tsize,
  0 <= width -> 0 <= height -> 0 <= n -> 0 < tsize -> 0 <= pixel_max -> 0 <= pf_bits P ->
  exceeds_limit P pixel_max width height n tsize = false <->
  1 <= width /\ 1 <= height /\ 1 <= n /\ width * height * n <= pixel_max /\ width * height * n * tsize < 2 ^ pf_bits P.
Proof. exact exceeds_limit_iff. Qed.

Example size_limit_words_example :
  exceeds_limit ilp32 (2^32 - 1) 32768 32767 1 4 = false /\ exceeds_limit ilp32 (2^32 - 1) 32768 32768 1 4 = true /\
  exceeds_limit lp64 (2^64 - 1) 32768 32768 1 4 = false.
Proof. vm_compute. auto. Qed.

(** C78.  ... with 64 bits this is the check of the rest of the model. *)
Lemma size_limit_64_claim : forall c width height n tsize,
  0 <= width -> 0 <= height -> 0 <= n -> 0 < tsize -> 0 <= c_pixel_max c ->
  dims_exceed_limit c width height n tsize = Ok (exceeds_limit lp64 (c_pixel_max c) width height n tsize).
Proof. intros. apply exceeds_limit_64; auto. Qed.

(** C78.  64 bits, any precision: for every size creation accepts, every request for memory
    made by creating an analysis is for exactly the bytes of the buffer, and so is that of every result list. *)
Lemma requests_64_claim : forall P b pixel_max width height range,
  ordinary P -> 64 <= pf_bits P -> accepted P b pixel_max width height -> 1 <= range < 2 ^ pf_bits P ->
  create_requests P b width height range = create_needs P b width height range /\
  forall len n, len = width \/ len = height -> 1 <= n <= 1 + Z.max 0 (len - 2 * range) ->
    results_request P n = space n (pf_result P).
Proof.
  intros P b pm w h range O B A R. split; [eapply create_wide; eauto; lia|].
  intros len n LEN N. eapply results_wide; eauto; lia.
Qed.

Example requests_64_example : ordinary lp64 /\ accepted lp64 KISS (2^64 - 1) 1000000 3000 /\
  create_requests lp64 KISS 1000000 3000 12 =
    [112; 12000000000; 72; 8000000; 8000008; 8000000; 20000288; 24000; 60288; 7999808; 23808].
Proof. split; [|split]; [unfold ordinary; cbn; lia|unfold accepted; vm_compute; intuition discriminate|vm_compute; reflexivity]. Qed.

(** C78.  The requests are those of the model: creating an analysis that succeeds makes as
    many as [create_requests] lists, in a size creation accepts, and a fetched list has no more entries than its request is for. *)
Lemma requests_made_claim : forall E m width height p wd a wd',
  client_ok E width height p -> resdet_create_analysis E m width height p wd = Ok (Some a, RDEOK, wd') ->
  let range := used_range (e_cfg E) m p in
  accepted lp64 (c_backend (e_cfg E)) (c_pixel_max (e_cfg E)) width height /\ 1 <= range < 2 ^ 64 /\
  w_count wd' = (w_count wd + length (create_requests lp64 (c_backend (e_cfg E)) width height range))%nat /\
  forall images Ds len l, countable images -> reported E m width height p images Ds len l ->
    1 <= zlen l <= 1 + Z.max 0 (len - 2 * range).
Proof.
  intros E m w h p wd a wd' HC Q range.
  assert (RR : p_range (an_params a) = range).
  { apply (analysis_parameters_claim E m w h p [] a HC); [unfold countable; cbn; lia|]. econstructor. exact Q. }
  pose proof (used_range_pos E w h m p HC) as RP. fold range in RP.
  assert (RB : range < 2 ^ 64).
  { unfold range. pose proof (client_valid _ _ _ _ HC) as V. destruct HC as (HE & _ & _ & _). pose proof (eo_config _ HE) as CF.
    unfold config_ok, SIZE_MAX in CF. rewrite !andb_true_iff in CF. unfold used_range.
    destruct p as [p|]; [destruct V as [V _ _]; unfold SIZE_MAX in V|]; destruct (used_method m); lia. }
  split; [|split; [lia|split]].
  - destruct (create_outcome_claim E m w h p wd HC) as (ao & e & wd'' & Q' & I & O). rewrite Q in Q'. injection Q' as <- <- <-.
    destruct O as [(_ & O)|[(O & _)|[(O & _)|[(O & _)|(O & _)]]]]; try discriminate.
    unfold accepted. cbn [pf_coeff pf_bits lp64]. unfold INT_MAX. exact O.
  - rewrite <- RR. destruct HC as (_ & W & H & _). apply (create_count E m w h p wd a wd' lp64); auto. lia.
  - intros images Ds len l CT R.
    destruct (reaches_nonempty_reported _ _ _ _ _ _ _ _ _ HC CT R) as (_ & G & _ & _).
    destruct G as [_ (l' & -> & P & _)]. rewrite zlen_app. change (zlen [own_size len]) with 1. pose proof (zlen_nonneg l').
    apply Permutation_length in P. unfold pairs, found in P. rewrite !map_length in P. unfold zlen in *. rewrite <- P.
    assert (L : forall (f : Z -> bool) q, (length (filter f q) <= length q)%nat).
    { intros f q. induction q as [|x q IH]; cbn; [lia|]. destruct (f x); cbn; lia. }
    match goal with |- context [length (filter ?f ?q)] => specialize (L f q) end.
    unfold window in *. unfold zrange in L at 2. rewrite length_zseq in L. fold range in L |- *. lia.
Qed.

Example requests_made_example :
  match resdet_create_analysis demo_env None 40 30 None world0 with
  | Ok (Some _, _, w) => w_count w = length (create_requests lp64 (c_backend (e_cfg demo_env)) 40 30 12) /\ w_count w = 11%nat
  | _ => False
  end.
Proof. vm_compute. auto. Qed.

(** C78.  32 bits, any precision: if all requests together fit into the address space, none of
    them has wrapped around: each is for exactly the bytes of its buffer. *)
Lemma requests_32_claim : forall P b pixel_max width height range,
  ordinary P -> pf_bits P = 32 -> accepted P b pixel_max width height -> 1 <= range < 2 ^ 32 ->
  total (create_requests P b width height range) < 2 ^ 32 ->
  create_requests P b width height range = create_needs P b width height range /\
  forall len n, pf_result P <= pf_coeff P + pf_inter P -> len = width \/ len = height ->
    1 <= n <= 1 + Z.max 0 (len - 2 * range) -> results_request P n = space n (pf_result P).
Proof.
  intros P b pm w h range O B A R T. split; [eapply create_narrow; eauto; lia|].
  intros len n S LEN N. eapply results_narrow; eauto.
Qed.

Example requests_32_example : ordinary ilp32 /\ accepted ilp32 KISS (2^32 - 1) 4096 2160 /\
  pf_result ilp32 <= pf_coeff ilp32 + pf_inter ilp32 /\
  total (create_requests ilp32 KISS 4096 2160 12) = 35680464.
Proof. split; [|split]; [unfold ordinary; cbn; lia|unfold accepted; vm_compute; intuition discriminate|split; [vm_compute; discriminate|vm_compute; reflexivity]]. Qed.

(** C78, finding: taken one by one the requests are not safe with 32 bits.  A line of 2^29
    samples is accepted, and the buffer of 2^32 bytes for its mirror image is requested with 0
    bytes.  Only the address space prevents the overrun: all requests together exceed it. *)
Lemma kiss_request_32_refuted_claim : exists width, accepted ilp32 KISS (2^32 - 1) width 1 /\
  exceeds_limit ilp32 (2^32 - 1) width 1 1 4 = false /\
  nth 3 (create_requests ilp32 KISS width 1 12) 0 = 0 /\ nth 3 (create_needs ilp32 KISS width 1 12) 0 = 2^32 /\
  2^32 <= total (create_requests ilp32 KISS width 1 12).
Proof. exists (2^29). split; [unfold accepted; vm_compute; intuition discriminate|]. vm_compute. intuition discriminate. Qed.

(** C78.  Images, for size_t of 32 bits or more: what passes the size check is requested with
    exactly the bytes it needs, by open, by reading frames, and by the PNG and JPEG readers. *)
Lemma image_requests_claim : forall P pixel_max width height, 32 <= pf_bits P -> 0 <= pixel_max -> 0 <= width -> 0 <= height ->
  (exceeds_limit P pixel_max width height 1 4 = false ->
     image_request P width height = space (width * height) 4 /\
     jpeg_request P width height = space (width * height) 1 /\
     forall channels, 1 <= channels <= 4 -> png_request P width height channels = space (width * height) channels) /\
  (forall n, 0 <= n -> exceeds_limit P pixel_max width height n 4 = false ->
     images_request P width height n = space (width * height * n) 4).
Proof.
  intros P pm w h B PM W H. split.
  - intros L. split; [rewrite one_image, (image_exact P pm) by (assumption || lia); unfold space; lia|].
    split; [apply (png_exact P pm w h 1); auto; lia|]. intros ch C. apply (png_exact P pm w h ch); auto.
  - intros n N L. apply image_exact with pm; auto.
Qed.

Example image_requests_example : exceeds_limit ilp32 (2^32 - 1) 30000 30000 1 4 = false /\
  image_request ilp32 30000 30000 = 3600000000 /\ exceeds_limit ilp32 (2^32 - 1) 30000 30000 2 4 = true /\
  images_request ilp32 30000 30000 2 = 2905032704.
Proof. vm_compute. auto. Qed.

(** C78.  Y4M, for size_t of 32 bits or more: the buffer holds a luma plane, and the chroma
    planes as well unless they can be skipped with fseek. *)
Lemma y4m_requests_claim : forall P pixel_max c depth width height long_max fseek y uv bytes,
  32 <= pf_bits P -> 0 <= pixel_max -> 0 <= width -> 0 <= height -> 8 <= depth <= 16 ->
  exceeds_limit P pixel_max width height 4 1 = false ->
  y4m_request P c depth width height long_max fseek = Some (y, uv, bytes) ->
  let sample := if depth =? 8 then 1 else 2 in
  y = space (width * height) sample /\ uv = space (chroma_samples c width height) sample /\ y <= bytes /\
  (uv <= bytes \/ (fseek = true /\ y + uv <= long_max)).
Proof. intros P pm c depth w h lm fs y uv bytes B PM W H D L Q. exact (y4m_exact P pm c depth w h lm fs y uv bytes B PM W H D L Q). Qed.

Example y4m_requests_example : exceeds_limit ilp32 (2^32 - 1) 7 5 4 1 = false /\
  y4m_request ilp32 C420 10 7 5 (2^31 - 1) false = Some (70, 48, 70) /\
  y4m_request ilp32 C444 10 7 5 (2^31 - 1) false = Some (70, 140, 140) /\
  y4m_request ilp32 C444 10 30000 30000 (2^31 - 1) false = None.
Proof. vm_compute. auto. Qed.

(** C78.  PFM: the bytes to skip per frame are those of a frame, as long as these are a size_t... *)
Lemma pfm_skip_exact_claim : forall P colour width height, 1 <= width -> 1 <= height ->
  width * height * (if colour : bool then 12 else 4) < 2 ^ pf_bits P ->
  pfm_skip P colour width height = space (width * height * (if colour then 3 else 1)) 4.
Proof. exact pfm_exact. Qed.

(** C78, finding: ... which the size check does not ensure for colour frames.  With 32 bits a frame of
    357913942 x 1 opens, and seeking skips 8 bytes of its 4294967304. *)
Lemma pfm_skip_refuted_claim : exists width height, exceeds_limit ilp32 (2^32 - 1) width height 1 4 = false /\
  pfm_skip ilp32 true width height = 8 /\ space (width * height * 3) 4 = 4294967304.
Proof. exists 357913942, 1. vm_compute. auto. Qed.

(** ** One block for an FFT *)
(** C87.  kiss_fftr_alloc for a line of 2n samples, any precision, size_t of any width in which
    the block can be described: it asks for exactly the bytes of its parts; they lie inside the
    block and do not overlap; and the call that fills the inner state is not refused. *)
Lemma fftr_block_claim : forall P n, ordinary P -> twiddle_inside P -> 1 <= n -> fftr_space P n < 2 ^ pf_bits P ->
  exists L, fftr_memory P (2 * n) false None = (Asked (fftr_space P n), None, Some L) /\ ly_inner L = Given /\
    Forall (within (fftr_space P n)) (fftr_parts P n L) /\ ForallOrdPairs apart (fftr_parts P n L).
Proof.
  intros P n O T N B. exists (block_layout P n). split; [apply (fftr_memory_exact P n false None); assumption|].
  split; [reflexivity|]. apply block_parts; assumption.
Qed.
Example fftr_block_example : ordinary lp64 /\ twiddle_inside lp64 /\ fftr_space lp64 (INT_MAX / 3) < 2 ^ 64 /\
  fftr_memory lp64 10 false None = (Asked 384, None, Some (mkLayout 24 328 368 Given)).
Proof. unfold ordinary, twiddle_inside, cpx_size. vm_compute. intuition discriminate. Qed.

(** C87.  The request is the one C78 counts, and the parts have the sizes of the arrays of the
    transform's model: twiddles, factors, tmpbuf, super twiddles. *)
Lemma fftr_arrays_claim : forall (T : Type) (K : ops T) n, 1 <= n <= INT_MAX / 3 -> exists st L,
  kiss_fftr_alloc K (n * 2) = Ok (Some st) /\ fftr_memory lp64 (2 * n) false None = (Asked (fftr_request lp64 n), None, Some L) /\
  fftr_parts lp64 n L =
    [(0, 24); (24, 264); (288, 8 * zlen (ft_twiddles (fr_sub st))); (288 + 8 * n, 8 * fr_tmpsize st);
     (288 + 16 * n, 8 * zlen (fr_super st))] /\
  (* int nfft, inverse, factors[64] *)
  4 * (2 + zlen (ft_factors (fr_sub st))) <= 264.
Proof.
  intros T K n Hn. destruct (kiss_fftr_alloc_ok K n Hn) as (st & A & OK). exists st, (block_layout lp64 n).
  assert (O : ordinary lp64) by (unfold ordinary; vm_compute; intuition discriminate).
  assert (B : fftr_space lp64 n < 2 ^ 64).
  { assert (INT_MAX / 3 = 715827882) by reflexivity. unfold fftr_space, space, cpx_size. cbn [pf_fftr pf_fft pf_scalar lp64].
    assert (n / 2 <= n) by (apply Z.div_le_upper_bound; lia). lia. }
  split; [exact A|]. split; [rewrite (proj2 (fftr_space_exact lp64 n O ltac:(lia) B)); apply (fftr_memory_exact lp64 n false None); try assumption; lia|].
  destruct OK as [[_ F TW _] S _ TS]. split.
  - unfold fftr_parts, block_layout, space, cpx_size. cbn [pf_fftr pf_fft pf_scalar pf_first lp64 ly_substate ly_tmpbuf ly_super].
    rewrite TW, S, TS. repeat (f_equal; try lia).
  - enough (zlen (ft_factors (fr_sub st)) <= 60) by lia.
    assert (INT_MAX / 3 = 715827882) by reflexivity. destruct (kf_factor_ok n ltac:(unfold INT_MAX; lia)) as (l & E & _ & L & _).
    clear -A E L Hn. unfold kiss_fftr_alloc in A. rewrite Z.odd_mul, andb_false_r, Z.div_mul in A by lia.
    destruct (cint (n * 3)); cbn [bind] in A; try discriminate. unfold kiss_fft_alloc in A.
    destruct (cint (n - 1)); cbn [bind] in A; try discriminate. destruct (fill_table K n _ _); cbn [bind] in A; try discriminate.
    rewrite E in A. cbn [bind] in A. destruct (fill_table K (Z.quot n 2) _ _); cbn [bind] in A; try discriminate. injection A as <-. exact L.
Qed.
Example fftr_arrays_example : fftr_parts lp64 5 (mkLayout 24 328 368 Given) = [(0, 24); (24, 264); (288, 40); (328, 40); (368, 16)].
Proof. reflexivity. Qed.

(** C87.  Memory of the caller: it is used if *lenmem says it is large enough, and *lenmem is set
    to what is needed in any case.  So a call with a null pointer asks for the size, and a
    second call with a block of this size succeeds, with the parts placed as above.  An odd
    number of samples is refused and *lenmem is left alone. *)
Lemma fftr_protocol_claim : forall P n, ordinary P -> 1 <= n -> fftr_space P n < 2 ^ pf_bits P ->
  let need := fftr_space P n in
  (forall len, fftr_memory P (2 * n) false (Some len) = (Refused, Some need, None)) /\
  (forall len, len < need -> fftr_memory P (2 * n) true (Some len) = (Refused, Some need, None)) /\
  (forall len, need <= len -> exists L, fftr_memory P (2 * n) true (Some len) = (Given, Some need, Some L) /\
     fftr_memory P (2 * n) false None = (Asked need, None, Some L)) /\
  (forall mem lenmem, fftr_memory P (2 * n + 1) mem lenmem = (Refused, lenmem, None)).
Proof.
  intros P n O N B need. split; [intros len; apply (fftr_memory_exact P n false (Some len)); assumption|]. split; [|split].
  - intros len L. rewrite fftr_memory_exact by assumption. fold need. replace (need <=? len) with false by lia. reflexivity.
  - intros len L. exists (block_layout P n). rewrite !fftr_memory_exact by assumption. fold need. replace (need <=? len) with true by lia. split; reflexivity.
  - intros mem lenmem. unfold fftr_memory. replace (Z.odd (2 * n + 1)) with true by (rewrite Z.odd_add, Z.odd_mul; reflexivity). reflexivity.
Qed.
Example fftr_protocol_example : fftr_memory lp64 10 false (Some 0) = (Refused, Some 384, None) /\
  fftr_memory lp64 10 true (Some 384) = (Given, Some 384, Some (mkLayout 24 328 368 Given)) /\ fftr_memory lp64 5 true (Some 1000) = (Refused, Some 1000, None).
Proof. vm_compute. auto. Qed.

(** C87.  The same for kiss_fft_alloc. *)
Lemma fft_protocol_claim : forall P n, ordinary P -> 1 <= n -> pf_fft P + space (n - 1) (cpx_size P) < 2 ^ pf_bits P ->
  let need := pf_fft P + space (n - 1) (cpx_size P) in
  (forall mem, fft_memory P n mem None = (Asked need, None)) /\
  (forall len, fft_memory P n false (Some len) = (Refused, Some need)) /\
  (forall len, len < need -> fft_memory P n true (Some len) = (Refused, Some need)) /\
  (forall len, need <= len -> fft_memory P n true (Some len) = (Given, Some need)).
Proof.
  intros P n O N B need. pose proof O as ((C & _) & _ & _ & _ & _ & _ & F & _).
  assert (E : fft_request P n = need).
  { unfold need, fft_request, space, cpx_size, wr in *. rewrite (Z.mod_small (n - 1)) by nia. rewrite (Z.mod_small (2 * pf_scalar P * _)) by nia.
    rewrite Z.mod_small by nia. ring. }
  unfold fft_memory. rewrite E. split; [reflexivity|]. split; [reflexivity|]. cbn [andb].
  split; intros len L; [replace (need <=? len) with false by lia|replace (need <=? len) with true by lia]; reflexivity.
Qed.
Example fft_protocol_example : fft_memory lp64 5 false (Some 1000) = (Refused, Some 304) /\ fft_memory lp64 5 true (Some 304) = (Given, Some 304).
Proof. vm_compute. auto. Qed.

(** C87.  The parts are aligned if the size of struct kiss_fftr_state is a multiple of the
    alignment of struct kiss_fft_state, which nothing in the source sees to. *)
Lemma fftr_aligned_claim : forall P n L, ordinary P -> compiled P -> (pf_align P | pf_fftr P) -> 1 <= n -> fftr_space P n < 2 ^ pf_bits P ->
  fftr_memory P (2 * n) false None = (Asked (fftr_space P n), None, Some L) ->
  forall p, In p (fftr_parts P n L) -> (pf_align P | fst p).
Proof.
  intros P n L O C A N B M p I. rewrite fftr_memory_exact in M by assumption. injection M as <-. eapply block_aligned; eassumption.
Qed.
(** the builds with floats and, with pointers of 8 bytes, doubles *)
Example fftr_aligned_example : forall P, In P [lp64; ilp32; lp64_double] -> ordinary P /\ twiddle_inside P /\ compiled P /\ (pf_align P | pf_fftr P).
Proof.
  intros P I. cbn [In] in I. unfold ordinary, twiddle_inside, compiled, cpx_size.
  destruct I as [<-|[<-|[<-|[]]]]; cbn [lp64 ilp32 lp64_double pf_bits pf_coeff pf_scalar pf_inter pf_analysis pf_kplan pf_fplan pf_fftr pf_fft pf_fftw pf_result pf_first pf_align];
  repeat split; try lia; apply Z.mod_divide; vm_compute; discriminate || reflexivity.
Qed.
(** C87, finding: with pointers of 4 bytes and coefficients of type double, aligned to 8 bytes
    as in WebAssembly and on ARM, the structure has 12 bytes, and the inner state, its
    twiddles, tmpbuf and the super twiddles are all misaligned, for every n. *)
Lemma fftr_aligned_refuted_claim : ordinary ilp32_double /\ twiddle_inside ilp32_double /\ compiled ilp32_double /\
  forall n L, 1 <= n -> fftr_space ilp32_double n < 2 ^ 32 ->
    fftr_memory ilp32_double (2 * n) false None = (Asked (fftr_space ilp32_double n), None, Some L) ->
    forall p, In p (fftr_parts ilp32_double n L) -> fst p <> 0 -> fst p mod pf_align ilp32_double = 4.
Proof.
  assert (O : ordinary ilp32_double) by (unfold ordinary; vm_compute; intuition discriminate).
  split; [exact O|]. split; [unfold twiddle_inside, cpx_size; vm_compute; intuition discriminate|]. split.
  { unfold compiled, cpx_size. cbn [ilp32_double pf_scalar pf_fft pf_first pf_align]. repeat split; try lia; apply Z.mod_divide; vm_compute; discriminate || reflexivity. }
  intros n L N B M p I NZ. rewrite fftr_memory_exact in M by assumption. injection M as <-.
  unfold fftr_parts, block_layout, space, cpx_size in I. cbn [ilp32_double pf_fftr pf_fft pf_scalar pf_first ly_substate ly_tmpbuf ly_super In] in I. cbn [pf_align ilp32_double].
  destruct I as [<-|[<-|[<-|[<-|[<-|[]]]]]]; cbn [fst] in *; try lia; try reflexivity.
  - replace (12 + (280 + (n - 1) * (2 * 8))) with (4 + (2 * n + 34) * 8) by ring. rewrite Z.mod_add by lia. reflexivity.
  - replace (12 + (280 + (n - 1) * (2 * 8)) + n * (2 * 8)) with (4 + (4 * n + 34) * 8) by ring. rewrite Z.mod_add by lia. reflexivity.
Qed.
Example fftr_aligned_refuted_example :
  fftr_memory ilp32_double 10 false None = (Asked 468, None, Some (mkLayout 12 356 436 Given)) /\ fftr_space ilp32_double 5 = 468.
Proof. vm_compute. auto. Qed.
