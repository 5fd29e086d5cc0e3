(** Concrete files in the three formats, for the examples. *)
From Coq Require Import Reals.
From Flocq Require Import Core IEEE754.Binary IEEE754.Bits.
From Verif Require Import Base Flt Util Methods Analysis Spec Stdio Pgm Pfm Y4m Image ImageHistory SpecImage SpecFormats Demo DemoImages PgmFilm.
Open Scope list_scope.
Open Scope Z_scope.

Lemma demo_delivers H l name : forallb (fun c => (0 <=? c) && (c <? 256)) l = true -> zlen l <= LONG_MAX ->
  delivers (system_of H l) name (if String.eqb name "-" then pipe_of l else file_of l).
Proof.
  intros B L. assert (F : Forall byte_ok l).
  { apply Forall_forall. intros c I. rewrite forallb_forall in B. specialize (B c I). unfold byte_ok. lia. }
  assert (SO : forall sk, stream_ok (mkStream l 0 false false sk)).
  { intros sk. split; [exact F|]. cbn [s_pos s_rest s_seekable]. split; [lia|]. intros _. lia. }
  destruct (String.eqb_spec name "-") as [Q|Q]; (split; [reflexivity|]); (split; [apply SO|]); split; intros; try contradiction; reflexivity.
Qed.
Lemma not_white l : forallb (fun c => negb ((c =? 32) || (9 <=? c) && (c <=? 13))) l = true -> Forall (fun c => ~ white c) l.
Proof.
  intros B. apply Forall_forall. intros c I. rewrite forallb_forall in B. specialize (B c I). unfold white. lia.
Qed.

(** PGM, with a comment *)
Definition demo_pgm_head : list Z := chars "P5" ++ [10] ++ chars "# by hand" ++ [10] ++ chars "3 2" ++ [10] ++ chars "255" ++ [10].
Definition demo_samples : list Z := [0; 51; 102; 153; 204; 255].
Definition demo_pgm_file : list Z := demo_pgm_head ++ demo_samples ++ [].
Definition demo_values : list f32 := map (fun c => fdiv (f32_of_Z c) (f32_of_Z 255)) demo_samples.
Lemma demo_pgm_head_ok : pgm_head 3 2 255 demo_pgm_head.
Proof.
  exists (chars "255"). split. { exact (spells_next [50; 53] 25 53 (spells_next [50] 2 53 (spells_digit 50 ltac:(unfold digit; lia)) ltac:(unfold digit; lia)) ltac:(unfold digit; lia)). }
  exists [10], (chars "# by hand" ++ [10]), [], [51], [32], [50], [10], 10.
  assert (W10 : white 10) by (right; lia). assert (W32 : white 32) by (left; reflexivity).
  split; [split; [discriminate|constructor; [exact W10|constructor]]|].
  split; [apply (comments_one (chars " by hand") []); [vm_compute; intuition discriminate|constructor]|].
  split; [constructor|]. split; [exact (spells_digit 51 ltac:(unfold digit; lia))|]. split; [split; [discriminate|constructor; [exact W32|constructor]]|].
  split; [exact (spells_digit 50 ltac:(unfold digit; lia))|]. split; [split; [discriminate|constructor; [exact W10|constructor]]|]. split; [exact W10|]. reflexivity.
Qed.
Lemma demo_values_ok : Forall2 (fun c v => quotient c 255 v) demo_samples demo_values.
Proof. unfold demo_values, demo_samples. cbn [map]. repeat constructor; apply quotient_div; lia. Qed.
Lemma demo_pgm_film : film demo_env demo_host 3 2 demo_pgm_file "PGM" (within demo_env 3 2 1) [demo_values].
Proof. apply (film_pgm _ _ 3 2 255); [exact demo_pgm_head_ok|lia|reflexivity|exact demo_values_ok]. Qed.

(** PFM: two grey frames of 1x2, one little endian and one big endian *)
Definition f1 : f32 := f32_of_Z 1.
Definition demo_pfm_head (scale : string) : list Z := chars "Pf" ++ [10] ++ chars "1 2" ++ [10] ++ chars scale ++ [10].
Definition demo_pfm_file : list Z :=
  (demo_pfm_head "-1.0" ++ [0; 0; 128; 63] ++ [0; 0; 0; 0]) ++ (demo_pfm_head "1.0" ++ [0; 0; 0; 0] ++ [63; 128; 0; 0]) ++ [].
Lemma demo_scales (little : bool) : scale_text demo_host little (chars (if little then "-1.0" else "1.0")).
Proof.
  assert (V1 : is_finite 24 128 f1 = true /\ (0 < B2R 24 128 f1)%R).
    { destruct (FltProofs.f32_of_Z_exact 1 ltac:(lia)) as (A & _ & B). split; [exact A|]. unfold f1. rewrite B. apply IZR_lt. lia. }
    assert (VM : is_finite 24 128 (f32_of_Z (-1)) = true /\ (B2R 24 128 (f32_of_Z (-1)) < 0)%R).
    { assert (FM : is_finite 24 128 (f32_of_Z (-1)) = true) by (vm_compute; reflexivity). split; [exact FM|].
      pose proof (proj1 (FltProofs.flt_spec (f32_of_Z (-1)) f0 FM eq_refl) ltac:(vm_compute; reflexivity)) as L. exact L. }
    destruct little.
    + exists (f32_of_Z (-1)). split; [split; [split; [discriminate|apply not_white; reflexivity]|intros c l _; reflexivity]|]. split; [apply VM|]. split; intros _; [apply VM|reflexivity].
    + exists f1. split; [split; [split; [discriminate|apply not_white; reflexivity]|intros c l _; reflexivity]|]. split; [apply V1|].
      split; [discriminate|]. intros H. elim (Rlt_irrefl 0). apply Rlt_trans with (B2R 24 128 f1); [apply V1|exact H].
Qed.
Lemma demo_scale_ok : scale_text demo_host true (chars "-1.0").
Proof. exact (demo_scales true). Qed.
Lemma demo_head_ok (little : bool) : pfm_head demo_host little false 1 2 (demo_pfm_head (if little then "-1.0" else "1.0")).
Proof.
  exists (chars (if little then "-1.0" else "1.0")). split; [apply demo_scales|].
  { exists [10], [], [], [49], [32], [50], [10], 10.
    assert (W10 : white 10) by (right; lia). assert (W32 : white 32) by (left; reflexivity).
    split; [split; [discriminate|constructor; [exact W10|constructor]]|]. split; [constructor|].
    split; [constructor|]. split; [exact (spells_digit 49 ltac:(unfold digit; lia))|]. split; [split; [discriminate|constructor; [exact W32|constructor]]|].
    split; [exact (spells_digit 50 ltac:(unfold digit; lia))|]. split; [split; [discriminate|constructor; [exact W10|constructor]]|]. split; [exact W10|]. destruct little; reflexivity. }
Qed.
Lemma demo_bytes : float_bytes true f1 = [0; 0; 128; 63] /\ float_bytes false f1 = [63; 128; 0; 0] /\ float_bytes true f0 = [0; 0; 0; 0] /\ float_bytes false f0 = [0; 0; 0; 0].
Proof. repeat split; vm_compute; reflexivity. Qed.
Lemma demo_plane little a b : plane_bytes little false 1 2 [a; b] (float_bytes little b ++ float_bytes little a).
Proof.
  exists [[a]; [b]], [float_bytes little a; float_bytes little b]. split; [reflexivity|]. split; [repeat constructor|]. split; [reflexivity|].
  split; [|cbn; rewrite app_nil_r; reflexivity]. repeat constructor; eexists [_]; (split; [constructor; [constructor|constructor]|cbn; rewrite app_nil_r; reflexivity]).
Qed.
Lemma demo_pfm_frames_ok : pfm_frames demo_host (Some false) 1 2 [] [[f0; f1]; [f1; f0]] demo_pfm_file.
Proof.
  destruct demo_bytes as (B1 & B2 & B3 & B4).
  apply (pfm_frames_one _ _ _ _ _ false); [congruence| |apply (pfm_frames_one _ _ _ _ _ false); [congruence| |constructor]].
  - exists true. eexists _, _. split; [exact (demo_head_ok true)|]. split; [apply demo_plane|]. rewrite B1, B3. reflexivity.
  - exists false. eexists _, _. split; [exact (demo_head_ok false)|]. split; [apply demo_plane|]. rewrite B2, B4. reflexivity.
Qed.
Lemma demo_pfm_film : film demo_env demo_host 1 2 demo_pfm_file "PFM" (within demo_env 1 2 1) [[f0; f1]; [f1; f0]].
Proof. apply (film_pfm _ _ 1 2 false); [exact demo_pfm_frames_ok|discriminate]. Qed.

(** YUV4MPEG2: two frames of 2x2, 4:2:0 *)
Definition demo_y4m_head : list Z := Y4m.chars "YUV4MPEG2" ++ [32] ++ Y4m.chars "W2" ++ [32] ++ Y4m.chars "H2" ++ [32] ++ Y4m.chars "F25:1" ++ [10].
Definition demo_y4m_frames : list Z :=
  (Y4m.chars "FRAME" ++ [] ++ [10] ++ [0; 51; 102; 255] ++ [128; 128]) ++ (Y4m.chars "FRAME" ++ Y4m.chars " Ip" ++ [10] ++ [255; 0; 51; 102] ++ [128; 128]) ++ [].
Definition demo_y4m_file : list Z := demo_y4m_head ++ demo_y4m_frames.
Definition value_of (c : Z) : f32 := fdiv (f32_of_Z c) (f32_of_Z 255).
Lemma demo_y4m_head_ok : y4m_head 2 2 S420 8 demo_y4m_head.
Proof.
  exists [PWidth 2; PHeight 2; POther 70 (Y4m.chars "25:1")], ([32] ++ Y4m.chars "W2" ++ [32] ++ Y4m.chars "H2" ++ [32] ++ Y4m.chars "F25:1" ++ [10]), (Y4m.chars "420jpeg").
  split.
  { apply (params_next (PWidth 2) _ [32] (87 :: [50])); [repeat constructor|discriminate|constructor; exact (spells_digit 50 ltac:(unfold digit; lia))|].
    apply (params_next (PHeight 2) _ [32] (72 :: [50])); [repeat constructor|discriminate|constructor; exact (spells_digit 50 ltac:(unfold digit; lia))|].
    apply (params_next (POther 70 _) _ [32] (70 :: Y4m.chars "25:1")); [repeat constructor|discriminate| |apply (params_end []); constructor].
    constructor; [unfold white; lia|cbn; lia|]. split; [discriminate|]. apply not_white; reflexivity. }
  split; [|split; [apply cs_420; cbn; auto|reflexivity]].
  split; [cbn; auto|]. split; [cbn; intuition congruence|]. split; [cbn; auto|]. split; [cbn; intuition congruence|].
  split; [cbn; intuition congruence|]. right. split; [cbn; intuition congruence|reflexivity].
Qed.
Lemma demo_y4m_frames_ok : y4m_frames 2 2 S420 8 [] [[0; 51; 102; 255]; [255; 0; 51; 102]] demo_y4m_frames.
Proof.
  constructor; [|constructor; [|constructor]].
  - exists [], [128; 128]. split; [cbn; auto|]. split; [reflexivity|]. split; [repeat constructor; reflexivity || (cbn; discriminate)|]. split; reflexivity.
  - exists (Y4m.chars " Ip"), [128; 128]. split; [vm_compute; intuition discriminate|]. split; [reflexivity|]. split; [repeat constructor; reflexivity || (cbn; discriminate)|]. split; reflexivity.
Qed.
Lemma demo_y4m_film : film demo_env demo_host 2 2 demo_y4m_file "Y4M" (y4m_within demo_env 2 2 S420 8)
  (map (map value_of) [[0; 51; 102; 255]; [255; 0; 51; 102]]).
Proof.
  eapply film_y4m; [exact demo_y4m_head_ok|exact demo_y4m_frames_ok|]. cbn [map]. repeat constructor; apply (quotient_div _ 255); lia.
Qed.
