(** What a frame read stores, for arbitrary streams: the values do not depend on what the
    buffer held. *)
From Coq Require Import Permutation.
From Verif Require Import Base BaseProofs Flt Spec Util Methods Analysis WorldProofs UtilProofs
  Stdio StdioProofs Pgm Pfm Y4m Image ImageHistory ImageSafe.
Open Scope list_scope.
Open Scope Z_scope.

(** [l] written at index [i] *)
Definition splice (image : list (option f32)) (i : Z) (l : list f32) : list (option f32) :=
  firstn (Z.to_nat i) image ++ map Some l ++ skipn (Z.to_nat i + length l) image.
Lemma splice_zlen image i l : 0 <= i -> i + zlen l <= zlen image -> zlen (splice image i l) = zlen image.
Proof.
  intros I B. unfold splice, zlen in *. rewrite !app_length, map_length, firstn_length, skipn_length. lia.
Qed.
Lemma splice_0 image l : splice image 0 l = map Some l ++ skipn (length l) image.
Proof. reflexivity. Qed.
Lemma splice_nil image i : splice image i [] = image.
Proof. unfold splice. cbn [map app length]. rewrite Nat.add_0_r. apply firstn_skipn. Qed.
Lemma upd_app {A} (a : list A) x v b : upd (a ++ x :: b) (length a) v = a ++ v :: b.
Proof. induction a as [|y a IH]; [reflexivity|]. cbn. rewrite IH. reflexivity. Qed.
Lemma set_splice image i v : 0 <= i < zlen image -> set image i (Some v) = Ok (splice image i [v]).
Proof.
  intros I. rewrite set_upd by exact I. f_equal. unfold splice. cbn [map length app].
  assert (exists a x b, image = a ++ x :: b /\ length a = Z.to_nat i) as (a & x & b & -> & L).
  { exists (firstn (Z.to_nat i) image). destruct (skipn (Z.to_nat i) image) as [|x b] eqn:Q.
    - exfalso. apply (f_equal (@length _)) in Q. rewrite skipn_length in Q. unfold zlen in I. cbn in Q. lia.
    - exists x, b. rewrite <- Q. split; [symmetry; apply firstn_skipn|]. rewrite firstn_length. unfold zlen in I. lia. }
  rewrite <- L. rewrite upd_app, firstn_app, Nat.sub_diag, firstn_all. cbn [firstn]. rewrite app_nil_r.
  f_equal. f_equal. rewrite skipn_app. rewrite skipn_all2 by lia. replace (length a + 1 - length a)%nat with 1%nat by lia. reflexivity.
Qed.
Lemma splice_splice image i l l' : 0 <= i -> i + zlen l + zlen l' <= zlen image ->
  splice (splice image i l) (i + zlen l) l' = splice image i (l ++ l').
Proof.
  intros I B. unfold splice, zlen in *. replace (Z.to_nat (i + Z.of_nat (length l))) with (Z.to_nat i + length l)%nat by lia.
  set (a := firstn (Z.to_nat i) image). set (m := map Some l). set (t := skipn (Z.to_nat i + length l) image).
  assert (LM : length (a ++ m) = (Z.to_nat i + length l)%nat) by (unfold a, m; rewrite app_length, map_length, firstn_length; lia).
  rewrite (app_assoc a m t), firstn_app, LM, Nat.sub_diag, firstn_all2 by lia. cbn [firstn]. rewrite app_nil_r.
  rewrite skipn_app, LM, (skipn_all2 (a ++ m)) by lia. cbn [app]. unfold t. rewrite skipn_skipn, map_app, app_length, <- !app_assoc.
  do 3 f_equal. f_equal. lia.
Qed.

Lemma store_splice : forall l image i, 0 <= i -> i + zlen l <= zlen image -> store image i l = Ok (splice image i l).
Proof.
  induction l as [|v l IH]; intros image i I B; [rewrite splice_nil; reflexivity|].
  rewrite zlen_cons in B. pose proof (zlen_nonneg l). cbn [store]. rewrite set_splice by lia. cbn [bind].
  assert (Z1 : zlen (splice image i [v]) = zlen image) by (apply splice_zlen; [exact I|]; rewrite zlen_cons; change (zlen (@nil f32)) with 0; lia).
  rewrite IH by lia. f_equal. change (v :: l) with ([v] ++ l). rewrite <- splice_splice; [reflexivity|exact I|].
  rewrite zlen_cons. change (zlen (@nil f32)) with 0. lia.
Qed.

(** ** Streams *)
Lemma with_rest_self s : with_rest s (s_rest s) = s.
Proof. destruct s. unfold with_rest. cbn. f_equal. lia. Qed.
Lemma with_rest_with s r r' : with_rest (with_rest s r) r' = with_rest s r'.
Proof. unfold with_rest. cbn. f_equal. lia. Qed.
Lemma at_end_with s r : at_end (with_rest s r) = at_end s.
Proof. unfold with_rest, at_end. cbn. f_equal. lia. Qed.

(** ** PGM *)
Definition pgm_value (depth c : Z) : f32 := fdiv (f32_of_Z c) (f32_of_Z depth).
Lemma pgm_samples_full depth : forall n i image s, 0 <= i -> i + Z.of_nat n <= zlen image ->
  if (n <=? length (s_rest s))%nat
  then pgm_samples n i depth image s = Ok (true, splice image i (map (pgm_value depth) (firstn n (s_rest s))), with_rest s (skipn n (s_rest s)))
  else exists image', pgm_samples n i depth image s = Ok (false, image', at_end s) /\ zlen image' = zlen image.
Proof.
  induction n as [|n IH]; intros i image s I B.
  { cbn. rewrite splice_nil, with_rest_self. reflexivity. }
  cbn [pgm_samples]. unfold fgetc. destruct (s_rest s) as [|c r] eqn:R.
  { cbn. eauto. }
  assert (LI : 0 <= i < zlen image) by lia. rewrite set_splice by exact LI. cbn [bind].
  fold (pgm_value depth c).
  assert (Z1 : zlen (splice image i [pgm_value depth c]) = zlen image).
  { apply splice_zlen; [exact I|]. rewrite zlen_cons. change (zlen (@nil f32)) with 0. lia. }
  specialize (IH (i + 1) (splice image i [pgm_value depth c]) (with_rest s r)).
  cbn [s_rest with_rest] in IH. fold (with_rest s r) in IH.
  cbn [length Nat.leb]. destruct (n <=? length r)%nat eqn:N.
  - rewrite IH by lia. cbn [firstn map skipn]. rewrite with_rest_with. f_equal. f_equal. f_equal.
    change (pgm_value depth c :: map (pgm_value depth) (firstn n r)) with ([pgm_value depth c] ++ map (pgm_value depth) (firstn n r)).
    rewrite <- splice_splice; [reflexivity|exact I|]. rewrite zlen_cons. change (zlen (@nil f32)) with 0.
    unfold zlen at 1. rewrite map_length, firstn_length. unfold zlen in *. lia.
  - destruct IH as (im & -> & Z2); [lia|lia|]. exists im. rewrite at_end_with. split; [reflexivity|congruence].
Qed.

(** a read that gives the same for every buffer: what it returns, and the values *)
Definition steady {C} (n : Z) (read : list (option f32) -> res (bool * Z * list (option f32) * C)) (b : bool) (e : Z) (vs : list f32) (c' : C) : Prop :=
  (b = true -> zlen vs = n) /\
  forall image, n <= zlen image -> exists image', read image = Ok (b, e, image', c') /\ zlen image' = zlen image /\
    (b = true -> image' = map Some vs ++ skipn (Z.to_nat n) image).

Lemma pgm_read_full c width height : sane width height -> 
  let n := Z.to_nat (width * height) in
  let put s := mkPgm (pg_blk c) (pg_file c) s true (pg_depth c) in
  if pg_eof c then steady (width * height) (fun image => pgm_read c image width height) false RDEOK [] c
  else if (n <=? length (s_rest (pg_s c)))%nat
  then steady (width * height) (fun image => pgm_read c image width height) true RDEOK
         (map (pgm_value (pg_depth c)) (firstn n (s_rest (pg_s c)))) (put (with_rest (pg_s c) (skipn n (s_rest (pg_s c)))))
  else steady (width * height) (fun image => pgm_read c image width height) false RDEINVAL [] (put (at_end (pg_s c))).
Proof.
  intros D n put. unfold pgm_read. assert (W : 0 <= width * height) by (destruct D as (? & ? & ?); nia).
  destruct (pg_eof c).
  { split; [discriminate|]. intros image L. exists image. split; [reflexivity|]. split; [reflexivity|discriminate]. }
  rewrite (dims_wrap _ _ D).
  pose proof (fun image L => pgm_samples_full (pg_depth c) n 0 image (pg_s c) (Z.le_refl 0) L) as F.
  destruct (n <=? length (s_rest (pg_s c)))%nat eqn:N.
  - split. { intros _. unfold zlen. rewrite map_length, firstn_length. lia. }
    intros image L. fold n. rewrite F by lia. cbn [bind]. eexists. split; [reflexivity|].
    assert (LV : length (map (pgm_value (pg_depth c)) (firstn n (s_rest (pg_s c)))) = n) by (rewrite map_length, firstn_length; lia).
    split; [apply splice_zlen; [lia|unfold zlen in *; lia]|]. intros _. rewrite splice_0, LV. reflexivity.
  - split; [discriminate|]. intros image L. fold n. destruct (F image) as (im & -> & Z1); [lia|]. cbn [bind].
    exists im. split; [reflexivity|]. split; [exact Z1|discriminate].
Qed.

(** ** PFM *)
Section Planes.
Variable px : list Z -> f32.    (* value of a pixel from its bytes *)
Variable k : nat.               (* bytes per pixel *)
Fixpoint pixels (n : nat) (l : list Z) : list f32 :=
  match n with O => [] | S n => px (firstn k l) :: pixels n (skipn k l) end.
Lemma pixels_length n : forall l, length (pixels n l) = n.
Proof. induction n; intros; cbn; auto. Qed.
Fixpoint lines (w n : nat) (l : list Z) : list (list f32) :=
  match n with O => [] | S n => pixels w l :: lines w n (skipn (w * k) l) end.
(** the frame: the last line of the file comes first *)
Definition plane (w h : nat) (l : list Z) : list f32 := concat (rev (lines w h l)).
Lemma lines_length w n : forall l, length (lines w n l) = n.
Proof. induction n; intros; cbn; auto. Qed.
Lemma plane_length w h l : length (plane w h l) = (h * w)%nat.
Proof.
  unfold plane. revert l. induction h as [|h IH]; intros l; [reflexivity|].
  cbn [lines rev]. rewrite concat_app, app_length, IH. cbn [concat]. rewrite app_nil_r, pixels_length. lia.
Qed.

(** reading one pixel, one line: complete, or at the end of the stream *)
Definition pixel_read (w : Z) (body : Z -> plane_state -> res (bool * plane_state)) (base : Z) : Prop :=
  forall i image s, 0 <= i < w -> base + w <= zlen image ->
  if (k <=? length (s_rest s))%nat
  then body i (image, s) = Ok (true, (splice image (base + i) [px (firstn k (s_rest s))], with_rest s (skipn k (s_rest s))))
  else exists image', body i (image, s) = Ok (false, (image', at_end s)) /\ zlen image' = zlen image.

Lemma pixel_loop w body base : 0 <= base -> pixel_read w body base -> forall n i image s, 0 <= i -> i + Z.of_nat n <= w ->
  base + w <= zlen image ->
  if (n * k <=? length (s_rest s))%nat
  then all_of n i body (image, s) = Ok (true, (splice image (base + i) (pixels n (s_rest s)), with_rest s (skipn (n * k) (s_rest s))))
  else exists image', all_of n i body (image, s) = Ok (false, (image', at_end s)) /\ zlen image' = zlen image.
Proof.
  intros B0 P. induction n as [|n IH]; intros i image s I W B.
  { cbn. rewrite splice_nil, with_rest_self. reflexivity. }
  cbn [all_of]. specialize (P i image s). destruct (k <=? length (s_rest s))%nat eqn:K1.
  - rewrite P by lia. cbn [bind].
    set (im1 := splice image (base + i) [px (firstn k (s_rest s))]).
    assert (Z1 : zlen im1 = zlen image).
    { apply splice_zlen; [lia|]. rewrite zlen_cons. change (zlen (@nil f32)) with 0. lia. }
    specialize (IH (i + 1) im1 (with_rest s (skipn k (s_rest s)))).
    cbn [s_rest with_rest] in IH. rewrite skipn_length in IH. fold (with_rest s (skipn k (s_rest s))) in IH.
    replace (S n * k <=? length (s_rest s))%nat with (n * k <=? length (s_rest s) - k)%nat
      by (destruct (Nat.leb_spec (n * k) (length (s_rest s) - k)); destruct (Nat.leb_spec (S n * k) (length (s_rest s))); lia).
    destruct (n * k <=? length (s_rest s) - k)%nat eqn:N.
    + rewrite IH by lia. rewrite with_rest_with, skipn_skipn. f_equal. f_equal. f_equal.
      cbn [pixels]. change (px (firstn k (s_rest s)) :: pixels n (skipn k (s_rest s))) with ([px (firstn k (s_rest s))] ++ pixels n (skipn k (s_rest s))).
        rewrite <- splice_splice; [f_equal; rewrite zlen_cons; change (zlen (@nil f32)) with 0; lia|lia|].
        rewrite zlen_cons. change (zlen (@nil f32)) with 0. unfold zlen at 1. rewrite pixels_length. lia.
    + destruct IH as (im & -> & Z2); [lia|lia|lia|]. rewrite at_end_with. exists im. split; [reflexivity|lia].
  - destruct P as (im & -> & Z1); [lia|lia|]. cbn [bind].
    destruct (Nat.leb_spec (S n * k) (length (s_rest s))); [lia|]. exists im. auto.
Qed.

Definition line_read (w h : Z) (body : Z -> plane_state -> res (bool * plane_state)) : Prop :=
  forall j image s, 0 <= j < h -> w * h <= zlen image ->
  if (Z.to_nat w * k <=? length (s_rest s))%nat
  then body j (image, s) = Ok (true, (splice image ((h - j - 1) * w) (pixels (Z.to_nat w) (s_rest s)), with_rest s (skipn (Z.to_nat w * k) (s_rest s))))
  else exists image', body j (image, s) = Ok (false, (image', at_end s)) /\ zlen image' = zlen image.

Lemma splice_before image i l l' : 0 <= i -> i + zlen l + zlen l' <= zlen image ->
  splice (splice image (i + zlen l) l') i l = splice image i (l ++ l').
Proof.
  intros I B. unfold splice. unfold zlen in *. replace (Z.to_nat (i + Z.of_nat (length l))) with (Z.to_nat i + length l)%nat by lia.
  set (a := Z.to_nat i). set (n := length l). set (n' := length l').
  assert (LF : length (firstn (a + n) image) = (a + n)%nat) by (rewrite firstn_length; lia).
  rewrite firstn_app, LF. replace (a - (a + n))%nat with 0%nat by lia. cbn [firstn]. rewrite app_nil_r.
  rewrite firstn_firstn, Nat.min_l by lia. f_equal. rewrite map_app, <- app_assoc. f_equal.
  rewrite skipn_app, LF, skipn_all2 by lia. rewrite Nat.sub_diag. cbn [skipn app]. rewrite app_length. f_equal. f_equal. unfold n, n'. lia.
Qed.

Lemma line_loop w h body : 1 <= w -> 1 <= h -> line_read w h body -> forall n j image s, 0 <= j -> j + Z.of_nat n = h ->
  w * h <= zlen image ->
  if (n * (Z.to_nat w * k) <=? length (s_rest s))%nat
  then all_of n j body (image, s) = Ok (true, (splice image 0 (plane (Z.to_nat w) n (s_rest s)), with_rest s (skipn (n * (Z.to_nat w * k)) (s_rest s))))
  else exists image', all_of n j body (image, s) = Ok (false, (image', at_end s)) /\ zlen image' = zlen image.
Proof.
  intros W1 H1 P. induction n as [|n IH]; intros j image s J E B.
  { cbn. rewrite with_rest_self. change (plane (Z.to_nat w) 0 (s_rest s)) with (@nil f32). reflexivity. }
  cbn [all_of]. specialize (P j image s). set (m := (Z.to_nat w * k)%nat) in *.
  destruct (m <=? length (s_rest s))%nat eqn:K1.
  - rewrite P by lia. cbn [bind]. set (row := pixels (Z.to_nat w) (s_rest s)).
    assert (ROW : zlen row = w) by (unfold zlen, row; rewrite pixels_length; lia).
    assert (HJ : h - j - 1 = Z.of_nat n) by lia. rewrite HJ. set (im1 := splice image (Z.of_nat n * w) row).
    assert (Z1 : zlen im1 = zlen image) by (apply splice_zlen; [nia|nia]).
    specialize (IH (j + 1) im1 (with_rest s (skipn m (s_rest s)))).
    cbn [s_rest with_rest] in IH. rewrite skipn_length in IH. fold (with_rest s (skipn m (s_rest s))) in IH.
    replace (S n * m <=? length (s_rest s))%nat with (n * m <=? length (s_rest s) - m)%nat
      by (destruct (Nat.leb_spec (n * m) (length (s_rest s) - m)); destruct (Nat.leb_spec (S n * m) (length (s_rest s))); lia).
    destruct (n * m <=? length (s_rest s) - m)%nat eqn:N.
    + rewrite IH by lia. rewrite with_rest_with, skipn_skipn. f_equal. f_equal. f_equal.
      unfold im1. set (pl := plane (Z.to_nat w) n (skipn m (s_rest s))).
        assert (PL : zlen pl = Z.of_nat n * w) by (unfold zlen, pl; rewrite plane_length; lia).
        replace (Z.of_nat n * w) with (0 + zlen pl) by lia. rewrite splice_before by nia.
        f_equal. unfold plane. cbn [lines rev]. rewrite concat_app. cbn [concat]. rewrite app_nil_r. reflexivity.
    + destruct IH as (im & -> & Z2); [lia|lia|lia|]. rewrite at_end_with. exists im. split; [reflexivity|lia].
  - destruct P as (im & -> & Z1); [lia|lia|]. cbn [bind].
    destruct (Nat.leb_spec (S n * m) (length (s_rest s))); [lia|]. exists im. auto.
Qed.
End Planes.

Definition gray_value (H : host) (scale : f32) (b : list Z) : f32 := float_of_bytes H (if host_order H scale then b else rev b).
Definition rgb_value (H : host) (scale : f32) (b : list Z) : f32 :=
  grey (gray_value H scale (firstn 4 b)) (gray_value H scale (firstn 4 (skipn 4 b))) (gray_value H scale (firstn 4 (skipn 8 b))).
Definition pfm_value (H : host) (scale : f32) (format : Z) : list Z -> f32 :=
  if format =? 102 then gray_value H scale else rgb_value H scale.
Definition pfm_bytes (format : Z) : nat := if format =? 102 then 4 else 12.

Lemma words_pixels H : forall n l, length l = (n * 4)%nat -> map (float_of_bytes H) (words l) = pixels (float_of_bytes H) 4 n l.
Proof.
  induction n as [|n IH]; intros l L.
  - destruct l; [reflexivity|discriminate].
  - destruct l as [|a [|b [|c [|d l]]]]; try (cbn in L; lia). cbn [words map pixels firstn skipn]. f_equal. apply IH. cbn in L. lia.
Qed.
Lemma pixels_firstn px k n : forall l, pixels px k n (firstn (n * k) l) = pixels px k n l.
Proof.
  induction n as [|n IH]; intros l; [reflexivity|]. cbn [pixels]. f_equal.
  - rewrite firstn_firstn, Nat.min_l by lia. reflexivity.
  - rewrite <- (IH (skipn k l)). f_equal. rewrite firstn_skipn_comm. cbn. f_equal.
Qed.
Lemma words_short n : forall l, (length l < n * 4)%nat -> (length (words l) < n)%nat.
Proof. intros l L. pose proof (words_len l). lia. Qed.

Lemma fread4_full n s : 0 <= n ->
  if (Z.to_nat n * 4 <=? length (s_rest s))%nat
  then fread4 n s = (words (firstn (Z.to_nat n * 4) (s_rest s)), with_rest s (skipn (Z.to_nat n * 4) (s_rest s)))
  else fread4 n s = (words (s_rest s), at_end s).
Proof.
  intros N. unfold fread4, fread. replace (Z.to_nat (4 * n)) with (Z.to_nat n * 4)%nat by lia. unfold zlen.
  destruct (Nat.leb_spec (Z.to_nat n * 4) (length (s_rest s))); destruct (Z.ltb_spec (Z.of_nat (length (s_rest s))) (4 * n)); try lia; reflexivity.
Qed.

Lemma read_plane_full H width height scale format image s : sane width height -> width * height <= zlen image ->
  let n := (Z.to_nat height * (Z.to_nat width * pfm_bytes format))%nat in
  if (n <=? length (s_rest s))%nat
  then read_plane H width height scale format (image, s) =
    Ok (true, (splice image 0 (plane (pfm_value H scale format) (pfm_bytes format) (Z.to_nat width) (Z.to_nat height) (s_rest s)), with_rest s (skipn n (s_rest s))))
  else exists image', read_plane H width height scale format (image, s) = Ok (false, (image', at_end s)) /\ zlen image' = zlen image.
Proof.
  intros D L n. assert (D' := D). destruct D' as (D1 & D2 & _).
  unfold read_plane, pfm_value, pfm_bytes in *. destruct (format =? 102) eqn:F.
  - unfold read_gray. unfold gray_value. destruct (host_order H scale) eqn:HO.
    + apply (line_loop (fun b => float_of_bytes H b) 4 width height); try assumption; try lia.
      intros j im s0 J LI. pose proof (fread4_full width s0) as F4. specialize (F4 ltac:(lia)).
      destruct (Z.to_nat width * 4 <=? length (s_rest s0))%nat eqn:N; rewrite F4.
      * assert (LF : length (firstn (Z.to_nat width * 4) (s_rest s0)) = (Z.to_nat width * 4)%nat) by (rewrite firstn_length; lia).
        pose proof (words_pixels H _ _ LF) as WP. rewrite pixels_firstn in WP.
        assert (WL : length (words (firstn (Z.to_nat width * 4) (s_rest s0))) = Z.to_nat width).
        { rewrite <- (map_length (float_of_bytes H)), WP. apply pixels_length. }
        destruct (row_index width height j 0 D J) as (E0 & R0); [lia|]. rewrite !Z.add_0_r in *.
        rewrite E0. rewrite WP. rewrite store_splice; [|lia|unfold zlen; rewrite pixels_length; unfold zlen in LI; nia].
        cbn [bind]. replace (zlen (words (firstn (Z.to_nat width * 4) (s_rest s0))) <? width) with false
          by (symmetry; apply Z.ltb_ge; unfold zlen; lia). reflexivity.
      * pose proof (words_short (Z.to_nat width) (s_rest s0)) as WS.
        destruct (row_index width height j 0 D J) as (E0 & R0); [lia|]. rewrite !Z.add_0_r in *. rewrite E0.
        destruct (store_ok (map (float_of_bytes H) (words (s_rest s0))) im ((height - j - 1) * width)) as (im1 & -> & Z1);
          [lia|unfold zlen; rewrite map_length; unfold zlen in LI; nia|]. cbn [bind].
        replace (zlen (words (s_rest s0)) <? width) with true by (symmetry; apply Z.ltb_lt; unfold zlen; lia).
        eauto.
    + apply (line_loop (fun b => float_of_bytes H (rev b)) 4 width height); try assumption; try lia.
      intros j im s0 J LI. destruct (row_index width height j 0 D J) as (E0 & R0); [lia|]. rewrite !Z.add_0_r in *.
      pose proof (pixel_loop (fun b => float_of_bytes H (rev b)) 4 width) as PL.
      set (body := fun i '(image, s) => let '(l, s) := fread4 1 s in
        match l with [] => Ok (false, (image, s)) | b :: _ => image <- set image (wrap ((height - j - 1) * width + i)) (Some (float_of_bytes H (rev b))) ;; Ok (true, (image, s)) end).
      specialize (PL body ((height - j - 1) * width) ltac:(lia)).
      assert (PR : pixel_read (fun b => float_of_bytes H (rev b)) 4 width body ((height - j - 1) * width)).
      { intros i im0 s1 I LI0. pose proof (fread4_full 1 s1 ltac:(lia)) as F4. change (Z.to_nat 1 * 4)%nat with 4%nat in F4. unfold body.
        destruct (row_index width height j i D J) as (E1 & R1); [lia|]. rewrite E1.
        destruct (4 <=? length (s_rest s1))%nat eqn:N; rewrite F4; cbn [fst snd].
        - destruct (s_rest s1) as [|b0 [|b1 [|b2 [|b3 l]]]]; try discriminate N.
          cbn [firstn skipn words]. rewrite set_splice by lia. reflexivity.
        - destruct (s_rest s1) as [|b0 [|b1 [|b2 [|b3 l]]]]; try discriminate N; cbn [words]; eauto. }
      specialize (PL PR (Z.to_nat width) 0 im s0). rewrite Z.add_0_r in PL. apply PL; [lia|lia|nia].
  - unfold read_rgb. apply (line_loop (rgb_value H scale) 12 width height); try assumption; try lia.
    intros j im s0 J LI. destruct (row_index width height j 0 D J) as (E0 & R0); [lia|]. rewrite !Z.add_0_r in *.
    pose proof (pixel_loop (rgb_value H scale) 12 width) as PL.
    match goal with |- context [all_of (Z.to_nat width) 0 ?b] => set (body := b) end.
    specialize (PL body ((height - j - 1) * width) ltac:(lia)).
    assert (PR : pixel_read (rgb_value H scale) 12 width body ((height - j - 1) * width)).
    { intros i im0 s1 I LI0. pose proof (fread4_full 3 s1 ltac:(lia)) as F4. change (Z.to_nat 3 * 4)%nat with 12%nat in F4. unfold body.
      destruct (row_index width height j i D J) as (E1 & R1); [lia|]. rewrite E1.
      destruct (12 <=? length (s_rest s1))%nat eqn:N; rewrite F4; cbn [fst snd].
      - destruct (s_rest s1) as [|b0 [|b1 [|b2 [|b3 [|b4 [|b5 [|b6 [|b7 [|b8 [|b9 [|b10 [|b11 l]]]]]]]]]]]]; try discriminate N.
        cbn [firstn skipn words]. rewrite set_splice by lia. reflexivity.
      - destruct (s_rest s1) as [|b0 [|b1 [|b2 [|b3 [|b4 [|b5 [|b6 [|b7 [|b8 [|b9 [|b10 [|b11 l]]]]]]]]]]]]; try discriminate N; cbn [words]; eauto. }
    specialize (PL PR (Z.to_nat width) 0 im s0). rewrite Z.add_0_r in PL. apply PL; [lia|lia|nia].
Qed.

Definition pfm_put (c : pfm_context) (s : stream) (consumed : bool) : pfm_context :=
  mkPfm (pf_blk c) (pf_file c) s (pf_scale c) (pf_format c) consumed.
Definition pfm_size (width height format : Z) : nat := (Z.to_nat height * (Z.to_nat width * pfm_bytes format))%nat.
Lemma pfm_read_full H c width height b e c1 : sane width height -> pfm_next_header H c width height = Ok (b, e, c1) ->
  let n := pfm_size width height (pf_format c1) in
  let l := s_rest (pf_s c1) in
  if negb b then steady (width * height) (fun image => pfm_read H c image width height) false e [] c1
  else if (n <=? length l)%nat
  then steady (width * height) (fun image => pfm_read H c image width height) true RDEOK
         (plane (pfm_value H (pf_scale c1) (pf_format c1)) (pfm_bytes (pf_format c1)) (Z.to_nat width) (Z.to_nat height) l)
         (pfm_put c1 (with_rest (pf_s c1) (skipn n l)) false)
  else steady (width * height) (fun image => pfm_read H c image width height) false RDEINVAL [] (pfm_put c1 (at_end (pf_s c1)) (pf_consumed c1)).
Proof.
  intros D EH n l. unfold pfm_read. rewrite EH. cbn [bind]. destruct b; cbn [negb].
  2: { split; [discriminate|]. intros image L. exists image. split; [reflexivity|]. split; [reflexivity|discriminate]. }
  pose proof (fun image => read_plane_full H width height (pf_scale c1) (pf_format c1) image (pf_s c1) D) as F.
  fold l in F. cbv zeta in F. fold (pfm_size width height (pf_format c1)) in F. fold n in F.
  assert (W : 0 <= width * height) by (destruct D as (? & ? & ?); nia).
  destruct (n <=? length l)%nat eqn:N.
  - set (vs := plane _ _ _ _ l) in *.
    assert (LV : length vs = Z.to_nat (width * height)) by (unfold vs; rewrite plane_length; destruct D as (? & ? & ?); nia).
    split; [intros _; unfold zlen; lia|]. intros image L. rewrite F by exact L. cbn [bind].
    eexists. split; [reflexivity|]. split; [apply splice_zlen; [lia|unfold zlen in *; lia]|]. intros _. rewrite splice_0, LV. reflexivity.
  - split; [discriminate|]. intros image L. destruct (F image L) as (im & -> & Z1). cbn [bind]. exists im. split; [reflexivity|]. split; [exact Z1|discriminate].
Qed.

(** ** Y4M *)
Definition y4m_sample (H : host) (depth : Z) (l : list Z) (i : Z) : Z :=
  if depth >? 8 then (if h_little H then at_ 0 l (2 * i) + 256 * at_ 0 l (2 * i + 1) else at_ 0 l (2 * i + 1) + 256 * at_ 0 l (2 * i))
  else at_ 0 l i.
Definition y4m_value (H : host) (depth : Z) (l : list Z) (i : Z) : f32 :=
  fdiv (f32_of_Z (y4m_sample H depth l i)) (f32_of_Z (2 ^ depth - 1)).
Lemma at_firstn {A} (d : A) l n i : 0 <= i < Z.of_nat n -> at_ d (firstn n l) i = at_ d l i.
Proof.
  intros I. unfold at_. rewrite <- (firstn_skipn n l) at 2. destruct (Nat.lt_ge_cases (Z.to_nat i) (length (firstn n l))) as [Q|Q].
  - rewrite app_nth1 by exact Q. reflexivity.
  - rewrite firstn_length in Q. rewrite skipn_all2 by lia. rewrite app_nil_r. reflexivity.
Qed.
Lemma map_zrange_snoc {A} (f : Z -> A) lo hi : lo <= hi -> map f (zrange lo (hi + 1)) = map f (zrange lo hi) ++ [f hi].
Proof. intros L. rewrite zrange_snoc by lia. rewrite map_app. reflexivity. Qed.

Lemma y4m_read_full H c width height b e s1 : sane width height -> y4m_ok width height c -> y4m_frame_header (ym_s c) = (b, e, s1) ->
  exists sb, skip_buf c = Ok sb /\
  let n := Z.to_nat (ym_y c) in
  if negb b then steady (width * height) (fun image => y4m_read H c image width height) false e [] (with_stream c s1)
  else if (n <=? length (s_rest s1))%nat
  then exists e2 s2, resdet_fskip (with_rest s1 (skipn n (s_rest s1))) (ym_uv c) sb = Ok (e2, s2) /\
    steady (width * height) (fun image => y4m_read H c image width height) (e2 =? 0) e2
         (map (y4m_value H (ym_depth c) (s_rest s1)) (zrange 0 (width * height))) (with_stream c s2)
  else steady (width * height) (fun image => y4m_read H c image width height) false RDEINVAL [] (with_stream c (at_end s1)).
Proof.
  intros D K EH. destruct (skip_buf_ok _ _ _ K) as (sb & ESB & SB). exists sb. split; [exact ESB|].
  unfold y4m_read. rewrite EH.
  assert (K0 := K). destruct K0 as (KS & KD & KY & KUV & KSK & bb & size & KB & KL & KLU).
  destruct (y4m_frame_header_ok _ _ _ _ KS EH) as (L1 & T1).
  assert (WH : 0 <= width * height) by (destruct D as (? & ? & ?); nia).
  pose proof (y4m_y_nonneg width height c K WH) as Y0.
  cbv zeta. set (n := Z.to_nat (ym_y c)). destruct b; cbn [negb].
  2: { split; [discriminate|]. intros image L. exists image. split; [reflexivity|]. split; [reflexivity|discriminate]. }
  rewrite KB. cbn [bind]. destruct (ym_y c >? size) eqn:G; [lia|]. unfold fread.
  destruct (Nat.leb_spec n (length (s_rest s1))) as [N|N].
  - assert (LT : (zlen (s_rest s1) <? ym_y c) = false) by (apply Z.ltb_ge; unfold zlen, n in *; lia). rewrite LT. fold n.
    destruct (fskip_ok (with_rest s1 (skipn n (s_rest s1))) (ym_uv c) sb) as (e2 & s2 & EF & L3).
    { apply (later_ok s1). apply later_with_rest. exact (later_ok _ _ L1). } { exact KUV. } { apply SB; [auto|exact KUV]. }
    exists e2, s2. split; [exact EF|].
    assert (LF : zlen (firstn n (s_rest s1)) = ym_y c) by (unfold zlen, n in *; rewrite firstn_length; lia).
    split. { intros _. unfold zlen. rewrite map_length. fold (zlen (zrange 0 (width * height))). rewrite zlen_zrange by lia. lia. }
    intros image L. rewrite LF, Z.eqb_refl. cbn [negb]. destruct ((ym_depth c <? 0) || (ym_depth c >=? 32)) eqn:DS; [lia|].
    rewrite dims_wrap by exact D.
    match goal with |- context [for_range 0 (width * height) ?body image] =>
      destruct (for_range_inv (fun i im => im = splice image 0 (map (y4m_value H (ym_depth c) (s_rest s1)) (zrange 0 i))) body 0 (width * height) image) as (im & EI & ZI) end.
    { lia. } { rewrite zrange_empty by lia. cbn [map]. rewrite splice_nil. reflexivity. }
    { intros i im I ->.
      assert (V : (if ym_depth c >? 8 then
                    a <- get (firstn n (s_rest s1)) (wrap (i * 2)) ;;
                    b <- get (firstn n (s_rest s1)) (wrap (i * 2) + 1) ;;
                    Ok (if h_little H then a + 256 * b else b + 256 * a)
                  else get (firstn n (s_rest s1)) i) = Ok (y4m_sample H (ym_depth c) (s_rest s1) i)).
      { destruct D as (D1 & D2 & D3). unfold SIZE_MAX in D3. unfold bytes_per in KY. unfold y4m_sample.
        assert (ZBY : zlen (firstn n (s_rest s1)) = width * height * ((ym_depth c + 7) / 8)) by lia.
        destruct (ym_depth c >? 8) eqn:G8.
        - assert (B2 : (ym_depth c + 7) / 8 = 2) by (symmetry; apply Z.div_unique with (r := ym_depth c + 7 - 16); lia).
          rewrite B2 in *. rewrite wrap_small by lia. rewrite !(get_at 0) by lia. cbn [bind].
          rewrite !at_firstn by (unfold n; lia). rewrite (Z.mul_comm i 2). reflexivity.
        - assert (D8 : ym_depth c = 8) by lia. rewrite D8 in *. change ((8 + 7) / 8) with 1 in *. rewrite (get_at 0) by lia.
          rewrite at_firstn by (unfold n; lia). reflexivity. }
      rewrite V. cbn [bind]. fold (y4m_value H (ym_depth c) (s_rest s1) i).
      assert (ZL : zlen (map (y4m_value H (ym_depth c) (s_rest s1)) (zrange 0 i)) = i).
      { unfold zlen. rewrite map_length. fold (zlen (zrange 0 i)). rewrite zlen_zrange by lia. lia. }
      rewrite set_splice.
      2: { rewrite splice_zlen; lia. }
      eexists. split; [reflexivity|]. rewrite map_zrange_snoc by lia.
      rewrite <- splice_splice; [rewrite ZL; reflexivity|lia|]. rewrite ZL, zlen_cons. change (zlen (@nil f32)) with 0. lia. }
    rewrite EI. cbn [bind]. rewrite ESB. cbn [bind]. rewrite EF. cbn [bind]. subst im.
    set (vs := map _ (zrange 0 (width * height))).
    assert (ZL : zlen vs = width * height).
    { unfold zlen, vs. rewrite map_length. fold (zlen (zrange 0 (width * height))). rewrite zlen_zrange by lia. lia. }
    eexists. split; [reflexivity|]. split; [apply splice_zlen; lia|]. intros _. rewrite splice_0. f_equal. f_equal. unfold zlen in ZL. lia.
  - assert (LT : (zlen (s_rest s1) <? ym_y c) = true) by (apply Z.ltb_lt; unfold zlen, n in *; lia). rewrite LT.
    split; [discriminate|]. intros image L. exists image.
    destruct (Z.eqb_spec (zlen (s_rest s1)) (ym_y c)); [unfold zlen, n in *; lia|]. cbn [negb].
    split; [reflexivity|]. split; [reflexivity|discriminate].
Qed.

(** ** Any reader *)
Lemma reader_read_steady sz Y ctx width height : relaxed Y -> (forall x, ext_spec (y_ext Y x) (sz x)) ->
  sane width height -> ctx_ok sz width height ctx ->
  exists b e vs ctx', steady (width * height) (fun image => reader_read Y ctx image width height) b e vs ctx'.
Proof.
  intros R X D C.
  assert (L : forall K (k : K -> context) (read : list (option f32) -> res (bool * Z * list (option f32) * K)) b e vs c',
    steady (width * height) read b e vs c' ->
    steady (width * height) (fun image => '(b, e, image, c) <- read image ;; Ok (b, e, image, k c)) b e vs (k c')).
  { intros K k read b e vs c' (S1 & S2). split; [exact S1|]. intros image L. destruct (S2 image L) as (im & -> & Z1 & F). cbn [bind]. eauto. }
  destruct ctx as [c|c|c|x c]; cbn [reader_read ctx_ok] in *.
  - pose proof (pgm_read_full c width height D) as F. cbv zeta in F. destruct (pg_eof c); [|destruct (_ <=? _)%nat];
      eexists _, _, _, _; apply L; exact F.
  - destruct (pfm_next_header_ok (y_host Y) c width height R C) as (b & e & c1 & EH & _).
    pose proof (pfm_read_full _ _ _ _ _ _ _ D EH) as F. cbv zeta in F. destruct (negb b); [|destruct (_ <=? _)%nat];
      eexists _, _, _, _; apply L; exact F.
  - destruct (y4m_frame_header (ym_s c)) as [[b e] s1] eqn:EH.
    destruct (y4m_read_full (y_host Y) c width height b e s1 D C EH) as (sb & _ & F). cbv zeta in F.
    destruct (negb b); [|destruct (_ <=? _)%nat; [destruct F as (e2 & s2 & _ & F)|]]; eexists _, _, _, _; apply L; exact F.
  - destruct (X x) as (_ & _ & X3 & _). destruct (x_read (y_ext Y x) c) as [[[b e] l] c'] eqn:Q.
    destruct (X3 _ _ _ _ _ Q) as (A & B & T). exists b, e, l, (CExt x c'). rewrite C in *.
    split; [intros Hb; apply T; exact Hb|]. intros image LI. rewrite store_splice by lia. cbn [bind].
    eexists. split; [reflexivity|]. split; [apply splice_zlen; lia|]. intros Hb. destruct (T Hb) as (_ & LV & _). rewrite splice_0.
    f_equal. f_equal. unfold zlen in LV. lia.
Qed.
