(** Pictures built pixel by pixel, and the plain pixel formats. *)
From Coq Require Import ZArith List Bool Lia ZifyBool ZifyNat.
From Verif.Model Require Import Base Reader Png.
From Verif.Spec Require Import Wire Stream Pixel.
From Verif.Proofs Require Import BaseL AtL.

Lemma upto_length n : length (upto n) = Z.to_nat n.
Proof. unfold upto. rewrite map_length, seq_length. reflexivity. Qed.

Lemma upto_nth n i : 0 <= i < n -> nth_error (upto n) (Z.to_nat i) = Some i.
Proof.
  intros H. unfold upto. rewrite nth_error_map.
  rewrite (nth_error_nth' _ O) by (rewrite seq_length; lia).
  rewrite seq_nth by lia. cbn. f_equal. lia.
Qed.

Lemma in_upto n i : In i (upto n) <-> 0 <= i < n.
Proof.
  unfold upto. rewrite in_map_iff. split.
  - intros (k & <- & H). apply in_seq in H. lia.
  - intros H. exists (Z.to_nat i). split; [lia|]. apply in_seq. lia.
Qed.

Lemma upto_S n : 0 <= n -> upto (n + 1) = upto n ++ [n].
Proof.
  intros H. unfold upto. replace (Z.to_nat (n + 1)) with (S (Z.to_nat n)) by lia.
  rewrite seq_S, map_app. cbn. do 2 f_equal. lia.
Qed.

Lemma traverse_ok {A B} (f : A -> res B) g l : (forall a, In a l -> f a = Ok (g a)) -> traverse f l = Ok (map g l).
Proof.
  induction l as [|a l IH]; intros H; cbn; auto.
  rewrite (H a) by (left; reflexivity). cbn. unfold rmap. rewrite IH by (intros; apply H; right; assumption).
  reflexivity.
Qed.

Lemma traverse_inv {A B} (f : A -> res B) l r : traverse f l = Ok r -> Forall2 (fun a b => f a = Ok b) l r.
Proof.
  revert r. induction l as [|a l IH]; intros r H; cbn in H.
  - injection H as <-. constructor.
  - destruct (f a) eqn:F; try discriminate. cbn in H. unfold rmap in H.
    destruct (traverse f l) eqn:T; try discriminate. cbn in H. injection H as <-. constructor; auto.
Qed.

Lemma flat_rows_length {A} w (row : Z -> list A) n : (forall y, length (row y) = w) ->
  length (flat_map row (upto (Z.of_nat n))) = (n * w)%nat.
Proof.
  intros H. induction n as [|n IH]; [reflexivity|].
  replace (Z.of_nat (S n)) with (Z.of_nat n + 1) by lia. rewrite upto_S by lia.
  rewrite flat_map_app, app_length, IH. cbn. rewrite app_nil_r, H. lia.
Qed.

Lemma flat_rows_nth {A} w (row : Z -> list A) n y x v : (forall y, length (row y) = w) ->
  (y < n)%nat -> nth_error (row (Z.of_nat y)) x = Some v ->
  nth_error (flat_map row (upto (Z.of_nat n))) (y * w + x) = Some v.
Proof.
  intros H Hy Hx. assert (Lx : (x < w)%nat).
  { rewrite <- (H (Z.of_nat y)). apply nth_error_Some. congruence. }
  induction n as [|n IH]; [lia|].
  replace (Z.of_nat (S n)) with (Z.of_nat n + 1) by lia. rewrite upto_S by lia.
  rewrite flat_map_app. cbn [flat_map]. rewrite app_nil_r.
  destruct (Nat.eq_dec y n) as [->|D].
  - rewrite nth_error_app2; rewrite (flat_rows_length w) by assumption; [|lia].
    replace (n * w + x - n * w)%nat with x by lia. exact Hx.
  - rewrite nth_error_app1; [apply IH; lia|]. rewrite (flat_rows_length w) by assumption. nia.
Qed.

Lemma from_fn_picture w h f g : 0 <= w -> 0 <= h ->
  (forall x y, 0 <= x < w -> 0 <= y < h -> f x y = Ok (g x y)) ->
  exists l, from_fn w h f = Ok l /\ picture w h l g.
Proof.
  intros Hw Hh H. unfold from_fn.
  rewrite (traverse_ok _ (fun p => g (fst p) (snd p))).
  - eexists. split; [reflexivity|]. split.
    + rewrite map_length. rewrite <- (Z2Nat.id h) by lia.
      rewrite (flat_rows_length (Z.to_nat w)); [nia|]. intros y. rewrite map_length. apply upto_length.
    + intros x y Hx Hy. rewrite nth_error_map.
      replace (Z.to_nat (y * w + x)) with (Z.to_nat y * Z.to_nat w + Z.to_nat x)%nat by nia.
      rewrite <- (Z2Nat.id h) by lia.
      rewrite (flat_rows_nth (Z.to_nat w) _ _ _ _ (x, y)); [reflexivity| |lia|].
      * intros y'. rewrite map_length. apply upto_length.
      * rewrite nth_error_map, upto_nth by lia. cbn. f_equal. f_equal. lia.
  - intros [x y] Hi. apply in_flat_map in Hi. destruct Hi as (y' & Hy & Hi).
    apply in_map_iff in Hi. destruct Hi as (x' & E & Hx). injection E as -> ->.
    apply in_upto in Hx, Hy. apply H; assumption.
Qed.

Lemma picture_ext w h l f g : (forall x y, 0 <= x < w -> 0 <= y < h -> f x y = g x y) ->
  picture w h l f -> picture w h l g.
Proof. intros H (A & B). split; [exact A|]. intros x y Hx Hy. rewrite <- H by assumption. auto. Qed.

Lemma nth_error_same {A} (l l' : list A) : (forall n, nth_error l n = nth_error l' n) -> l = l'.
Proof.
  revert l'. induction l as [|a l IH]; intros [|b l'] H; auto.
  - specialize (H O). discriminate.
  - specialize (H O). discriminate.
  - pose proof (H O) as E. injection E as ->. f_equal. apply IH. intros n. exact (H (S n)).
Qed.

Lemma picture_unique w h l l' g : 0 < w -> 0 <= h -> picture w h l g -> picture w h l' g -> l = l'.
Proof.
  intros Hw Hh (A & B) (A' & B'). apply nth_error_same. intros n.
  destruct (Z_lt_dec (Z.of_nat n) (w * h)) as [L|L].
  - assert (0 <= Z.of_nat n mod w < w) by (apply Z.mod_pos_bound; lia).
    assert (0 <= Z.of_nat n / w < h) by (split; [apply Z.div_pos; lia|apply Z.div_lt_upper_bound; lia]).
    specialize (B _ _ H H0). specialize (B' _ _ H H0).
    replace (Z.to_nat (Z.of_nat n / w * w + Z.of_nat n mod w)) with n in * by
      (pose proof (Z.div_mod (Z.of_nat n) w); lia). congruence.
  - rewrite (proj2 (nth_error_None l n)), (proj2 (nth_error_None l' n)) by lia. reflexivity.
Qed.

Lemma idx_byte raw p : 0 <= p < zlen raw -> idx raw p = Ok (byte_at raw p).
Proof.
  intros H. unfold idx, byte_at. rewrite (nth_error_nth' raw 0) by (unfold zlen in H; lia). reflexivity.
Qed.

Lemma skipn_cons_at (raw : list Z) p : 0 <= p < zlen raw ->
  skipn (Z.to_nat p) raw = byte_at raw p :: skipn (Z.to_nat (p + 1)) raw.
Proof.
  unfold zlen, byte_at. intros H. replace (Z.to_nat (p + 1)) with (S (Z.to_nat p)) by lia.
  remember (Z.to_nat p) as k eqn:K. assert (L : (k < length raw)%nat) by lia. clear -L.
  revert k L. induction raw as [|a raw IH]; intros [|k] L; cbn in *; try lia; auto.
  rewrite IH by lia. reflexivity.
Qed.

Lemma num_firstn raw n p : 0 <= p -> p + Z.of_nat n <= zlen raw ->
  le_val (firstn n (skipn (Z.to_nat p) raw)) = num raw p n.
Proof.
  revert p. induction n as [|n IH]; intros p H0 H; [reflexivity|].
  rewrite skipn_cons_at by lia. cbn. rewrite IH by lia. reflexivity.
Qed.

Lemma slice_firstn {A} (l : list A) a b : 0 <= a <= b -> b <= zlen l ->
  slice l a b = Some (firstn (Z.to_nat (b - a)) (skipn (Z.to_nat a) l)).
Proof.
  intros. unfold slice.
  replace ((0 <=? a) && (a <=? b) && (b <=? zlen l)) with true by lia. reflexivity.
Qed.

Lemma read_u16_num raw p : 0 <= p -> p + 2 <= zlen raw -> read_u16_at raw p = Ok (num raw p 2).
Proof.
  intros. unfold read_u16_at, read_at. rewrite slice_firstn by lia.
  replace (Z.to_nat (p + 2 - p)) with 2%nat by lia. rewrite num_firstn by lia. reflexivity.
Qed.

Lemma byte_at_range raw p : bytes raw -> 0 <= byte_at raw p < 256.
Proof.
  intros H. unfold byte_at. destruct (nth_in_or_default (Z.to_nat p) raw 0) as [I|E]; [|rewrite E; lia].
  unfold bytes in H. rewrite Forall_forall in H. exact (H _ I).
Qed.

Lemma num_range raw n p : bytes raw -> 0 <= num raw p n < 256 ^ Z.of_nat n.
Proof.
  intros H. revert p. induction n as [|n IH]; intros p; [cbn; lia|].
  cbn [num]. replace (Z.of_nat (S n)) with (Z.of_nat n + 1) by lia. rewrite Z.pow_add_r, Z.pow_1_r by lia.
  specialize (IH (p + 1)). pose proof (byte_at_range raw p H). lia.
Qed.

Lemma at_xy_small w h x y : 0 <= x < w -> 0 <= y < h -> w * h < 2 ^ 32 -> at_xy w x y = y * w + x.
Proof. intros. unfold at_xy. rewrite wrap_small; [lia|]. nia. Qed.

(** Masks and shifts are divisions. *)
Lemma mask_shift c m lo n : 0 <= lo -> 0 <= n -> m = Z.shiftl (Z.ones n) lo ->
  Z.shiftr (Z.land c m) lo = field c lo n.
Proof.
  intros H0 H1 ->. rewrite Z.shiftr_land, Z.shiftr_shiftl_l, Z.sub_diag, Z.shiftl_0_r by lia.
  rewrite Z.land_ones, Z.shiftr_div_pow2 by lia. reflexivity.
Qed.
Lemma mask_low c m n : 0 <= n -> m = Z.ones n -> Z.land c m = field c 0 n.
Proof.
  intros H ->. rewrite Z.land_ones by lia. unfold field. change (2 ^ 0) with 1. rewrite Z.div_1_r. reflexivity.
Qed.
Lemma field_range c lo n : 0 <= n -> 0 <= field c lo n < 2 ^ n.
Proof. intros. apply Z.mod_pos_bound. apply Z.pow_pos_nonneg; lia. Qed.

Lemma all_below (P : Z -> bool) n : forallb P (upto n) = true -> forall v, 0 <= v < n -> P v = true.
Proof. intros H v Hv. rewrite forallb_forall in H. apply H. apply in_upto. exact Hv. Qed.

Lemma rep5 v : 0 <= v < 32 -> Z.lor (wrap 8 (Z.shiftl v 3)) (Z.shiftr v 2) = x5 v.
Proof.
  intros H. apply Z.eqb_eq. revert v H.
  apply (all_below (fun v => Z.lor (wrap 8 (Z.shiftl v 3)) (Z.shiftr v 2) =? x5 v)). reflexivity.
Qed.
Lemma rep6 v : 0 <= v < 64 -> Z.lor (wrap 8 (Z.shiftl v 2)) (Z.shiftr v 4) = x6 v.
Proof.
  intros H. apply Z.eqb_eq. revert v H.
  apply (all_below (fun v => Z.lor (wrap 8 (Z.shiftl v 2)) (Z.shiftr v 4) =? x6 v)). reflexivity.
Qed.
Lemma rep4 v : 0 <= v < 16 -> Z.lor v (wrap 8 (Z.shiftl v 4)) = x4 v.
Proof.
  intros H. apply Z.eqb_eq. revert v H.
  apply (all_below (fun v => Z.lor v (wrap 8 (Z.shiftl v 4)) =? x4 v)). reflexivity.
Qed.
Lemma low4 v : 0 <= v < 256 -> Z.lor (Z.land v 15) (wrap 8 (Z.shiftl (Z.land v 15) 4)) = x4 (v mod 16).
Proof. intros H. rewrite (mask_low v 15 4) by (reflexivity || lia). rewrite rep4 by (apply (field_range v 0 4); lia).
  unfold field. change (2 ^ 0) with 1. rewrite Z.div_1_r. reflexivity. Qed.
Lemma high4 v : 0 <= v < 256 -> Z.lor (Z.land v 240) (Z.shiftr (Z.land v 240) 4) = x4 (v / 16).
Proof.
  intros H. apply Z.eqb_eq. revert v H.
  apply (all_below (fun v => Z.lor (Z.land v 240) (Z.shiftr (Z.land v 240) 4) =? x4 (v / 16))). reflexivity.
Qed.

Lemma rgb565_px c : rgb565 c = px_565 c.
Proof.
  unfold rgb565, px_565. rewrite (mask_shift c 0xF800 11 5), (mask_shift c 0x07E0 5 6), (mask_low c 31 5)
    by (reflexivity || lia).
  rewrite !rep5, rep6 by (apply field_range; lia). reflexivity.
Qed.

Lemma argb1555_px c : argb1555 c = px_1555 c.
Proof.
  unfold argb1555, px_1555. rewrite (mask_shift c 0x7C00 10 5), (mask_shift c 0x03E0 5 5), (mask_low c 31 5)
    by (reflexivity || lia).
  rewrite !rep5 by (apply field_range; lia). do 4 f_equal.
  rewrite <- (mask_shift c 0x8000 15 1) by (reflexivity || lia).
  destruct (Z.eqb_spec (Z.land c 32768) 0) as [->|N]; [reflexivity|].
  pose proof (mask_shift c 0x8000 15 1 ltac:(lia) ltac:(lia) eq_refl) as M.
  pose proof (field_range c 15 1 ltac:(lia)) as F. rewrite M.
  assert (field c 15 1 <> 0); [|cbn in F; lia]. intros E. apply N.
  rewrite E in M. apply Z.bits_inj'. intros n Hn. rewrite Z.bits_0.
  destruct (Z_lt_dec n 15) as [L|L].
  - rewrite Z.land_spec. change 32768 with (2 ^ 15). rewrite Z.pow2_bits_false by lia. apply andb_false_r.
  - apply (f_equal (fun z => Z.testbit z (n - 15))) in M. rewrite Z.shiftr_spec, Z.bits_0 in M by lia.
    replace (n - 15 + 15) with n in M by lia. exact M.
Qed.

Lemma rgba1010102_px c : rgba1010102 c = px_1010102 c.
Proof.
  unfold rgba1010102, px_1010102. rewrite !(mask_low _ 0x3ff 10), (mask_low _ 3 2) by (reflexivity || lia).
  rewrite !Z.shiftr_div_pow2 by lia.
  assert (E : forall k n, field (c / 2 ^ k) 0 n = field c k n)
    by (intros; unfold field; change (2 ^ 0) with 1; rewrite Z.div_1_r; reflexivity).
  rewrite !E. change (2 ^ 2) with 4.
  pose proof (field_range c 0 10 ltac:(lia)). pose proof (field_range c 10 10 ltac:(lia)).
  pose proof (field_range c 20 10 ltac:(lia)). pose proof (field_range c 30 2 ltac:(lia)).
  change (2 ^ 10) with 1024 in *. change (2 ^ 2) with 4 in *.
  rewrite !wrap_small by (change (2 ^ 8) with 256; dlia). rewrite Z.mul_comm. reflexivity.
Qed.

Ltac pow_consts := change (2 ^ 0) with 1 in *; change (2 ^ 1) with 2 in *; change (2 ^ 2) with 4 in *;
  change (2 ^ 3) with 8 in *; change (2 ^ 4) with 16 in *; change (2 ^ 5) with 32 in *; change (2 ^ 8) with 256 in *;
  change (2 ^ 12) with 4096 in *; change (2 ^ 16) with 65536 in *; change (2 ^ 24) with 16777216 in *.

Section formats.
  Variables (raw : list Z) (w h : Z).
  Hypothesis (Hb : bytes raw) (Hw : 0 <= w) (Hh : 0 <= h) (Hwh : w * h < 2 ^ 32).

  Lemma img_rgb565_picture : 2 * (w * h) <= zlen raw ->
    exists l, img_rgb565 raw w h = Ok l /\ picture w h l (fun x y => px_565 (num raw (2 * (y * w + x)) 2)).
  Proof.
    intros L. unfold img_rgb565. apply from_fn_picture; auto. intros x y Hx Hy.
    rewrite (at_xy_small w h) by assumption. rewrite read_u16_num by nia.
    cbn [rmap rbind]. unfold rmap, rbind. rewrite rgb565_px. do 3 f_equal. lia.
  Qed.
  Lemma img_argb1555_picture : 2 * (w * h) <= zlen raw ->
    exists l, img_argb1555 raw w h = Ok l /\ picture w h l (fun x y => px_1555 (num raw (2 * (y * w + x)) 2)).
  Proof.
    intros L. unfold img_argb1555. apply from_fn_picture; auto. intros x y Hx Hy.
    rewrite (at_xy_small w h) by assumption. rewrite read_u16_num by nia.
    unfold rmap, rbind. rewrite argb1555_px. do 3 f_equal. lia.
  Qed.
  Lemma img_a16_picture : 2 * (w * h) <= zlen raw ->
    exists l, img_a16 raw w h = Ok l /\ picture w h l (fun x y => px_r16 (num raw (2 * (y * w + x)) 2)).
  Proof.
    intros L. unfold img_a16. apply from_fn_picture; auto. intros x y Hx Hy.
    rewrite (at_xy_small w h) by assumption. rewrite !idx_byte by nia.
    unfold rbind, px_r16. cbn [num le_val]. replace ((y * w + x) * 2) with (2 * (y * w + x)) by lia. reflexivity.
  Qed.
  Lemma img_bgra4444_picture : 2 * (w * h) <= zlen raw ->
    exists l, img_bgra4444 raw w h = Ok l /\ picture w h l (fun x y => px_4444 (num raw (2 * (y * w + x)) 2)).
  Proof.
    intros L. unfold img_bgra4444. apply from_fn_picture; auto. intros x y Hx Hy.
    rewrite (at_xy_small w h) by assumption. rewrite !idx_byte by nia.
    unfold rbind, px_4444. cbn [num]. replace ((y * w + x) * 2) with (2 * (y * w + x)) by lia.
    set (p := 2 * (y * w + x)). pose proof (byte_at_range raw p Hb). pose proof (byte_at_range raw (p + 1) Hb).
    rewrite !low4, !high4 by assumption. unfold field. pow_consts.
    f_equal. repeat match goal with |- _ :: _ = _ :: _ => f_equal end; unfold x4; dlia.
  Qed.
  Lemma img_bgra8888_picture : 4 * (w * h) <= zlen raw ->
    exists l, img_bgra8888 raw w h = Ok l /\ picture w h l (fun x y => px_8888 (num raw (4 * (y * w + x)) 4)).
  Proof.
    intros L. unfold img_bgra8888. apply from_fn_picture; auto. intros x y Hx Hy.
    rewrite (at_xy_small w h) by assumption. rewrite !idx_byte by nia.
    unfold rbind, px_8888. cbn [num]. replace ((y * w + x) * 4) with (4 * (y * w + x)) by lia.
    set (p := 4 * (y * w + x)). replace (p + 1 + 1) with (p + 2) by lia. replace (p + 2 + 1) with (p + 3) by lia.
    pose proof (byte_at_range raw p Hb). pose proof (byte_at_range raw (p + 1) Hb).
    pose proof (byte_at_range raw (p + 2) Hb). pose proof (byte_at_range raw (p + 3) Hb).
    unfold field. pow_consts.
    f_equal. repeat match goal with |- _ :: _ = _ :: _ => f_equal end; dlia.
  Qed.
  Lemma img_r10_picture : 4 * (w * h) <= zlen raw ->
    exists l, img_r10g10b10a2 raw w h = Ok l /\ picture w h l (fun x y => px_1010102 (num raw (4 * (y * w + x)) 4)).
  Proof.
    intros L. unfold img_r10g10b10a2. apply from_fn_picture; auto. intros x y Hx Hy.
    rewrite (at_xy_small w h) by assumption. unfold range. rewrite slice_firstn by nia.
    unfold rmap, rbind. rewrite rgba1010102_px.
    replace (Z.to_nat _) with 4%nat by lia. rewrite num_firstn by nia. do 3 f_equal. lia.
  Qed.
End formats.
