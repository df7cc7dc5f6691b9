(** Extracting a canvas, all formats. *)
From Coq Require Import ZArith List Bool Lia ZifyBool ZifyNat.
From Verif.Model Require Import Base Reader Png.
From Verif.Spec Require Import Wire Stream PropWire Pixel.
From Verif.Proofs Require Import BaseL AtL PngL DxtL GridL RawL.

Lemma div_ceil4 a : 0 <= a -> div_ceil a 4 = (a + 3) / 4.
Proof. intros. unfold div_ceil. destruct (Z.eqb_spec (a mod 4) 0); dlia. Qed.

Lemma buff_size f w h n : 0 <= w -> 0 <= h -> 16 * ((w + 3) * (h + 3)) < 2 ^ 32 -> data_size f w h n ->
  get_buff_size (fmt_of f) w h = Ok n.
Proof.
  intros Hw Hh Hs D. assert (Hq : 0 <= w * h) by nia. assert (Hs' : 16 * (w * h) < 2 ^ 32) by nia.
  destruct D as [f w h F|f w h F|f w h F|w h|w h M1 M2].
  - assert (E : get_buff_size (fmt_of f) w h = Ok (wrap 32 (w * h * 2))) by (destruct F as [->|[->|[->| ->]]]; reflexivity).
    rewrite E, wrap_small by lia. f_equal. lia.
  - assert (E : get_buff_size (fmt_of f) w h = Ok (wrap 32 (w * h * 4))) by (destruct F as [->| ->]; reflexivity).
    rewrite E, wrap_small by lia. f_equal. lia.
  - assert (E : get_buff_size (fmt_of f) w h = Ok (wrap 32 (div_ceil w 4 * div_ceil h 4 * 16))) by (destruct F as [->| ->]; reflexivity).
    rewrite E, !div_ceil4 by assumption.
    assert (0 <= (w + 3) / 4 <= w + 3) by dlia. assert (0 <= (h + 3) / 4 <= h + 3) by dlia.
    assert (0 <= (w + 3) / 4 * ((h + 3) / 4) <= (w + 3) * (h + 3)) by (split; [nia|apply Z.mul_le_mono_nonneg; lia]).
    rewrite wrap_small by lia. f_equal. lia.
  - cbn [get_buff_size fmt_of Z.eqb Pos.eqb]. rewrite wrap_small by lia. f_equal. lia.
  - cbn [get_buff_size fmt_of Z.eqb Pos.eqb]. rewrite wrap_small by lia. f_equal.
    assert (W16 : w = 16 * (w / 16)) by dlia. assert (H16 : h = 16 * (h / 16)) by dlia.
    symmetry. apply (Z.div_unique_pos _ _ _ 0); [lia|].
    transitivity (16 * (w / 16) * (16 * (h / 16))); [rewrite <- W16, <- H16; reflexivity|ring].
Qed.

Lemma kept_bind {A} inflate r p n raw (k : list Z -> res A) : zlen (rd_buf r) < 2 ^ 63 ->
  kept inflate (rd_buf r) (rd_ks r) (pg_off p) (pg_size p) (pg_header p) n raw ->
  get_buff_size (png_format p) (pg_w p) (pg_h p) = Ok n ->
  rbind (range (rd_buf r) (pg_off p) (wrap 64 (pg_off p + pg_size p))) (fun data =>
    rbind (get_raw_data inflate r p data) k) = k raw.
Proof.
  intros Hz K G. pose proof (kept_raw inflate r p n raw Hz K G) as H.
  destruct (range _ _ _) as [data| | |]; cbn in *; try discriminate.
  destruct (get_raw_data inflate r p data) as [q| | |]; cbn in *; try discriminate. congruence.
Qed.

Lemma extract_picture inflate decode_bc7 rayon r p raw n :
  let f := pg_fmt1 p + pg_fmt2 p in
  let w := pg_w p in
  let h := pg_h p in
  0 <= f < 2 ^ 32 -> 0 < w -> 0 <= h -> 16 * ((w + 3) * (h + 3)) < 2 ^ 32 -> zlen (rd_buf r) < 2 ^ 63 ->
  data_size f w h n -> kept inflate (rd_buf r) (rd_ks r) (pg_off p) (pg_size p) (pg_header p) n raw ->
  bytes raw -> zlen raw = n ->
  (in_blocks f \/ f = 3 -> w mod 4 = 0 /\ (rayon = false -> h mod 4 = 0)) -> (f = 3 -> h mod 4 = 0) ->
  exists l, extract_png inflate decode_bc7 rayon r p = Ok l /\ picture w h l (pixel_of f raw w).
Proof.
  intros f w h Hf Hw Hh Hs Hz D K Hb Hn M M3.
  assert (Hq : 0 <= w * h) by nia. assert (Hs' : 16 * (w * h) < 2 ^ 32) by nia.
  assert (EF : png_format p = fmt_of f) by (unfold png_format; rewrite wrap_small by exact Hf; reflexivity).
  assert (C : get_buff_size (png_format p) (pg_w p) (pg_h p) = Ok n)
    by (rewrite EF; exact (buff_size f w h n ltac:(lia) Hh Hs D)).
  unfold extract_png. cbv zeta. rewrite (kept_bind inflate r p n raw _ Hz K C). rewrite EF. fold w h.
  assert (Dxt : forall block alpha, zlen raw mod 16 = 0 -> w mod 4 = 0 -> (rayon = false -> h mod 4 = 0) ->
    4 * w * div_ceil h 4 <= zlen raw -> 
    (forall c, length c = 16%nat -> bytes c -> block c = Ok (map (dxt_px by_order alpha c 0) (upto 16))) ->
    (forall raw p q, 0 <= p -> alpha (firstn 16 (skipn (Z.to_nat p) raw)) 0 q = alpha raw p q) ->
    exists l, (if rayon then img_dxt else img_dxt_serial) block raw w h = Ok l /\
      picture w h l (fun x y => dxt_px by_order alpha raw (block_of ((w + 3) / 4) x y) (in_block x y))).
  { intros block alpha Z16 W4 H4 L B A. replace ((w + 3) / 4) with (w / 4) by dlia. destruct rayon.
    - apply img_dxt_picture; try assumption; lia.
    - specialize (H4 eq_refl). apply img_dxt_serial_picture; try assumption; try lia.
      revert L. unfold div_ceil. rewrite H4. cbn [Z.eqb]. assert (h = 4 * (h / 4)) by dlia. nia. }
  clear K C EF. clearbody f w h. destruct D as [f w h F|f w h F|f w h F|w h|w h M1 M2].
  - destruct F as [->|[->|[->| ->]]]; cbn [fmt_of Z.eqb Pos.eqb].
    + apply img_bgra4444_picture; lia || assumption.
    + apply img_argb1555_picture; lia || assumption.
    + apply img_rgb565_picture; lia || assumption.
    + apply img_a16_picture; lia || assumption.
  - destruct F as [->| ->]; cbn [fmt_of Z.eqb Pos.eqb].
    + apply img_bgra8888_picture; lia || assumption.
    + apply img_r10_picture; lia || assumption.
  - specialize (M (or_introl F)). destruct M as (W4 & H4).
    assert (Z16 : zlen raw mod 16 = 0) by (rewrite Hn, Z.mul_comm; apply Z.mod_mul; lia).
    assert (L : 4 * w * div_ceil h 4 <= zlen raw).
    { rewrite Hn, div_ceil4 by lia. assert (w = 4 * ((w + 3) / 4)) by dlia. assert (0 <= (h + 3) / 4) by dlia. nia. }
    destruct F as [->| ->]; cbn [fmt_of Z.eqb Pos.eqb].
    + apply Dxt; auto using dxt3_block_spec, dxt3_alpha_sub.
    + apply Dxt; auto using dxt5_block_spec, dxt5_alpha_sub.
  - destruct (M (or_intror eq_refl)) as (W4 & _). specialize (M3 eq_refl). cbn [fmt_of Z.eqb Pos.eqb].
    assert (WW : w = 4 * (w / 4)) by dlia. assert (HH : h = 4 * (h / 4)) by dlia.
    apply Dxt; auto using dxt3_block_spec, dxt3_alpha_sub.
    + rewrite Hn, WW, HH. replace (4 * (4 * (w / 4) * (4 * (h / 4)))) with ((4 * (w / 4 * (h / 4))) * 16) by ring. apply Z.mod_mul. lia.
    + rewrite Hn, div_ceil4 by lia. assert ((h + 3) / 4 = h / 4) by dlia. nia.
  - cbn [fmt_of Z.eqb Pos.eqb]. apply img_517_picture; try assumption; try lia.
Qed.

Lemma extract_same inflate bc7 rayon r r' p p' n raw : zlen (rd_buf r) < 2 ^ 63 -> zlen (rd_buf r') < 2 ^ 63 ->
  kept inflate (rd_buf r) (rd_ks r) (pg_off p) (pg_size p) (pg_header p) n raw ->
  kept inflate (rd_buf r') (rd_ks r') (pg_off p') (pg_size p') (pg_header p') n raw ->
  pg_fmt1 p = pg_fmt1 p' -> pg_fmt2 p = pg_fmt2 p' -> pg_w p = pg_w p' -> pg_h p = pg_h p' ->
  get_buff_size (png_format p) (pg_w p) (pg_h p) = Ok n ->
  extract_png inflate bc7 rayon r p = extract_png inflate bc7 rayon r' p'.
Proof.
  intros Z Z' K K' E1 E2 Ew Eh C.
  assert (EF : png_format p = png_format p') by (unfold png_format; rewrite E1, E2; reflexivity).
  unfold extract_png. cbv zeta. rewrite (kept_bind inflate r p n raw _ Z K C).
  rewrite (kept_bind inflate r' p' n raw _ Z' K') by (rewrite <- EF, <- Ew, <- Eh; exact C).
  rewrite EF, Ew, Eh. reflexivity.
Qed.

Lemma extract_blocks_any inflate decode_bc7 r p raw n :
  let f := pg_fmt1 p + pg_fmt2 p in
  let w := pg_w p in
  let h := pg_h p in
  0 <= f < 2 ^ 32 -> 0 < w -> 0 <= h -> 16 * ((w + 3) * (h + 3)) < 2 ^ 32 -> zlen (rd_buf r) < 2 ^ 63 ->
  in_blocks f -> data_size f w h n -> kept inflate (rd_buf r) (rd_ks r) (pg_off p) (pg_size p) (pg_header p) n raw ->
  bytes raw -> zlen raw = n ->
  exists l, extract_png inflate decode_bc7 true r p = Ok l /\
    picture w h l (fun x y => dxt_px by_order (if f =? 1026 then dxt3_alpha else dxt5_alpha) raw
      (block_of (w / 4) x y) (in_block x y)).
Proof.
  intros f w h Hf Hw Hh Hs Hz F D K Hb Hn.
  assert (Hs' : 16 * (w * h) < 2 ^ 32) by nia.
  assert (EF : png_format p = fmt_of f) by (unfold png_format; rewrite wrap_small by exact Hf; reflexivity).
  assert (C : get_buff_size (png_format p) (pg_w p) (pg_h p) = Ok n)
    by (rewrite EF; exact (buff_size f w h n ltac:(lia) Hh Hs D)).
  unfold extract_png. cbv zeta. rewrite (kept_bind inflate r p n raw _ Hz K C). rewrite EF. fold w h.
  clear K C EF. clearbody f w h.
  assert (En : n = 16 * ((w + 3) / 4 * ((h + 3) / 4))).
  { inversion D; subst; auto; exfalso; unfold in_blocks, two_bytes, four_bytes in *; lia. }
  assert (Z16 : zlen raw mod 16 = 0) by (rewrite Hn, En, Z.mul_comm; apply Z.mod_mul; lia).
  assert (L : forall x y, 0 <= x < w -> 0 <= y < h -> block_of (w / 4) x y + 16 <= zlen raw).
  { intros x y Hx Hy. rewrite Hn, En. unfold block_of.
    assert (0 <= y / 4 <= (h + 3) / 4 - 1) by dlia. assert (0 <= x / 4 <= (w + 3) / 4 - 1) by dlia.
    assert (0 <= w / 4 <= (w + 3) / 4) by dlia. clear D Z16 Hs Hs'.
    assert (y / 4 * (w / 4) <= ((h + 3) / 4 - 1) * ((w + 3) / 4)) by (apply Z.mul_le_mono_nonneg; lia). lia. }
  destruct F as [->| ->]; cbn [fmt_of Z.eqb Pos.eqb].
  - apply img_dxt_any; auto using dxt3_block_spec, dxt3_alpha_sub; lia.
  - apply img_dxt_any; auto using dxt5_block_spec, dxt5_alpha_sub; lia.
Qed.

Lemma num_bytes raw raw' n p : bytes raw -> bytes raw' -> num raw p n = num raw' p n ->
  forall k, 0 <= k < Z.of_nat n -> byte_at raw (p + k) = byte_at raw' (p + k).
Proof.
  intros B B'. revert p. induction n as [|n IH]; intros p E k Hk; [lia|]. cbn [num] in E.
  pose proof (byte_at_range raw p B). pose proof (byte_at_range raw' p B').
  assert (E1 : byte_at raw p = byte_at raw' p) by lia. assert (E2 : num raw (p + 1) n = num raw' (p + 1) n) by lia.
  destruct (Z.eq_dec k 0) as [->|N]; [rewrite Z.add_0_r; exact E1|].
  replace (p + k) with (p + 1 + (k - 1)) by lia. apply IH; [exact E2|lia].
Qed.

Lemma x5_inj a b : 0 <= a -> 0 <= b -> x5 a = x5 b -> a = b.
Proof. unfold x5. dlia. Qed.
Lemma x6_inj a b : 0 <= a -> 0 <= b -> x6 a = x6 b -> a = b.
Proof. unfold x6. dlia. Qed.

Lemma join2 v a b : 0 <= v < 2 ^ (a + b) -> 0 <= a -> 0 <= b -> v = field v 0 a + 2 ^ a * field v a b.
Proof.
  intros H Ha Hb. unfold field. change (2 ^ 0) with 1. rewrite Z.div_1_r. rewrite Z.pow_add_r in H by lia.
  rewrite (Z.mod_small (v / 2 ^ a)).
  - pose proof (Z.div_mod v (2 ^ a)). pose proof (Z.pow_pos_nonneg 2 a). lia.
  - pose proof (Z.pow_pos_nonneg 2 a). split; [apply Z.div_pos; lia|apply Z.div_lt_upper_bound; lia].
Qed.
Lemma join_field v lo a b : 0 <= lo -> 0 <= a -> 0 <= b -> field v lo (a + b) = field v lo a + 2 ^ a * field v (lo + a) b.
Proof.
  intros. unfold field. rewrite !Z.pow_add_r by lia. pose proof (Z.pow_pos_nonneg 2 a). pose proof (Z.pow_pos_nonneg 2 b).
  pose proof (Z.pow_pos_nonneg 2 lo). rewrite Z.rem_mul_r by lia. rewrite Z.div_div by lia. reflexivity.
Qed.
Ltac jf c lo a b := let J := fresh in
  pose proof (join_field c lo a b ltac:(lia) ltac:(lia) ltac:(lia)) as J;
  let s := eval vm_compute in (a + b) in change (a + b) with s in J;
  let t := eval vm_compute in (lo + a) in change (lo + a) with t in J; rewrite J; clear J.
Lemma px_565_inj c c' : 0 <= c < 65536 -> 0 <= c' < 65536 -> px_565 c = px_565 c' -> c = c'.
Proof.
  intros H H' E. unfold px_565 in E.
  assert (E1 : x5 (field c 11 5) = x5 (field c' 11 5)) by congruence.
  assert (E2 : x6 (field c 5 6) = x6 (field c' 5 6)) by congruence.
  assert (E3 : x5 (field c 0 5) = x5 (field c' 0 5)) by congruence.
  apply x5_inj in E1; [|apply (field_range c 11 5); lia|apply (field_range c' 11 5); lia].
  apply x6_inj in E2; [|apply (field_range c 5 6); lia|apply (field_range c' 5 6); lia].
  apply x5_inj in E3; [|apply (field_range c 0 5); lia|apply (field_range c' 0 5); lia].
  rewrite (join2 c 5 11), (join2 c' 5 11) by (lia || exact H || exact H').
  jf c 5 6 5. jf c' 5 6 5. congruence.
Qed.
Lemma px_1555_inj c c' : 0 <= c < 65536 -> 0 <= c' < 65536 -> px_1555 c = px_1555 c' -> c = c'.
Proof.
  intros H H' E. unfold px_1555 in E.
  assert (E1 : x5 (field c 10 5) = x5 (field c' 10 5)) by congruence.
  assert (E2 : x5 (field c 5 5) = x5 (field c' 5 5)) by congruence.
  assert (E3 : x5 (field c 0 5) = x5 (field c' 0 5)) by congruence.
  assert (E4 : 255 * field c 15 1 = 255 * field c' 15 1) by congruence.
  apply x5_inj in E1; [|apply (field_range c 10 5); lia|apply (field_range c' 10 5); lia].
  apply x5_inj in E2; [|apply (field_range c 5 5); lia|apply (field_range c' 5 5); lia].
  apply x5_inj in E3; [|apply (field_range c 0 5); lia|apply (field_range c' 0 5); lia].
  assert (E5 : field c 15 1 = field c' 15 1) by lia.
  rewrite (join2 c 5 11), (join2 c' 5 11) by (lia || exact H || exact H').
  jf c 5 5 6. jf c' 5 5 6. jf c 10 5 1. jf c' 10 5 1. congruence.
Qed.
Lemma px_4444_inj c c' : 0 <= c < 65536 -> 0 <= c' < 65536 -> px_4444 c = px_4444 c' -> c = c'.
Proof.
  intros H H' E. unfold px_4444, x4 in E.
  assert (E1 : 17 * field c 8 4 = 17 * field c' 8 4) by congruence.
  assert (E2 : 17 * field c 4 4 = 17 * field c' 4 4) by congruence.
  assert (E3 : 17 * field c 0 4 = 17 * field c' 0 4) by congruence.
  assert (E4 : 17 * field c 12 4 = 17 * field c' 12 4) by congruence.
  assert (F1 : field c 8 4 = field c' 8 4) by lia. assert (F2 : field c 4 4 = field c' 4 4) by lia.
  assert (F3 : field c 0 4 = field c' 0 4) by lia. assert (F4 : field c 12 4 = field c' 12 4) by lia.
  rewrite (join2 c 4 12), (join2 c' 4 12) by (lia || exact H || exact H').
  jf c 4 4 8. jf c' 4 4 8. jf c 8 4 4. jf c' 8 4 4. congruence.
Qed.
Lemma px_8888_inj c c' : 0 <= c < 4294967296 -> 0 <= c' < 4294967296 -> px_8888 c = px_8888 c' -> c = c'.
Proof.
  intros H H' E. unfold px_8888 in E.
  assert (E1 : field c 16 8 = field c' 16 8) by congruence. assert (E2 : field c 8 8 = field c' 8 8) by congruence.
  assert (E3 : field c 0 8 = field c' 0 8) by congruence. assert (E4 : field c 24 8 = field c' 24 8) by congruence.
  rewrite (join2 c 8 24), (join2 c' 8 24) by (lia || exact H || exact H').
  jf c 8 8 16. jf c' 8 8 16. jf c 16 8 8. jf c' 16 8 8. congruence.
Qed.

Lemma bytes_same raw raw' : zlen raw = zlen raw' -> (forall k, 0 <= k < zlen raw -> byte_at raw k = byte_at raw' k) -> raw = raw'.
Proof.
  unfold zlen. intros L H. apply (nth_ext _ _ 0 0); [lia|]. intros n Hn. specialize (H (Z.of_nat n)).
  unfold byte_at in H. rewrite Nat2Z.id in H. apply H. lia.
Qed.
