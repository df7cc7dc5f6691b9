(** Canvas pixels (C32-C35, C46, C92-C103). *)
From Coq Require Import ZArith List Bool Lia.
From Verif.Model Require Import Base Reader Png.
From Verif.Spec Require Import Wire Stream PropWire Pixel.
From Verif.Proofs Require Import BaseL AtL PngL DxtL GridL RawL CanvasL.

(** What the theorems below ask of a canvas: its fields are those of u32, the picture is not so large that its byte
    count leaves 32 bits, and the file keeps [raw], which has the right size for the format. *)
Definition canvas (inflate : bool -> list Z -> Z -> option (list Z)) (r : rd) (p : png) (raw : list Z) : Prop :=
  0 <= pg_fmt1 p + pg_fmt2 p < 2 ^ 32 /\ 0 < pg_w p /\ 0 <= pg_h p /\
  16 * ((pg_w p + 3) * (pg_h p + 3)) < 2 ^ 32 /\ zlen (rd_buf r) < 2 ^ 63 /\ bytes raw /\
  data_size (pg_fmt1 p + pg_fmt2 p) (pg_w p) (pg_h p) (zlen raw) /\
  kept inflate (rd_buf r) (rd_ks r) (pg_off p) (pg_size p) (pg_header p) (zlen raw) raw.
Definition fmt (p : png) : Z := pg_fmt1 p + pg_fmt2 p.

(** For the examples: a decompressor that takes the data as they are, and a file that has them from byte 1 on. *)
Definition as_is (_ : bool) (d : list Z) (_ : Z) : option (list Z) := Some d.
Definition no_bc7 (_ : list Z) (_ _ : Z) : option (list Z) := None.
Definition file_of (raw : list Z) : rd := mkRd (7 :: raw ++ [9]) (fun _ => 0) (fun _ => 0).
Definition png_of (f w h : Z) (raw : list Z) : png := mkPng 1 (zlen raw) f 0 0x9C78 w h.

Lemma canvas_of f w h raw : 0 <= f < 2 ^ 32 -> 0 < w -> 0 <= h -> 16 * ((w + 3) * (h + 3)) < 2 ^ 32 -> zlen raw < 2 ^ 62 ->
  bytes raw -> data_size f w h (zlen raw) -> canvas as_is (file_of raw) (png_of f w h raw) raw.
Proof.
  intros. unfold canvas, png_of, file_of. cbn [pg_fmt1 pg_fmt2 pg_w pg_h pg_off pg_size pg_header rd_buf rd_ks].
  rewrite Z.add_0_r. repeat (split; [first [assumption|lia]|]).
  split. { rewrite zlen_cons, zlen_app, zlen_cons, zlen_nil. change (2 ^ 63) with (2 * 2 ^ 62). lia. }
  split; [assumption|]. split; [assumption|].
  exists raw. split; [exists [7], [9]; repeat split|]. left. split; [left; reflexivity|reflexivity].
Qed.

(** C32: in the formats with a number per pixel, every pixel is the standard widening of its own number. *)
Theorem C32_pixels : forall inflate bc7 rayon r p raw,
  two_bytes (fmt p) \/ four_bytes (fmt p) -> canvas inflate r p raw ->
  exists l, extract_png inflate bc7 rayon r p = Ok l /\ picture (pg_w p) (pg_h p) l (pixel_of (fmt p) raw (pg_w p)).
Proof.
  intros inflate bc7 rayon r p raw F (A & B & C & D & E & G & S & K). unfold fmt in *.
  apply (extract_picture inflate bc7 rayon r p raw (zlen raw)); try assumption; try reflexivity;
    unfold in_blocks, two_bytes, four_bytes in *; intros; lia.
Qed.
Print Assumptions C32_pixels.
Example C32_pixels_example :
  let raw := [0x1F; 0xF8; 0xE0; 0x07] in
  canvas as_is (file_of raw) (png_of 513 1 2 raw) raw /\
  extract_png as_is no_bc7 true (file_of raw) (png_of 513 1 2 raw) = Ok [[255; 0; 255]; [0; 255; 0]].
Proof.
  split; [|reflexivity]. apply canvas_of; try lia; try reflexivity.
  - repeat constructor; unfold byte; lia.
  - apply (size_two 513 1 2). right. right. left. reflexivity.
Qed.

(** C32: the endpoints are kept and widening never changes the order. *)
Theorem C32_widening : forall c, 0 <= c < 65536 -> forall i v, (i < 3)%nat ->
  nth_error (rgb565 c) i = Some v ->
  0 <= v < 256 /\
  (v = 0 <-> field c (nth i [11; 5; 0] 0) (nth i [5; 6; 5] 0) = 0) /\
  (v = 255 <-> field c (nth i [11; 5; 0] 0) (nth i [5; 6; 5] 0) = 2 ^ nth i [5; 6; 5] 0 - 1) /\
  (forall c' v', nth_error (rgb565 c') i = Some v' ->
    (v < v' <-> field c (nth i [11; 5; 0] 0) (nth i [5; 6; 5] 0) < field c' (nth i [11; 5; 0] 0) (nth i [5; 6; 5] 0))).
Proof.
  intros c Hc i v Hi H. rewrite rgb565_px in H.
  assert (R5 : forall c lo, 0 <= field c lo 5 < 32) by (intros; apply (field_range _ _ 5); lia).
  assert (R6 : forall c lo, 0 <= field c lo 6 < 64) by (intros; apply (field_range _ _ 6); lia).
  assert (C : i = 0%nat \/ i = 1%nat \/ i = 2%nat) by lia.
  destruct C as [->|[->| ->]]; cbn [nth nth_error px_565] in *.
  - assert (V : v = x5 (field c 11 5)) by congruence. pose proof (R5 c 11). unfold x5 in V. change (2 ^ 5 - 1) with 31.
    split; [dlia|]. split; [dlia|]. split; [dlia|]. intros c' v' H'. rewrite rgb565_px in H'. cbn [nth_error px_565] in H'.
    assert (V' : v' = x5 (field c' 11 5)) by congruence. pose proof (R5 c' 11). unfold x5 in V'. dlia.
  - assert (V : v = x6 (field c 5 6)) by congruence. pose proof (R6 c 5). unfold x6 in V. change (2 ^ 6 - 1) with 63.
    split; [dlia|]. split; [dlia|]. split; [dlia|]. intros c' v' H'. rewrite rgb565_px in H'. cbn [nth_error px_565] in H'.
    assert (V' : v' = x6 (field c' 5 6)) by congruence. pose proof (R6 c' 5). unfold x6 in V'. dlia.
  - assert (V : v = x5 (field c 0 5)) by congruence. pose proof (R5 c 0). unfold x5 in V. change (2 ^ 5 - 1) with 31.
    split; [dlia|]. split; [dlia|]. split; [dlia|]. intros c' v' H'. rewrite rgb565_px in H'. cbn [nth_error px_565] in H'.
    assert (V' : v' = x5 (field c' 0 5)) by congruence. pose proof (R5 c' 0). unfold x5 in V'. dlia.
Qed.
Print Assumptions C32_widening.
Example C32_widening_example : rgb565 0x8410 = [132; 130; 132].
Proof. reflexivity. Qed.

(** C32: in the formats 4444, 1555, 565 and 8888 nothing is lost: the picture determines the stored bytes. *)
Theorem C32_lossless : forall inflate bc7 rayon r p raw r' p' raw' l,
  fmt p = 1 \/ fmt p = 257 \/ fmt p = 513 \/ fmt p = 2 ->
  fmt p' = fmt p -> pg_w p' = pg_w p -> pg_h p' = pg_h p ->
  canvas inflate r p raw -> canvas inflate r' p' raw' ->
  extract_png inflate bc7 rayon r p = Ok l -> extract_png inflate bc7 rayon r' p' = Ok l -> raw = raw'.
Proof.
  intros inflate bc7 rayon r p raw r' p' raw' l F Ef Ew Eh C C' E E'.
  assert (F4 : two_bytes (fmt p) \/ four_bytes (fmt p)) by (unfold two_bytes, four_bytes; lia).
  destruct (C32_pixels inflate bc7 rayon r p raw F4 C) as (l1 & E1 & P).
  destruct (C32_pixels inflate bc7 rayon r' p' raw' ltac:(rewrite Ef; exact F4) C') as (l2 & E2 & P').
  assert (l1 = l) by congruence. assert (l2 = l) by congruence. subst l1 l2. clear E1 E2 E E'.
  rewrite Ew, Eh, Ef in P'. unfold fmt in *.
  destruct C as (_ & Hw & Hh & Hs & _ & B & S & _). destruct C' as (_ & _ & _ & _ & _ & B' & S' & _).
  rewrite Ef, Ew, Eh in S'. set (w := pg_w p) in *. set (h := pg_h p) in *. set (f := pg_fmt1 p + pg_fmt2 p) in *.
  assert (Px : forall i, 0 <= i < w * h -> pixel_of f raw w (i mod w) (i / w) = pixel_of f raw' w (i mod w) (i / w)).
  { intros i Hi. destruct P as (_ & P), P' as (_ & P').
    assert (0 <= i mod w < w) by (apply Z.mod_pos_bound; lia).
    assert (0 <= i / w < h) by (split; [apply Z.div_pos; lia|apply Z.div_lt_upper_bound; lia]).
    specialize (P _ _ H H0). specialize (P' _ _ H H0). congruence. }
  assert (Ix : forall i, i / w * w + i mod w = i) by (intros; pose proof (Z.div_mod i w); lia).
  assert (N2 : forall raw p, bytes raw -> 0 <= num raw p 2 < 65536) by (intros; apply (num_range raw0 2); assumption).
  assert (N4 : forall raw p, bytes raw -> 0 <= num raw p 4 < 4294967296) by (intros; apply (num_range raw0 4); assumption).
  assert (Two : two_bytes f -> (forall i, 0 <= i < w * h -> num raw (2 * i) 2 = num raw' (2 * i) 2) -> raw = raw').
  { intros T H. assert (Z1 : zlen raw = 2 * (w * h)) by (inversion S; subst; auto; unfold two_bytes, four_bytes, in_blocks in *; exfalso; lia).
    assert (Z2 : zlen raw' = 2 * (w * h)) by (inversion S'; subst; auto; unfold two_bytes, four_bytes, in_blocks in *; exfalso; lia).
    apply bytes_same; [lia|]. intros k Hk. replace k with (2 * (k / 2) + k mod 2) by dlia.
    apply (num_bytes raw raw' 2); [exact B|exact B'| |dlia]. apply H. dlia. }
  assert (Four : four_bytes f -> (forall i, 0 <= i < w * h -> num raw (4 * i) 4 = num raw' (4 * i) 4) -> raw = raw').
  { intros T H. assert (Z1 : zlen raw = 4 * (w * h)) by (inversion S; subst; auto; unfold two_bytes, four_bytes, in_blocks in *; exfalso; lia).
    assert (Z2 : zlen raw' = 4 * (w * h)) by (inversion S'; subst; auto; unfold two_bytes, four_bytes, in_blocks in *; exfalso; lia).
    apply bytes_same; [lia|]. intros k Hk. replace k with (4 * (k / 4) + k mod 4) by dlia.
    apply (num_bytes raw raw' 4); [exact B|exact B'| |dlia]. apply H. dlia. }
  destruct F as [F|[F|[F|F]]]; rewrite F in Px; cbn [pixel_of Z.eqb Pos.eqb] in Px.
  - apply Two; [unfold two_bytes; lia|]. intros i Hi. specialize (Px i Hi). rewrite Ix in Px. apply px_4444_inj; auto.
  - apply Two; [unfold two_bytes; lia|]. intros i Hi. specialize (Px i Hi). rewrite Ix in Px. apply px_1555_inj; auto.
  - apply Two; [unfold two_bytes; lia|]. intros i Hi. specialize (Px i Hi). rewrite Ix in Px. apply px_565_inj; auto.
  - apply Four; [unfold four_bytes; lia|]. intros i Hi. specialize (Px i Hi). rewrite Ix in Px. apply px_8888_inj; auto.
Qed.
Print Assumptions C32_lossless.
Example C32_lossless_example :
  let raw := [1; 2; 3; 4; 5; 6; 7; 8] in
  extract_png as_is no_bc7 true (file_of raw) (png_of 2 2 1 raw) = Ok [[3; 2; 1; 4]; [7; 6; 5; 8]] /\
  extract_png as_is no_bc7 true (file_of raw) (png_of 1 2 2 raw) =
    Ok [[34; 0; 17; 0]; [68; 0; 51; 0]; [102; 0; 85; 0]; [136; 0; 119; 0]].
Proof. split; reflexivity. Qed.

(** C33: in DXT3 and DXT5 pictures whose width is a multiple of four, every pixel is decoded from its own block. *)
Theorem C33_own_block : forall inflate bc7 r p raw,
  in_blocks (fmt p) -> pg_w p mod 4 = 0 -> canvas inflate r p raw ->
  exists l, extract_png inflate bc7 true r p = Ok l /\
    picture (pg_w p) (pg_h p) l (fun x y =>
      dxt_px by_order (if fmt p =? 1026 then dxt3_alpha else dxt5_alpha) raw (block_of ((pg_w p + 3) / 4) x y) (in_block x y)).
Proof.
  intros inflate bc7 r p raw F W (A & B & C & D & E & G & S & K). unfold fmt in *.
  replace ((pg_w p + 3) / 4) with (pg_w p / 4) by dlia.
  apply (extract_blocks_any inflate bc7 r p raw (zlen raw)); try assumption; reflexivity.
Qed.
Print Assumptions C33_own_block.
(** Two blocks beside each other: red with alpha 17 k, then blue seen through the table of alphas. *)
Definition red_block : list Z := [0x10; 0x32; 0x54; 0x76; 0x98; 0xBA; 0xDC; 0xFE; 0x00; 0xF8; 0x00; 0x00; 0; 0; 0; 0].
Definition blue_block : list Z := [200; 100; 0x88; 0xC6; 0xFA; 0x88; 0xC6; 0xFA; 0x1F; 0x00; 0x00; 0x00; 0xE4; 0; 0; 0xFF].
Example C33_own_block_example :
  let raw := red_block ++ blue_block in
  canvas as_is (file_of raw) (png_of 1026 8 4 raw) raw /\
  (exists l, extract_png as_is no_bc7 true (file_of raw) (png_of 1026 8 4 raw) = Ok l /\
    nth_error l 9 = Some [255; 0; 0; 85] /\ nth_error l 7 = Some [0; 0; 85; 102]) /\
  (exists l, extract_png as_is no_bc7 true (file_of raw) (png_of 2050 8 4 raw) = Ok l /\
    nth_error l 4 = Some [0; 0; 255; 200] /\ nth_error l 5 = Some [0; 0; 0; 100] /\ nth_error l 6 = Some [0; 0; 170; 186]
    /\ nth_error l 15 = Some [0; 0; 255; 114]).
Proof.
  split; [|split].
  - apply canvas_of; try lia; try reflexivity.
    + apply bytes_app. split; repeat constructor; unfold byte; lia.
    + apply (size_blocks 1026 8 4). left. reflexivity.
  - eexists. split; [vm_compute; reflexivity|]. split; reflexivity.
  - eexists. split; [vm_compute; reflexivity|]. repeat split.
Qed.

(** C92 (refuted): with a width that is no multiple of four pixels come from blocks of other pixels. *)
Theorem C92_any_width_refuted : exists raw w h x y, 0 <= x < w /\ 0 <= y < h /\
  exists l, canvas as_is (file_of raw) (png_of 1026 w h raw) raw /\
  extract_png as_is no_bc7 true (file_of raw) (png_of 1026 w h raw) = Ok l /\
  nth_error l (Z.to_nat (y * w + x)) <> Some (pixel_of 1026 raw w x y).
Proof.
  exists (red_block ++ red_block ++ blue_block ++ blue_block), 5, 8, 0, 4. split; [lia|]. split; [lia|].
  eexists. split; [|split; [vm_compute; reflexivity|vm_compute; discriminate]].
  apply canvas_of; try lia; try reflexivity.
  - rewrite !bytes_app. repeat split; repeat constructor; unfold byte; lia.
  - apply (size_blocks 1026 5 8). left. reflexivity.
Qed.
Print Assumptions C92_any_width_refuted.

(** C103: the feature rayon changes nothing when both sizes are multiples of four. *)
Theorem C103_rayon_same : forall inflate bc7 r p raw,
  pg_w p mod 4 = 0 -> pg_h p mod 4 = 0 -> canvas inflate r p raw ->
  extract_png inflate bc7 true r p = extract_png inflate bc7 false r p.
Proof.
  intros inflate bc7 r p raw W H (A & B & C & D & E & G & S & K).
  destruct (extract_picture inflate bc7 true r p raw (zlen raw)) as (l & E1 & P1); auto.
  destruct (extract_picture inflate bc7 false r p raw (zlen raw)) as (l' & E2 & P2); auto.
  rewrite E1, E2. f_equal. eapply picture_unique; eauto.
Qed.
Print Assumptions C103_rayon_same.
Example C103_rayon_same_example :
  let raw := red_block ++ blue_block in
  canvas as_is (file_of raw) (png_of 2050 4 8 raw) raw /\
  extract_png as_is no_bc7 false (file_of raw) (png_of 2050 4 8 raw) =
    Ok (map (dxt_px by_order dxt5_alpha red_block 0) (upto 16) ++ map (dxt_px by_order dxt5_alpha blue_block 0) (upto 16)).
Proof.
  split; [|vm_compute; reflexivity]. apply canvas_of; try lia; try reflexivity.
  - apply bytes_app. split; repeat constructor; unfold byte; lia.
  - apply (size_blocks 2050 4 8). right. reflexivity.
Qed.

(** C93 (refuted): without the feature rayon, a DXT picture of another size is a panic. *)
Theorem C93_serial_refuted : exists raw w h,
  canvas as_is (file_of raw) (png_of 1026 w h raw) raw /\
  (exists l, extract_png as_is no_bc7 true (file_of raw) (png_of 1026 w h raw) = Ok l) /\
  extract_png as_is no_bc7 false (file_of raw) (png_of 1026 w h raw) = Panic.
Proof.
  exists red_block, 4, 3. split; [|split].
  - apply canvas_of; try lia; try reflexivity.
    + repeat constructor; unfold byte; lia.
    + apply (size_blocks 1026 4 3). left. reflexivity.
  - eexists. vm_compute. reflexivity.
  - vm_compute. reflexivity.
Qed.
Print Assumptions C93_serial_refuted.

(** C94 (refuted): DXT3 and DXT5 blocks always have four colours, whatever the order of the two end colours. *)
Theorem C94_four_colors_refuted : exists raw x y, 0 <= x < 4 /\ 0 <= y < 4 /\
  exists l, canvas as_is (file_of raw) (png_of 1026 4 4 raw) raw /\
  extract_png as_is no_bc7 true (file_of raw) (png_of 1026 4 4 raw) = Ok l /\
  nth_error l (Z.to_nat (y * 4 + x)) <> Some (dxt_px four_colors dxt3_alpha raw 0 (in_block x y)).
Proof.
  exists [0; 0; 0; 0; 0; 0; 0; 0; 0; 0; 255; 255; 3; 0; 0; 0], 0, 0. split; [lia|]. split; [lia|].
  eexists. split; [|split; [vm_compute; reflexivity|vm_compute; discriminate]].
  apply canvas_of; try lia; try reflexivity.
  - repeat constructor; unfold byte; lia.
  - apply (size_blocks 1026 4 4). left. reflexivity.
Qed.
Print Assumptions C94_four_colors_refuted.

(** C34: a picture of form 517 whose sizes are multiples of 16 shows each stored pixel as a square of 16 by 16. *)
Theorem C34_squares : forall inflate bc7 rayon r p raw,
  fmt p = 517 -> canvas inflate r p raw ->
  exists l, extract_png inflate bc7 rayon r p = Ok l /\
    picture (pg_w p) (pg_h p) l (fun x y => px_565 (num raw (2 * (y / 16 * (pg_w p / 16) + x / 16)) 2)).
Proof.
  intros inflate bc7 rayon r p raw F (A & B & C & D & E & G & S & K). unfold fmt in *.
  destruct (extract_picture inflate bc7 rayon r p raw (zlen raw)) as (l & E1 & P); auto.
  1,2: rewrite F; unfold in_blocks; lia.
  exists l. split; [exact E1|]. revert P. rewrite F. apply picture_ext. reflexivity.
Qed.
Print Assumptions C34_squares.
Example C34_squares_example :
  let raw := [0x00; 0xF8; 0x1F; 0x00; 0xE0; 0x07; 0xFF; 0xFF] in
  canvas as_is (file_of raw) (png_of 517 32 32 raw) raw /\
  exists l, extract_png as_is no_bc7 true (file_of raw) (png_of 517 32 32 raw) = Ok l /\
    nth_error l 15 = Some [255; 0; 0] /\ nth_error l 16 = Some [0; 0; 255] /\
    nth_error l 512 = Some [0; 255; 0] /\ nth_error l 1023 = Some [255; 255; 255].
Proof.
  split.
  - apply canvas_of; try lia; try reflexivity.
    + repeat constructor; unfold byte; lia.
    + apply (size_517 32 32); reflexivity.
  - eexists. split; [vm_compute; reflexivity|]. repeat split.
Qed.

(** C95 (refuted): with other sizes every pixel would still show a stored colour. *)
Theorem C95_other_sizes_refuted : exists raw w h n l,
  get_buff_size RGB565_517 w h = Ok n /\ zlen raw = n /\
  (forall i, 0 <= i -> 2 * i + 1 < zlen raw -> num raw (2 * i) 2 = 0xFFFF) /\
  extract_png as_is no_bc7 true (file_of raw) (png_of 517 w h raw) = Ok l /\ In [0; 0; 0] l.
Proof.
  exists [255; 255; 255], 16, 24, 3. eexists. split; [reflexivity|]. split; [reflexivity|]. split.
  { intros i H0 H. unfold zlen in H. cbn [length Z.of_nat Pos.of_succ_nat Pos.succ] in H. assert (C : i = 0) by lia.
    subst i. reflexivity. }
  split; [vm_compute; reflexivity|]. apply (nth_error_In _ 256). reflexivity.
Qed.
Print Assumptions C95_other_sizes_refuted.

(** C35: it does not matter how the data are kept, as a zlib stream or as any sequence of sealed blocks. *)
Theorem C35_any_form : forall inflate bc7 rayon r r' p p' raw n,
  zlen (rd_buf r) < 2 ^ 63 -> zlen (rd_buf r') < 2 ^ 63 ->
  pg_fmt1 p = pg_fmt1 p' -> pg_fmt2 p = pg_fmt2 p' -> pg_w p = pg_w p' -> pg_h p = pg_h p' ->
  0 <= fmt p < 2 ^ 32 -> 0 <= pg_w p -> 0 <= pg_h p -> 16 * ((pg_w p + 3) * (pg_h p + 3)) < 2 ^ 32 ->
  data_size (fmt p) (pg_w p) (pg_h p) n ->
  kept inflate (rd_buf r) (rd_ks r) (pg_off p) (pg_size p) (pg_header p) n raw ->
  kept inflate (rd_buf r') (rd_ks r') (pg_off p') (pg_size p') (pg_header p') n raw ->
  extract_png inflate bc7 rayon r p = extract_png inflate bc7 rayon r' p'.
Proof.
  intros inflate bc7 rayon r r' p p' raw n Z Z' E1 E2 Ew Eh F W H S D K K'. unfold fmt in *.
  apply (extract_same inflate bc7 rayon r r' p p' n raw); try assumption.
  unfold png_format. rewrite wrap_small by exact F. apply buff_size; assumption.
Qed.
Print Assumptions C35_any_form.
(** One zlib stream, and the same as two blocks of 3 and 4 bytes under a key. *)
Definition key_ex (i : nat) : Z := nth (i mod 4) [0x11; 0x22; 0x33; 0x44] 0.
Definition sealed_ex : list Z :=
  [3; 0; 0; 0; Z.lxor 1 0x11; Z.lxor 2 0x22; Z.lxor 10 0x33;
   3; 0; 0; 0; Z.lxor 20 0x11; Z.lxor 30 0x22; Z.lxor 40 0x33].
Example C35_any_form_example :
  kept as_is ([9] ++ sealed_ex) key_ex 1 14 0 4 [10; 20; 30; 40] /\
  kept as_is ([9; 9] ++ [10; 20; 30; 40]) (fun _ => 0) 2 4 0xDA78 4 [10; 20; 30; 40] /\
  extract_png as_is no_bc7 true (mkRd ([9] ++ sealed_ex) key_ex (fun _ => 0)) (mkPng 1 14 2 0 0 1 1) = Ok [[30; 20; 10; 40]].
Proof.
  split; [|split].
  - exists sealed_ex. split; [exists [9], []; repeat split|]. right. split.
    { left. unfold zlib_start. lia. }
    exists [[1; 2; 10]; [20; 30; 40]]. split.
    + apply (one_more key_ex [1; 2; 10] [[20; 30; 40]] [Z.lxor 1 0x11; Z.lxor 2 0x22; Z.lxor 10 0x33]); [cbn; lia| |].
      * apply (KeysL.xor_ks_xored key_ex 0 [1; 2; 10]).
      * apply (one_more key_ex [20; 30; 40] [] [Z.lxor 20 0x11; Z.lxor 30 0x22; Z.lxor 40 0x33] []); [cbn; lia| |constructor].
        apply (KeysL.xor_ks_xored key_ex 0 [20; 30; 40]).
    + split; [cbn; lia|reflexivity].
  - exists [10; 20; 30; 40]. split; [exists [9; 9], []; repeat split|]. left. split; [right; left; reflexivity|reflexivity].
  - reflexivity.
Qed.

(** C46: data of the announced size give a picture with exactly width times height pixels, for every width and height. *)
Theorem C46_size : forall inflate bc7 r p raw, fmt p <> 3 -> canvas inflate r p raw ->
  exists l, extract_png inflate bc7 true r p = Ok l /\ zlen l = pg_w p * pg_h p.
Proof.
  intros inflate bc7 r p raw F3 (A & B & C & D & E & G & S & K). unfold fmt in *.
  assert (M : in_blocks (pg_fmt1 p + pg_fmt2 p) \/ ~ in_blocks (pg_fmt1 p + pg_fmt2 p)) by (unfold in_blocks; lia).
  destruct M as [M|M].
  - destruct (extract_blocks_any inflate bc7 r p raw (zlen raw)) as (l & E1 & P & _); auto. exists l. auto.
  - destruct (extract_picture inflate bc7 true r p raw (zlen raw)) as (l & E1 & P & _); auto.
    + tauto.
    + tauto.
    + exists l. auto.
Qed.
Print Assumptions C46_size.
Example C46_size_example :
  let raw := red_block ++ red_block ++ blue_block ++ blue_block in
  canvas as_is (file_of raw) (png_of 2050 7 5 raw) raw /\
  exists l, extract_png as_is no_bc7 true (file_of raw) (png_of 2050 7 5 raw) = Ok l /\ length l = 35%nat.
Proof.
  split.
  - apply canvas_of; try lia; try reflexivity.
    + rewrite !bytes_app. repeat split; repeat constructor; unfold byte; lia.
    + apply (size_blocks 2050 7 5). right. reflexivity.
  - eexists. split; [vm_compute; reflexivity|reflexivity].
Qed.

(** C46: the announced size is what the data of the format take. *)
Theorem C46_announced : forall f w h n, 0 <= w -> 0 <= h -> 16 * ((w + 3) * (h + 3)) < 2 ^ 32 -> data_size f w h n ->
  get_buff_size (fmt_of f) w h = Ok n.
Proof. exact buff_size. Qed.
Print Assumptions C46_announced.
Example C46_announced_example : get_buff_size (fmt_of 1026) 5 9 = Ok 96 /\ get_buff_size (fmt_of 517) 32 48 = Ok 12.
Proof. split; reflexivity. Qed.

(** C99 (refuted): data of the announced size decode, for format 3 too. *)
Theorem C99_small_dxt_refuted : exists raw w h,
  canvas as_is (file_of raw) (png_of 3 w h raw) raw /\ get_buff_size DXT3SM w h = Ok (zlen raw) /\
  extract_png as_is no_bc7 true (file_of raw) (png_of 3 w h raw) = Panic.
Proof.
  exists [0; 0; 0; 0], 1, 1. split; [|split; vm_compute; reflexivity].
  apply canvas_of; try lia; try reflexivity.
  - repeat constructor; unfold byte; lia.
  - apply (size_small 1 1).
Qed.
Print Assumptions C99_small_dxt_refuted.

(** C100 (refuted): the announced size is width times height times the bytes per pixel. *)
Theorem C100_huge_refuted : exists w h, 0 < w < 2 ^ 31 /\ 0 < h < 2 ^ 31 /\
  get_buff_size BGRA8888 w h = Ok 0 /\ 4 * (w * h) <> 0.
Proof. exists 65536, 16384. repeat split; try lia. Qed.
Print Assumptions C100_huge_refuted.

(** C96 (refuted): a damaged canvas is reported as an error. *)
Theorem C96_damaged_refuted : forall inflate bc7 rayon, exists r p,
  pg_off p + pg_size p <= zlen (rd_buf r) /\ extract_png inflate bc7 rayon r p = Panic.
Proof.
  intros. exists (mkRd [0; 0; 0; 0] (fun _ => 0) (fun _ => 0)), (mkPng 0 4 2 0 0 1 1). split; [cbn; lia|reflexivity].
Qed.
Print Assumptions C96_damaged_refuted.
(** C96 (refuted): nor is one with too few pixels. *)
Theorem C96_short_refuted : exists raw w h, zlen raw < 4 * (w * h) /\
  forall inflate bc7 rayon r p, zlen (rd_buf r) < 2 ^ 63 -> fmt p = 2 -> pg_w p = w -> pg_h p = h ->
  kept inflate (rd_buf r) (rd_ks r) (pg_off p) (pg_size p) (pg_header p) (4 * (w * h)) raw ->
  extract_png inflate bc7 rayon r p = Panic.
Proof.
  exists [1; 2; 3; 4], 1, 2. split; [cbn; lia|]. intros inflate bc7 rayon r p Hz F W H K.
  assert (EF : png_format p = BGRA8888) by (unfold png_format; unfold fmt in F; rewrite F; reflexivity).
  unfold extract_png. cbv zeta. rewrite (kept_bind inflate r p (4 * (1 * 2)) [1; 2; 3; 4]); try assumption.
  - rewrite EF, W, H. reflexivity.
  - rewrite EF, W, H. reflexivity.
Qed.
Print Assumptions C96_short_refuted.

(** C101: too few pixels of the formats 565 and 1555 are reported as an error. *)
Lemma traverse_err {A B} (f : A -> res B) e l :
  (forall a, In a l -> (exists b, f a = Ok b) \/ f a = Err e) -> (exists a, In a l /\ f a = Err e) -> traverse f l = Err e.
Proof.
  induction l as [|a l IH]; intros H (a' & Hi & He); [destruct Hi|]. cbn.
  destruct (H a (or_introl eq_refl)) as [(b & Fb)|Fe]; [|rewrite Fe; reflexivity]. rewrite Fb. cbn. unfold rmap. rewrite IH; [reflexivity| |].
  - intros a1 H1. apply H. right. exact H1.
  - destruct Hi as [->|Hi]; [congruence|eauto].
Qed.
Theorem C101_short_565 : forall inflate bc7 rayon r p raw,
  zlen (rd_buf r) < 2 ^ 63 -> fmt p = 513 \/ fmt p = 257 -> 0 <= pg_w p -> 0 <= pg_h p ->
  16 * ((pg_w p + 3) * (pg_h p + 3)) < 2 ^ 32 -> zlen raw < 2 * (pg_w p * pg_h p) ->
  kept inflate (rd_buf r) (rd_ks r) (pg_off p) (pg_size p) (pg_header p) (2 * (pg_w p * pg_h p)) raw ->
  exists e, extract_png inflate bc7 rayon r p = Err e.
Proof.
  intros inflate bc7 rayon r p raw Hz F W H S L K. exists ERead.
  assert (EF : png_format p = fmt_of (fmt p)) by (unfold png_format; fold (fmt p); rewrite wrap_small; [reflexivity|lia]).
  assert (C : get_buff_size (png_format p) (pg_w p) (pg_h p) = Ok (2 * (pg_w p * pg_h p))).
  { rewrite EF. apply buff_size; try assumption. constructor. unfold two_bytes. lia. }
  assert (Wh : pg_w p * pg_h p < 2 ^ 32) by nia.
  assert (G : forall conv, from_fn (pg_w p) (pg_h p) (fun x y => rmap conv (read_u16_at raw (at_xy (pg_w p) x y * 2))) = Err ERead).
  { intros conv. unfold from_fn. apply traverse_err.
    - intros [x y] _. cbn. unfold read_u16_at, read_at. destruct (slice _ _ _); cbn; eauto.
    - assert (Hp : 0 < pg_w p * pg_h p) by (pose proof (zlen_nonneg raw); lia).
      assert (0 < pg_w p /\ 0 < pg_h p) as (W0 & H0) by nia.
      exists (pg_w p - 1, pg_h p - 1). split.
      + apply in_flat_map. exists (pg_h p - 1). split; [apply in_upto; lia|].
        apply in_map_iff. exists (pg_w p - 1). split; [reflexivity|apply in_upto; lia].
      + cbn [fst snd]. rewrite (at_xy_small (pg_w p) (pg_h p)) by lia.
        unfold read_u16_at, read_at, slice. replace (_ <=? zlen raw) with false by (symmetry; apply Z.leb_gt; nia).
        rewrite andb_false_r. reflexivity. }
  unfold extract_png. cbv zeta. rewrite (kept_bind inflate r p _ raw _ Hz K C). rewrite EF.
  destruct F as [-> | ->]; apply G.
Qed.
Print Assumptions C101_short_565.
Example C101_short_565_example :
  extract_png as_is no_bc7 true (file_of [1; 2; 3]) (png_of 513 1 2 [1; 2; 3]) = Err ERead.
Proof. reflexivity. Qed.

(** C97 (refuted): every format with a known data size can be decoded. *)
Theorem C97_known_formats_refuted : exists f f', f = 2304 /\ f' = 4100 /\
  get_buff_size (fmt_of f) 1 1 = Ok 1 /\ get_buff_size (fmt_of f') 1 1 = Ok 16 /\
  forall inflate bc7 rayon r p l, 0 <= fmt p < 2 ^ 32 -> fmt p = f \/ fmt p = f' -> extract_png inflate bc7 rayon r p <> Ok l.
Proof.
  exists 2304, 4100. do 4 (split; [reflexivity|]). intros inflate bc7 rayon r p l R F0.
  assert (F : png_format p = A8 \/ png_format p = RGBA32Float).
  { unfold png_format. fold (fmt p). rewrite wrap_small by exact R. destruct F0 as [-> | ->]; [left|right]; reflexivity. }
  unfold extract_png. cbv zeta. destruct (range _ _ _); cbn; try discriminate. destruct (get_raw_data _ _ _ _); cbn; try discriminate.
  destruct F as [-> | ->]; discriminate.
Qed.
Print Assumptions C97_known_formats_refuted.

(** C98: the announced size of a BC7 picture is enough for its blocks when both sizes are multiples of four. *)
Theorem C98_bc7_blocks : forall w h, 0 <= w -> 0 <= h -> w mod 4 = 0 -> h mod 4 = 0 -> w * h < 2 ^ 32 ->
  get_buff_size BC7 w h = Ok (16 * ((w + 3) / 4 * ((h + 3) / 4))).
Proof.
  intros. cbn [get_buff_size]. rewrite H2, Z.sub_0_r, wrap_small by nia. f_equal.
  assert (W4 : w = 4 * ((w + 3) / 4)) by dlia. assert (H4 : h = 4 * ((h + 3) / 4)) by dlia.
  transitivity (4 * ((w + 3) / 4) * (4 * ((h + 3) / 4))); [rewrite <- W4, <- H4; reflexivity|ring].
Qed.
Print Assumptions C98_bc7_blocks.
Example C98_bc7_blocks_example : get_buff_size BC7 8 12 = Ok 96.
Proof. reflexivity. Qed.
(** C98 (refuted): for all sizes. *)
Theorem C98_bc7_size_refuted : exists w h n, 0 < w < 2 ^ 16 /\ 0 < h < 2 ^ 16 /\
  get_buff_size BC7 w h = Ok n /\ n < 16 * ((w + 3) / 4 * ((h + 3) / 4)).
Proof. exists 4, 6, 16. repeat split; try lia. Qed.
Print Assumptions C98_bc7_size_refuted.

(** C102: a BC7 picture has the pixels of the decoder, their bytes put in the order red, green, blue, alpha. *)
Theorem C102_bc7_pixels : forall inflate bc7 rayon r p raw n words,
  zlen (rd_buf r) < 2 ^ 63 -> fmt p = 4098 -> get_buff_size BC7 (pg_w p) (pg_h p) = Ok n ->
  kept inflate (rd_buf r) (rd_ks r) (pg_off p) (pg_size p) (pg_header p) n raw ->
  bc7 raw (pg_w p) (pg_h p) = Some words ->
  extract_png inflate bc7 rayon r p = Ok (map px_8888 words).
Proof.
  intros inflate bc7 rayon r p raw n words Hz F C K D.
  assert (EF : png_format p = BC7) by (unfold png_format; unfold fmt in F; rewrite F; reflexivity).
  unfold extract_png. cbv zeta. rewrite (kept_bind inflate r p n raw _ Hz K) by (rewrite EF; exact C). rewrite EF.
  unfold img_bc7. rewrite D. f_equal. apply map_ext. intros v. unfold px_8888, field. cbn [le_bytes].
  rewrite !Z.div_div by lia. rewrite Z.div_1_r. reflexivity.
Qed.
Print Assumptions C102_bc7_pixels.
Example C102_bc7_pixels_example :
  extract_png as_is (fun _ _ _ => Some [0xFF112233]) true (file_of [1; 2]) (png_of 4098 1 1 [1; 2]) = Ok [[0x11; 0x22; 0x33; 0xFF]].
Proof. reflexivity. Qed.

(** C114: a picture comes out only when the decompressor accepted the data of the canvas, asked for the
    announced size, and for BC7 only when the block decoder accepted what came out. *)
Theorem C114_no_picture : forall inflate bc7 rayon r p l,
  extract_png inflate bc7 rayon r p = Ok l ->
  exists zlib stored n raw, get_buff_size (png_format p) (pg_w p) (pg_h p) = Ok n /\
    inflate zlib stored n = Some raw /\
    (fmt p = 4098 -> exists words, bc7 raw (pg_w p) (pg_h p) = Some words /\ l = map px_8888 words).
Proof.
  intros inflate bc7 rayon r p l. unfold extract_png. cbv zeta.
  destruct (range _ _ _) as [data| | |]; cbn [rbind]; try discriminate.
  assert (G : forall raw, get_raw_data inflate r p data = Ok raw ->
    exists zlib stored n, get_buff_size (png_format p) (pg_w p) (pg_h p) = Ok n /\ inflate zlib stored n = Some raw).
  { intros raw. unfold get_raw_data. destruct (get_buff_size _ _ _) as [n| | |]; cbn [rbind]; try discriminate.
    assert (T : rbind (decrypt_blocks (S (length (rd_buf r))) r (pg_off p) (wrap 64 (pg_off p + pg_size p))) (fun dec =>
      rbind (range dec 2 (zlen dec)) (fun d => match inflate false d n with Some out => Ok out | None => Err (EOther 21) end)) = Ok raw ->
      exists zlib stored n0, Ok n = Ok n0 /\ inflate zlib stored n0 = Some raw).
    { destruct (decrypt_blocks _ _ _ _) as [dec| | |]; cbn [rbind]; try discriminate.
      destruct (range dec 2 _) as [d| | |]; cbn [rbind]; try discriminate.
      destruct (inflate false d n) as [out|] eqn:Ei; try discriminate. intros E.
      exists false, d, n. split; [reflexivity|]. rewrite Ei. congruence. }
    destruct (has_zlib_header p).
    - destruct (inflate true data n) as [out|] eqn:Ei; [|exact T].
      intros E. exists true, data, n. split; [reflexivity|]. rewrite Ei. congruence.
    - exact T. }
  destruct (get_raw_data inflate r p data) as [raw| | |]; cbn [rbind]; try discriminate.
  destruct (G raw eq_refl) as (z & st & n & E1 & E2). intros E.
  exists z, st, n, raw. split; [exact E1|]. split; [exact E2|]. intros F.
  assert (EF : png_format p = BC7) by (unfold png_format; unfold fmt in F; rewrite F; reflexivity).
  rewrite EF in E. unfold img_bc7 in E. destruct (bc7 raw (pg_w p) (pg_h p)) as [words|]; [|discriminate].
  exists words. split; [reflexivity|].
  assert (Em : forall ws, map (fun v => match le_bytes 4 v with [b; g; r; a] => [r; g; b; a] | _ => [] end) ws = map px_8888 ws).
  { intros ws. apply map_ext. intros v. unfold px_8888, field. cbn [le_bytes].
    rewrite !Z.div_div by lia. rewrite Z.div_1_r. reflexivity. }
  rewrite Em in E. congruence.
Qed.
Print Assumptions C114_no_picture.
Example C114_no_picture_example :
  extract_png (fun _ _ _ => None) no_bc7 true (file_of [1; 2; 3; 4]) (png_of 2 1 1 [1; 2; 3; 4]) = Panic /\
  extract_png (fun z d _ => if z then None else Some d) no_bc7 true (mkRd [3; 0; 0; 0; 1; 2; 9] (fun _ => 0) (fun _ => 0))
    (mkPng 0 7 513 0 0 1 1) = Err ERead /\
  extract_png (fun _ _ _ => None) no_bc7 true (mkRd [3; 0; 0; 0; 1; 2; 9] (fun _ => 0) (fun _ => 0))
    (mkPng 0 7 513 0 0 1 1) = Err (EOther 21) /\
  extract_png as_is no_bc7 true (file_of [1; 2]) (png_of 4098 1 1 [1; 2]) = Err (EOther 22).
Proof. repeat split. Qed.

(** C100 (refuted): with such sizes the coarse 565 format (517) is a panic, however much data there is. *)
Theorem C100_coarse_refuted : exists w h, 0 < w < 2 ^ 31 /\ 0 < h < 2 ^ 31 /\ w mod 16 = 0 /\ h mod 16 = 0 /\
  forall raw, 2 <= zlen raw -> pixels_517 raw w h = Panic.
Proof.
  exists 65536, 32768. do 4 (split; [try lia; reflexivity|]). intros raw H.
  destruct raw as [|a [|b raw]]; cbn in H; try lia. clear H. unfold pixels_517.
  assert (U1 : exists t, upto (65536 / 16) = 0 :: t) by (eexists; vm_compute; reflexivity).
  assert (U2 : exists t, upto (32768 / 16) = 0 :: t) by (eexists; vm_compute; reflexivity).
  assert (U3 : exists t, upto 16 = 0 :: t) by (eexists; vm_compute; reflexivity).
  destruct U1 as (t1 & ->). destruct U2 as (t2 & ->). destruct U3 as (t3 & ->). reflexivity.
Qed.
Print Assumptions C100_coarse_refuted.
