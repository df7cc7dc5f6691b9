(** Pictures and pixel formats, told by arithmetic on the stored bytes.
    None of this refers to the decoder. *)
From Coq Require Import ZArith List.
Import ListNotations.
From Verif.Spec Require Import Wire Stream PropWire.
Open Scope Z_scope.

(** A picture of [w] columns and [h] lines, stored line by line, whose pixel in column [x] of line [y] is [g x y]. *)
Definition picture (w h : Z) (l : list (list Z)) (g : Z -> Z -> list Z) : Prop :=
  Z.of_nat (length l) = w * h /\
  forall x y, 0 <= x < w -> 0 <= y < h -> nth_error l (Z.to_nat (y * w + x)) = Some (g x y).

(** The byte at a position, and the number kept least significant byte first in [n] bytes. *)
Definition byte_at (raw : list Z) (p : Z) : Z := nth (Z.to_nat p) raw 0.
Fixpoint num (raw : list Z) (p : Z) (n : nat) : Z :=
  match n with O => 0 | S k => byte_at raw p + 256 * num raw (p + 1) k end.

(** [n] bits from bit [lo] on. *)
Definition field (v lo n : Z) : Z := v / 2 ^ lo mod 2 ^ n.
(** Widening to eight bits by repeating the leading bits. *)
Definition x4 (v : Z) : Z := 17 * v.
Definition x5 (v : Z) : Z := 8 * v + v / 4.
Definition x6 (v : Z) : Z := 4 * v + v / 16.

Definition px_4444 (c : Z) : list Z := [x4 (field c 8 4); x4 (field c 4 4); x4 (field c 0 4); x4 (field c 12 4)].
Definition px_565 (c : Z) : list Z := [x5 (field c 11 5); x6 (field c 5 6); x5 (field c 0 5)].
Definition px_1555 (c : Z) : list Z :=
  [x5 (field c 10 5); x5 (field c 5 5); x5 (field c 0 5); 255 * field c 15 1].
Definition px_8888 (c : Z) : list Z := [field c 16 8; field c 8 8; field c 0 8; field c 24 8].
Definition px_1010102 (c : Z) : list Z :=
  [field c 0 10 / 4; field c 10 10 / 4; field c 20 10 / 4; 85 * field c 30 2].
Definition px_r16 (c : Z) : list Z := [c; 0; 0; 65535].

(** The four colours of a block with end colours [c0], [c1]: with [c0] above [c1] the two in between are at one and
    two thirds, else the third is half way and the last is black. *)
Definition mix (f : Z -> Z -> Z) (c0 c1 : Z) : list Z :=
  map (fun i => f (nth i (px_565 c0) 0) (nth i (px_565 c1) 0)) [0; 1; 2]%nat.
Definition four_colors (c0 c1 : Z) : list (list Z) :=
  [px_565 c0; px_565 c1; mix (fun a b => (2 * a + b + 1) / 3) c0 c1; mix (fun a b => (a + 2 * b + 1) / 3) c0 c1].
Definition three_colors (c0 c1 : Z) : list (list Z) :=
  [px_565 c0; px_565 c1; mix (fun a b => (a + b) / 2) c0 c1; [0; 0; 0]].
Definition by_order (c0 c1 : Z) : list (list Z) := if c1 <? c0 then four_colors c0 c1 else three_colors c0 c1.

(** The eight alpha values of a DXT5 block. *)
Definition alphas (a0 a1 i : Z) : Z :=
  if i =? 0 then a0 else if i =? 1 then a1
  else if a1 <? a0 then ((8 - i) * a0 + (i - 1) * a1 + 3) / 7
  else if i <? 6 then ((6 - i) * a0 + (i - 1) * a1 + 2) / 5
  else if i =? 6 then 0 else 255.

(** Pixel [k] (0 to 15, line by line) of the block at byte [p]: two bits select the colour, alpha is four bits (DXT3)
    or selected by three (DXT5). *)
Definition dxt_color (palette : Z -> Z -> list (list Z)) (raw : list Z) (p k : Z) : list Z :=
  nth (Z.to_nat (field (num raw (p + 12) 4) (2 * k) 2)) (palette (num raw (p + 8) 2) (num raw (p + 10) 2)) [].
Definition dxt3_alpha (raw : list Z) (p k : Z) : Z := x4 (field (num raw p 8) (4 * k) 4).
Definition dxt5_alpha (raw : list Z) (p k : Z) : Z :=
  alphas (byte_at raw p) (byte_at raw (p + 1)) (field (num raw (p + 2) 6) (3 * k) 3).
Definition dxt_px (palette : Z -> Z -> list (list Z)) (alpha : list Z -> Z -> Z -> Z) (raw : list Z) (p k : Z) : list Z :=
  dxt_color palette raw p k ++ [alpha raw p k].

(** The block of a pixel when a line of blocks has [cols] blocks, and the pixel within it. *)
Definition block_of (cols x y : Z) : Z := 16 * (y / 4 * cols + x / 4).
Definition in_block (x y : Z) : Z := 4 * (y mod 4) + x mod 4.

(** Blocks of bytes as kept on file: the length as four bytes, then the bytes added (xor) to the key from its start. *)
Inductive blocks_on_file (key : nat -> Z) : list (list Z) -> list Z -> Prop :=
| no_blocks : blocks_on_file key [] []
| one_more b bs s rest : Z.of_nat (length b) < 2 ^ 31 -> xored key 0 b s -> blocks_on_file key bs rest ->
    blocks_on_file key (b :: bs) (enc_le 4 (Z.of_nat (length b)) ++ s ++ rest).

(** Format numbers: 1 (4 bits per channel), 2 (8 bits), 257 (1555), 513 (565), 517 (565, one pixel for 16 by 16),
    769 (16 bits of red), 1026 (DXT3), 2050 (DXT5), 2562 (10 bits), 3 (DXT3 with more space). *)
Definition two_bytes (f : Z) : Prop := f = 1 \/ f = 257 \/ f = 513 \/ f = 769.
Definition four_bytes (f : Z) : Prop := f = 2 \/ f = 2562.
Definition in_blocks (f : Z) : Prop := f = 1026 \/ f = 2050.
(** [n] bytes hold a picture of that format and size. *)
Inductive data_size : Z -> Z -> Z -> Z -> Prop :=
| size_two f w h : two_bytes f -> data_size f w h (2 * (w * h))
| size_four f w h : four_bytes f -> data_size f w h (4 * (w * h))
| size_blocks f w h : in_blocks f -> data_size f w h (16 * ((w + 3) / 4 * ((h + 3) / 4)))
| size_small w h : data_size 3 w h (4 * (w * h))
| size_517 w h : w mod 16 = 0 -> h mod 16 = 0 -> data_size 517 w h (2 * (w / 16 * (h / 16))).

(** The colour of the pixel in column [x], line [y] for each format. *)
Definition pixel_of (f : Z) (raw : list Z) (w x y : Z) : list Z :=
  if f =? 1 then px_4444 (num raw (2 * (y * w + x)) 2)
  else if f =? 257 then px_1555 (num raw (2 * (y * w + x)) 2)
  else if f =? 513 then px_565 (num raw (2 * (y * w + x)) 2)
  else if f =? 769 then px_r16 (num raw (2 * (y * w + x)) 2)
  else if f =? 2 then px_8888 (num raw (4 * (y * w + x)) 4)
  else if f =? 2562 then px_1010102 (num raw (4 * (y * w + x)) 4)
  else if f =? 517 then px_565 (num raw (2 * (y / 16 * (w / 16) + x / 16)) 2)
  else if f =? 2050 then dxt_px by_order dxt5_alpha raw (block_of ((w + 3) / 4) x y) (in_block x y)
  else dxt_px by_order dxt3_alpha raw (block_of ((w + 3) / 4) x y) (in_block x y).

(** The file keeps [raw] compressed in the [size] bytes at [off]: either as a zlib stream, told by its first two bytes,
    or as sealed blocks whose contents are a zlib stream of which the first two bytes are to be dropped.
    [inflate] is the decompressor: with or without the two bytes, and with a limit. *)
Definition zlib_start (header : Z) : Prop := header = 0x9C78 \/ header = 0xDA78 \/ header = 0x0178 \/ header = 0x5E78.
Definition kept (inflate : bool -> list Z -> Z -> option (list Z)) (buf : list Z) (key : nat -> Z)
    (off size header limit : Z) (raw : list Z) : Prop :=
  exists file, at_ buf off (off + size) file /\
    ((zlib_start header /\ inflate true file limit = Some raw) \/
     ((~ zlib_start header \/ inflate true file limit = None) /\
      exists bs, blocks_on_file key bs file /\ (2 <= length (concat bs))%nat /\
        inflate false (skipn 2 (concat bs)) limit = Some raw)).
