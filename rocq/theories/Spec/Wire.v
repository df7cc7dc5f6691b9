(** The WZ wire encodings, written down independently of the reader. *)
From Coq Require Import ZArith List Bool.
Import ListNotations.
Open Scope Z_scope.

(** Two's complement little-endian encoding of an integer in [n] bytes: byte
    number [i] is the integer divided by 256^i (rounding down), modulo 256. *)
Definition enc_le (n : nat) (v : Z) : list Z :=
  map (fun i => (v / 2 ^ (8 * Z.of_nat i)) mod 256) (seq 0 n).

(** Compressed integer: one signed byte if the value is in -127..127, else the
    marker byte 0x80 and the value in [n] bytes (4 for i32, 8 for i64). *)
Definition enc_wzint (n : nat) (v : Z) : list Z :=
  if (-127 <=? v) && (v <=? 127) then enc_le 1 v else 128 :: enc_le n v.

(** What it means for [v] to be the unsigned little-endian number stored in
    the [n] bytes of [buf] at position [pos]. *)
Definition stored_at (buf : list Z) (pos : Z) (n : nat) (v : Z) : Prop :=
  0 <= v < 2 ^ (8 * Z.of_nat n) /\
  forall i, (i < n)%nat ->
    nth_error buf (Z.to_nat pos + i) = Some ((v / 2 ^ (8 * Z.of_nat i)) mod 256).
