(** What it means for a version hash to belong to a package header. *)
From Coq Require Import ZArith List Bool Lia.
Import ListNotations.
Open Scope Z_scope.

(** 32-bit values. *)
Definition u32 (x : Z) : Prop := 0 <= x < 2 ^ 32.
Definition u64 (x : Z) : Prop := 0 <= x < 2 ^ 64.

(** [y] is [x] with its 32 bits turned left by [k] places. *)
Definition rotated (x k y : Z) : Prop :=
  u32 y /\ forall i, 0 <= i < 32 -> Z.testbit y ((i + k) mod 32) = Z.testbit x i.

(** Header equations: [h2] is made from [h1] and the version hash [v]. *)
Definition eq_v1 (h1 h2 v : Z) : Prop := exists r, rotated h1 7 r /\ h2 = Z.lxor r v.
Definition eq_v2 (h1 h2 v : Z) : Prop :=
  exists r, rotated (Z.lxor h1 ((v + 0x1A2B3C4D) mod 2 ^ 32)) (v mod 32) r /\ h2 = Z.lxor r v.
Definition eq_v3 (h1 h2 v : Z) : Prop :=
  exists r, rotated (Z.lxor h1 ((v + 0x1A2B3C4D) mod 2 ^ 32)) (v mod 16 + h1 mod 16) r /\
            h2 = 2 ^ 32 - 1 - Z.lxor (Z.lxor r v) h1.

(** The 32-bit mixer (xor-shift / multiply), with divisions for the shifts. *)
Definition mix32 (x : Z) : Z :=
  let a := Z.lxor x (x / 65536) in
  let b := (a * 0x7FEB352D) mod 2 ^ 32 in
  let c := Z.lxor b (b / 32768) in
  let d := (c * 0x846CA68B) mod 2 ^ 32 in
  Z.lxor d (d / 65536).

Definition scrambled_v45 (h1 v out : Z) : Prop :=
  let m := Z.lxor (mix32 (Z.lxor (Z.lxor h1 v) 0x6D4C3B2A)) 0x91E10DA5 in
  exists r, rotated (Z.lxor h1 ((m mod 65536 + v + 0x1A2B3C4D) mod 2 ^ 32))
                    (Z.lxor m v mod 16 + h1 mod 16) r /\
            out = Z.lxor r ((Z.lxor h1 v + m) mod 2 ^ 32).
Definition eq_v4 (h1 h2 v : Z) : Prop := scrambled_v45 h1 v (2 ^ 32 - 1 - h2).
Definition eq_v5 (h1 h2 v : Z) : Prop := scrambled_v45 h1 v (Z.lxor h2 0x2A2C818B).
Definition eq_v6 (h1 h2 v : Z) : Prop := Z.lxor (Z.lxor h1 h2) v = 0xABCDEF0123456789.

(** Decimal notation: [ds] is the usual decimal representation of [v >= 0]. *)
Fixpoint horner (acc : Z) (ds : list Z) : Z :=
  match ds with [] => acc | d :: r => horner (acc * 10 + d) r end.
Definition decimal (v : Z) (ds : list Z) : Prop :=
  ds <> [] /\ Forall (fun d => 0 <= d < 10) ds /\ horner 0 ds = v /\
  (hd 0 ds = 0 -> ds = [0]).

(** Version hash of a decimal digit string: h := 32 h + (char code) + 1. *)
Fixpoint digit_hash (acc : Z) (ds : list Z) : Z :=
  match ds with [] => acc | d :: r => digit_hash (32 * acc + (48 + d) + 1) r end.

(** The one-byte version field: complement of the xor of the four bytes. *)
Definition folded (h : Z) : Z :=
  Z.lxor 255 (Z.lxor (Z.lxor (h mod 256) (h / 256 mod 256))
                     (Z.lxor (h / 65536 mod 256) (h / 16777216 mod 256))).
