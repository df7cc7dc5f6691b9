(** The WZ string encodings, written down independently of the reader. *)
From Coq Require Import ZArith List Bool.
From Verif.Spec Require Import Wire.
Import ListNotations.
Open Scope Z_scope.

(** Character [i] of an ASCII string is XORed with (0xAA + i) mod 256 and key byte [i]. *)
Definition body_ascii (ks : nat -> Z) (t : list Z) : list Z :=
  map (fun i => Z.lxor (Z.lxor (nth i t 0) ((170 + Z.of_nat i) mod 256)) (ks i)) (seq 0 (length t)).

(** UTF-16 code units of a text. *)
Definition units16 (t : list Z) : list Z :=
  flat_map (fun c => if c <? 65536 then [c]
                     else [55296 + (c - 65536) / 1024; 56320 + (c - 65536) mod 1024]) t.

(** Unit [i] is XORed with (0xAAAA + i) mod 65536, stored little-endian, and its two bytes
    are XORed with key bytes [2i] and [2i+1]. *)
Definition body_unicode (ks : nat -> Z) (us : list Z) : list Z :=
  flat_map (fun i => let x := Z.lxor (nth i us 0) ((43690 + Z.of_nat i) mod 65536) in
                     [Z.lxor (x mod 256) (ks (2 * i)%nat); Z.lxor (x / 256) (ks (2 * i + 1)%nat)])
           (seq 0 (length us)).

(** Length prefixes: one signed byte, negative for ASCII and positive for UTF-16; the
    extreme values -128 and 127 announce a 32-bit length. *)
Definition len_ascii (n : Z) : list Z := if n <=? 127 then [256 - n] else 128 :: enc_le 4 n.
Definition len_unicode (n : Z) : list Z := if n <=? 126 then [n] else 127 :: enc_le 4 n.

(** A stored string.  Pure ASCII text is stored in the first form, any other text in the second. *)
Definition enc_str (ks : nat -> Z) (t : list Z) : list Z :=
  match t with
  | [] => [0]
  | _ => if forallb (fun c => c <? 128) t
         then len_ascii (Z.of_nat (length t)) ++ body_ascii ks t
         else len_unicode (Z.of_nat (length (units16 t))) ++ body_unicode ks (units16 t)
  end.

(** Package-2 directory names: negated number of UTF-16 units as one signed
    byte, then the units little-endian, XORed with the name key. *)
Definition body_pkg2 (ks : nat -> Z) (us : list Z) : list Z :=
  flat_map (fun i => [Z.lxor (nth i us 0 mod 256) (ks (2 * i)%nat);
                      Z.lxor (nth i us 0 / 256) (ks (2 * i + 1)%nat)])
           (seq 0 (length us)).
Definition enc_pkg2_name (ks : nat -> Z) (t : list Z) : list Z :=
  (256 - Z.of_nat (length (units16 t))) :: body_pkg2 ks (units16 t).

(** Unicode text. *)
Definition unicode (t : list Z) : Prop :=
  Forall (fun c => 0 <= c < 0xD800 \/ 0xE000 <= c <= 0x10FFFF) t.
