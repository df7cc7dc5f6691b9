(** The stream cipher SNOW 2.0 (Ekdahl and Johansson), and data hidden by adding its key stream. *)
From Coq Require Import ZArith List Bool.
From Verif.Spec Require Import Aes Wire.
Import ListNotations.
Open Scope Z_scope.

(** GF(2^8) modulo x^8 + x^7 + x^5 + x^3 + 1; [beta] is its element x. *)
Definition bxtime (a : Z) : Z := if a <? 128 then 2 * a else Z.lxor (2 * a) 0x1A9.
Fixpoint bmul_ (n : nat) (a b : Z) : Z :=
  match n with
  | O => 0
  | S k => Z.lxor (if Z.odd b then a else 0) (bmul_ k (bxtime a) (b / 2))
  end.
Definition beta_pow (n : nat) : Z := Nat.iter n bxtime 1.
(** A byte times four powers of [beta], as a word. *)
Definition beta_word (a : Z) (e3 e2 e1 e0 : nat) : Z :=
  let m e := bmul_ 8 (beta_pow e) a in
  m e3 * 2 ^ 24 + m e2 * 2 ^ 16 + m e1 * 2 ^ 8 + m e0.
(** GF(2^32) over it: alpha is a root of x^4 + beta^23 x^3 + beta^245 x^2 + beta^48 x + beta^239. *)
Definition alpha (w : Z) : Z := Z.lxor ((w mod 2 ^ 24) * 256) (beta_word (w / 2 ^ 24) 23 245 48 239).
Definition alpha_inv (w : Z) : Z := Z.lxor (w / 256) (beta_word (w mod 256) 16 39 6 64).
(** The AES round on one column: SubBytes, then MixColumn. *)
Definition s_word (w : Z) : Z :=
  match mix_column (map sub [w mod 256; w / 2 ^ 8 mod 256; w / 2 ^ 16 mod 256; w / 2 ^ 24]) with
  | [a; b; c; d] => a + b * 2 ^ 8 + c * 2 ^ 16 + d * 2 ^ 24
  | _ => 0
  end.

(** The shift register, oldest word first, and the two registers of the state machine. *)
Record snow : Type := Snow { lfsr : list Z; reg1 : Z; reg2 : Z }.
Definition word (st : snow) (i : nat) : Z := nth i (lfsr st) 0.
Definition fsm (st : snow) : Z := Z.lxor ((word st 15 + reg1 st) mod 2 ^ 32) (reg2 st).
Definition clock (feed : Z) (st : snow) : snow :=
  let new := Z.lxor (Z.lxor (alpha_inv (word st 11)) (word st 2)) (Z.lxor (alpha (word st 0)) feed) in
  Snow (tl (lfsr st) ++ [new]) ((word st 5 + reg2 st) mod 2 ^ 32) (s_word (reg1 st)).
Definition flip (w : Z) : Z := Z.lxor w 0xFFFFFFFF.
(** The state loaded with the key words (k3, k2, k1, k0) and the IV 0, clocked 32 times with feedback. *)
Definition loaded (k3 k2 k1 k0 : Z) : snow :=
  Snow [flip k0; flip k1; flip k2; flip k3; k0; k1; k2; k3; flip k0; flip k1; flip k2; flip k3; k0; k1; k2; k3] 0 0.
Definition mixed (k3 k2 k1 k0 : Z) : snow :=
  Nat.iter 32 (fun st => clock (fsm st) st) (loaded k3 k2 k1 k0).
(** Key stream word [n]: the output after [n + 1] more clocks. *)
Definition snow_word (k3 k2 k1 k0 : Z) (n : nat) : Z :=
  let st := Nat.iter (S n) (clock 0) (mixed k3 k2 k1 k0) in Z.lxor (fsm st) (word st 0).

(** SNOW 2.0 with a key of 16 bytes, big-endian. *)
Definition be_word (key : list Z) (i : nat) : Z :=
  nth i key 0 * 2 ^ 24 + nth (i + 1) key 0 * 2 ^ 16 + nth (i + 2) key 0 * 2 ^ 8 + nth (i + 3) key 0.
Definition snow_stream (key : list Z) : nat -> Z :=
  snow_word (be_word key 0) (be_word key 4) (be_word key 8) (be_word key 12).

(** The variant of the archives: in each key word everything above its last byte of 0x80 or more is ones. *)
Definition signed_word (key : list Z) (i : nat) : Z :=
  let b j := nth (i + j) key 0 in
  if 128 <=? b 3%nat then 0xFFFFFF00 + b 3%nat
  else if 128 <=? b 2%nat then 0xFFFF0000 + b 2%nat * 2 ^ 8 + b 3%nat
  else if 128 <=? b 1%nat then 0xFF000000 + b 1%nat * 2 ^ 16 + b 2%nat * 2 ^ 8 + b 3%nat
  else be_word key i.
Definition ms_stream (key : list Z) : nat -> Z :=
  snow_word (signed_word key 0) (signed_word key 4) (signed_word key 8) (signed_word key 12).

(** [plain] hidden: each little-endian word gets its key stream word added, from word [n] on; a rest
    of fewer than four bytes stays as it is. *)
Inductive added (ks : nat -> Z) : nat -> list Z -> list Z -> Prop :=
| added_rest n rest : (length rest < 4)%nat -> added ks n rest rest
| added_word n w plain out :
    0 <= w < 2 ^ 32 -> added ks (S n) plain out ->
    added ks n (enc_le 4 w ++ plain) (enc_le 4 ((w + ks n) mod 2 ^ 32) ++ out).

(** Published test vectors for 128-bit keys and IV 0. *)
Example snow_vector_1 :
  map (snow_stream (0x80 :: repeat 0 15)) (seq 0 3) = [0x8D590AE9; 0xA74A7D05; 0x6DC9CA74].
Proof. vm_compute. reflexivity. Qed.
Example snow_vector_2 :
  map (snow_stream (repeat 0xAA 16)) (seq 0 3) = [0xE00982F5; 0x25F02054; 0x214992D8].
Proof. vm_compute. reflexivity. Qed.
