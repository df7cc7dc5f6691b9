(** AES-256 encryption of one block as in FIPS 197: the block cipher behind the key streams. *)
From Coq Require Import ZArith List Bool.
Import ListNotations.
Open Scope Z_scope.

(** Multiplication by x, and of two elements, in GF(2^8) modulo x^8 + x^4 + x^3 + x + 1. *)
Definition xtime (a : Z) : Z := if a <? 128 then 2 * a else Z.lxor (2 * a) 0x11B.
Fixpoint gmul_ (n : nat) (a b : Z) : Z :=
  match n with
  | O => 0
  | S k => Z.lxor (if Z.odd b then a else 0) (gmul_ k (xtime a) (b / 2))
  end.
Definition gmul (a b : Z) : Z := gmul_ 8 a b.
(** The 254th power, that is the inverse (0 for 0). *)
Definition ginv (a : Z) : Z :=
  let sq x := gmul x x in
  let a2 := sq a in let a4 := sq a2 in let a8 := sq a4 in let a16 := sq a8 in
  let a32 := sq a16 in let a64 := sq a32 in let a128 := sq a64 in
  gmul a128 (gmul a64 (gmul a32 (gmul a16 (gmul a8 (gmul a4 a2))))).
(** SubBytes: the inverse, XORed with itself rotated left by 1 to 4 bits and with 0x63. *)
Definition rotl8 (n x : Z) : Z := (x * 2 ^ n) mod 256 + x / 2 ^ (8 - n).
Definition sbox (a : Z) : Z :=
  let b := ginv a in
  Z.lxor (Z.lxor (Z.lxor b (rotl8 1 b)) (Z.lxor (rotl8 2 b) (rotl8 3 b))) (Z.lxor (rotl8 4 b) 0x63).
Definition sbox_table : list Z := Eval vm_compute in map (fun i => sbox (Z.of_nat i)) (seq 0 256).
Definition sub (a : Z) : Z := nth (Z.to_nat a) sbox_table 0.

(** Key expansion for 8 words: [n] more words, [i] is the number of the next one, [ws] those so far, last first. *)
Definition sub_word (w : list Z) : list Z := map sub w.
Definition rot_word (w : list Z) : list Z := tl w ++ firstn 1 w.
Definition rcon (i : nat) : Z := Nat.iter (i - 1) xtime 1.
Definition xor_word (a b : list Z) : list Z := map (fun p => Z.lxor (fst p) (snd p)) (combine a b).
Fixpoint expand (n i : nat) (ws : list (list Z)) : list (list Z) :=
  match n with
  | O => ws
  | S k =>
    let t := nth 0 ws [] in
    let t := if Nat.eqb (i mod 8) 0 then xor_word (sub_word (rot_word t)) [rcon (i / 8); 0; 0; 0]
             else if Nat.eqb (i mod 8) 4 then sub_word t else t in
    expand k (S i) (xor_word (nth 7 ws []) t :: ws)
  end.
Fixpoint words (l : list Z) : list (list Z) :=
  match l with a :: b :: c :: d :: r => [a; b; c; d] :: words r | _ => [] end.
(** The 15 round keys of 16 bytes. *)
Definition round_keys (key : list Z) : list (list Z) :=
  let ws := rev (expand 52 8 (rev (words key))) in
  map (fun i => concat (firstn 4 (skipn (4 * i) ws))) (seq 0 15).

(** The state is kept as the 16 input bytes, column by column. *)
Definition shift_rows (s : list Z) : list Z :=
  map (fun i => nth ((i + 4 * (i mod 4)) mod 16) s 0) (seq 0 16).
Definition mix_column (c : list Z) : list Z :=
  match c with
  | [a; b; c; d] =>
    map (fun t => match t with (w, x, y, z) => Z.lxor (Z.lxor (xtime w) (Z.lxor (xtime x) x)) (Z.lxor y z) end)
      [(a, b, c, d); (b, c, d, a); (c, d, a, b); (d, a, b, c)]
  | _ => c
  end.
Definition mix_columns (s : list Z) : list Z := flat_map mix_column (words s).
Definition round (s k : list Z) : list Z := xor_word (mix_columns (shift_rows (map sub s))) k.
Definition aes256 (key : list Z) : list Z -> list Z :=
  let ks := round_keys key in
  fun block =>
    let s := fold_left round (firstn 13 (tl ks)) (xor_word block (hd [] ks)) in
    xor_word (shift_rows (map sub s)) (nth 14 ks []).

(** The example of FIPS 197, appendix C.3. *)
Example fips_197_c3 :
  aes256 (map Z.of_nat (seq 0 32)) (map (fun i => Z.of_nat (17 * i)) (seq 0 16)) =
  [0x8e; 0xa2; 0xb7; 0xca; 0x51; 0x67; 0x45; 0xbf; 0xea; 0xfc; 0x49; 0x90; 0x4b; 0x49; 0x60; 0x89].
Proof. vm_compute. reflexivity. Qed.
