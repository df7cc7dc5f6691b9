(** The block function of ChaCha20 (RFC 8439). *)
From Coq Require Import ZArith List Bool.
From Verif.Spec Require Import Wire.
Import ListNotations.
Open Scope Z_scope.

Definition low32 (a : Z) : Z := Z.land a 0xFFFFFFFF.
Definition add32 (a b : Z) : Z := low32 (a + b).
Definition rol32 (a n : Z) : Z := Z.lor (low32 (Z.shiftl a n)) (Z.shiftr a (32 - n)).
Definition quarter (a b c d : Z) : Z * Z * Z * Z :=
  let a := add32 a b in let d := rol32 (Z.lxor d a) 16 in
  let c := add32 c d in let b := rol32 (Z.lxor b c) 12 in
  let a := add32 a b in let d := rol32 (Z.lxor d a) 8 in
  let c := add32 c d in let b := rol32 (Z.lxor b c) 7 in
  (a, b, c, d).
Definition chacha_put (l : list Z) (i : nat) (v : Z) : list Z := firstn i l ++ [v] ++ skipn (S i) l.
Definition quarter_at (s : list Z) (q : nat * nat * nat * nat) : list Z :=
  match q with
  | (i, j, k, l) =>
    match quarter (nth i s 0) (nth j s 0) (nth k s 0) (nth l s 0) with
    | (a, b, c, d) => chacha_put (chacha_put (chacha_put (chacha_put s i a) j b) k c) l d
    end
  end.
Definition double_round (s : list Z) : list Z :=
  fold_left quarter_at
    [(0, 4, 8, 12); (1, 5, 9, 13); (2, 6, 10, 14); (3, 7, 11, 15);
     (0, 5, 10, 15); (1, 6, 11, 12); (2, 7, 8, 13); (3, 4, 9, 14)]%nat s.
Fixpoint le_words (l : list Z) : list Z :=
  match l with
  | a :: b :: c :: d :: r => (a + 2 ^ 8 * b + 2 ^ 16 * c + 2 ^ 24 * d) :: le_words r
  | _ => []
  end.
(** 64 bytes from a key of 32 bytes, a nonce of 12 bytes and the block counter. *)
Definition chacha_block (key nonce : list Z) (counter : Z) : list Z :=
  let s := [0x61707865; 0x3320646e; 0x79622d32; 0x6b206574] ++ le_words key ++ [low32 counter] ++ le_words nonce in
  flat_map (fun p => enc_le 4 (add32 (fst p) (snd p))) (combine s (Nat.iter 10 double_round s)).

(** RFC 8439, section 2.3.2. *)
Example chacha_vector :
  firstn 8 (chacha_block (map Z.of_nat (seq 0 32)) [0; 0; 0; 9; 0; 0; 0; 0x4a; 0; 0; 0; 0] 1) =
  [0x10; 0xf1; 0xe7; 0xe4; 0xd1; 0x3b; 0x59; 0x15] /\
  skipn 60 (chacha_block (map Z.of_nat (seq 0 32)) [0; 0; 0; 9; 0; 0; 0; 0x4a; 0; 0; 0; 0] 1) = [0xa2; 0x50; 0x3c; 0x4e].
Proof. vm_compute. split; reflexivity. Qed.
