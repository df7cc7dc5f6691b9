(** Key streams as functions of the index, and XOR with them. *)
From Coq Require Import ZArith List Bool.
Import ListNotations.
Open Scope Z_scope.

(** Output block number [k] of a 16-byte block cipher run on its own output,
    started from the four-fold repeated IV. *)
Fixpoint key_block (aes : list Z -> list Z) (iv : list Z) (k : nat) : list Z :=
  match k with
  | O => aes (iv ++ iv ++ iv ++ iv)
  | S j => aes (key_block aes iv j)
  end.

(** Key byte number [i]. *)
Definition key_byte (aes : list Z -> list Z) (iv : list Z) (i : nat) : Z :=
  nth (i mod 16) (key_block aes iv (i / 16)) 0.

(** A block cipher oracle: 16 bytes in, 16 bytes out. *)
Definition block_cipher (aes : list Z -> list Z) : Prop :=
  forall b, length b = 16%nat -> Forall (fun x => 0 <= x < 256) b ->
    length (aes b) = 16%nat /\ Forall (fun x => 0 <= x < 256) (aes b).

(** [out] is [data] with byte [j] XORed with key byte [start + j]. *)
Definition xored (key : nat -> Z) (start : nat) (data out : list Z) : Prop :=
  length out = length data /\
  forall j d, nth_error data j = Some d -> nth_error out j = Some (Z.lxor d (key (start + j)%nat)).
