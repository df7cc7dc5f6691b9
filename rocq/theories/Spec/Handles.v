(** Shared decryptors seen from outside: each is known by its IV or its package-2 key. *)
From Coq Require Import ZArith List Bool.
From Verif.Spec Require Import Stream.
Import ListNotations.
Open Scope Z_scope.

(** What a decryptor is known by. *)
Inductive named := ByIv (iv : list Z) | ByKey (key : Z).

(** Its key bytes: nothing for the zero IV; a package-2 key repeats its bytes 0 1 1 2 2 3 3 4. *)
Definition named_stream (aes : list Z -> list Z) (n : named) (i : nat) : Z :=
  match n with
  | ByIv iv => if forallb (Z.eqb 0) iv then 0 else key_byte aes iv i
  | ByKey key => (key / 2 ^ (8 * Z.of_nat (S (i mod 8) / 2))) mod 256
  end.

(** The key bytes for strings of a reader made for it: package-2 keys are for names only. *)
Definition string_stream (aes : list Z -> list Z) (n : named) (i : nat) : Z :=
  match n with ByIv _ => named_stream aes n i | ByKey _ => 0 end.

(** The four decryptors there are from the start. *)
Definition standard : list named :=
  [ByIv [0x4D; 0x23; 0xC7; 0x2B]; ByIv [0xB9; 0x7D; 0x63; 0xE9]; ByIv [0; 0; 0; 0]; ByKey 0xDEADBEEF].

(** A four-byte IV, a 64-bit key. *)
Definition named_ok (n : named) : Prop :=
  match n with
  | ByIv iv => length iv = 4%nat /\ Forall (fun x => 0 <= x < 256) iv
  | ByKey key => 0 <= key < 2 ^ 64
  end.

(** Entry number [i] replaced. *)
Fixpoint change {A} (l : list A) (i : nat) (a : A) : list A :=
  match l, i with
  | [], _ => []
  | _ :: r, O => a :: r
  | x :: r, S j => x :: change r j a
  end.
