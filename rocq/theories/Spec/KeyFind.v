(** Which of several keys a text was written under, written down independently of the reader. *)
From Coq Require Import ZArith List Bool.
From Coq Require String Ascii.
From Verif.Spec Require Import Wire Stream StrWire PropWire.
Import ListNotations. Import String.StringSyntax.
Open Scope Z_scope.

(** The key stream of an IV: the block cipher run on its own output, and nothing at all for the zero IV. *)
Definition iv_key (aes : list Z -> list Z) (iv : list Z) (i : nat) : Z :=
  if forallb (Z.eqb 0) iv then 0 else key_byte aes iv i.

Definition plain_ascii (t : list Z) : Prop := t <> [] /\ Forall (fun c => 0 <= c < 128) t.

(** Two keys have the same top bits in their first [n] bytes: ASCII text of that length written under one reads as
    (some) ASCII text under the other. *)
Definition alike (ks ks' : nat -> Z) (n : nat) : Prop := forall i, (i < n)%nat -> ks i / 128 = ks' i / 128.

(** The directory at [p] begins with an entry (directory or image) whose name is stored in the bytes [l].  Classic
    packages count their entries openly, package-2 ones do not. *)
Definition first_name (classic : bool) (buf : list Z) (p : Z) (l : list Z) : Prop :=
  exists a q n t, int_at buf p a n /\ (classic = true -> 1 <= n <= 1000000) /\
    at_ buf a (a + 1) [t] /\ (t = 3 \/ t = 4) /\ at_ buf (a + 1) q l.

(** The three ways package names are written: openly, or under one of two IVs. *)
Inductive region := Open_ | Global | Sea.
Definition region_iv (r : region) : list Z :=
  match r with Open_ => [0; 0; 0; 0] | Global => [77; 35; 199; 43] | Sea => [185; 125; 99; 233] end.

(** How the kind of an image ("Property") can stand at its beginning: ASCII or UTF-16, with a short or a long length;
    of the long UTF-16 length only 31 bits count. *)
Inductive says_property (ks : nat -> Z) : list Z -> Prop :=
| says_ascii : says_property ks (248 :: body_ascii ks (codes "Property"))
| says_ascii_long : says_property ks (128 :: enc_le 4 8 ++ body_ascii ks (codes "Property"))
| says_unicode : says_property ks (8 :: body_unicode ks (codes "Property"))
| says_unicode_long n : n mod 2 ^ 31 = 8 -> says_property ks (127 :: enc_le 4 n ++ body_unicode ks (codes "Property")).

(** The key of a package-2 package made of a number: its bytes, from the lowest up, the first once and all
    others twice, in a cycle of eight. *)
Definition number_key (key : Z) (j : nat) : Z := (key / 2 ^ (8 * Z.of_nat ((j mod 8 + 1) / 2))) mod 256.

(** The first bytes of a 64-bit entry count (a marker, then the number) do not look like a short count followed by an
    entry. *)
Definition unlike_entry (buf : list Z) (p : Z) : Prop :=
  exists a b c d e f, at_ buf p (p + 7) [128; a; b; c; d; e; f] /\ e <> 3 /\ e <> 4 /\ (e = 128 \/ f < 128).
