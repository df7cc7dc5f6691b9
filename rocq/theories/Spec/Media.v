(** WAV files, UTF-8 and sealed scripts, written down independently of the code. *)
From Coq Require Import ZArith List Bool.
From Coq Require String.
Import String.StringSyntax.
From Verif.Spec Require Import Wire PropWire Stream StrWire.
Import ListNotations.
Open Scope Z_scope.

(** A WAV file with one format chunk of 16 bytes and one data chunk. *)
Definition wav_file (format data : list Z) : list Z :=
  let n := Z.of_nat (length data) in
  codes "RIFF" ++ enc_le 4 (n + 36) ++ codes "WAVE" ++ codes "fmt " ++ enc_le 4 16 ++ format ++
  codes "data" ++ enc_le 4 n ++ data.

(** UTF-8: a character code and its bytes, six bits in each continuation byte. *)
Inductive utf8_char : Z -> list Z -> Prop :=
| utf8_1 c : 0 <= c < 2 ^ 7 -> utf8_char c [c]
| utf8_2 h a : 2 <= h < 2 ^ 5 -> 0 <= a < 64 -> utf8_char (64 * h + a) [0xC0 + h; 0x80 + a]
| utf8_3 h a b : 0 <= h < 2 ^ 4 -> 0 <= a < 64 -> 0 <= b < 64 ->
    2 ^ 11 <= 64 * (64 * h + a) + b -> ~ 0xD800 <= 64 * (64 * h + a) + b < 0xE000 ->
    utf8_char (64 * (64 * h + a) + b) [0xE0 + h; 0x80 + a; 0x80 + b]
| utf8_4 h a b c : 0 <= h < 2 ^ 3 -> 0 <= a < 64 -> 0 <= b < 64 -> 0 <= c < 64 ->
    2 ^ 16 <= 64 * (64 * (64 * h + a) + b) + c < 0x110000 ->
    utf8_char (64 * (64 * (64 * h + a) + b) + c) [0xF0 + h; 0x80 + a; 0x80 + b; 0x80 + c].
Inductive utf8 : list Z -> list Z -> Prop :=
| utf8_nil : utf8 [] []
| utf8_cons c cs b bs : utf8_char c b -> utf8 cs bs -> utf8 (c :: cs) (b ++ bs).

(** The three keys scripts are sealed with, in the order in which they are tried: two IVs, and no key. *)
Inductive seal := SealSea | SealGms | SealNone.
Definition seal_key (aes : list Z -> list Z) (s : seal) (i : nat) : Z :=
  match s with
  | SealSea => key_byte aes [0xB9; 0x7D; 0x63; 0xE9] i
  | SealGms => key_byte aes [0x4D; 0x23; 0xC7; 0x2B] i
  | SealNone => 0
  end.
Definition earlier (s s' : seal) : Prop :=
  match s, s' with SealSea, SealSea => False | SealSea, _ => True | SealGms, SealNone => True | _, _ => False end.
(** [data] is the text [t] sealed with [s]. *)
Definition sealed (aes : list Z -> list Z) (s : seal) (t data : list Z) : Prop :=
  exists plain, utf8 t plain /\ xored (seal_key aes s) 0 plain data.
(** Some text gives [data] when sealed with [s]. *)
Definition readable (aes : list Z -> list Z) (s : seal) (data : list Z) : Prop := exists t, sealed aes s t data.
