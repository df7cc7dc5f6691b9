(** The .ms archives: streams of numbers, texts and bytes, the two header forms, the entry table and the
    stored images. *)
From Coq Require Import ZArith List Bool.
From Verif.Spec Require Import Wire Stream StrWire PropWire Media Snow2.
Import ListNotations.
Open Scope Z_scope.

(** What a stream is made of: 32-bit signed numbers, UTF-16 texts without their length, bytes. *)
Inductive piece := Number (v : Z) | Words (t : list Z) | Raw (l : list Z).
Definition le16 (us : list Z) : list Z := flat_map (fun u => [u mod 256; u / 256]) us.
Definition piece_bytes (p : piece) : list Z :=
  match p with
  | Number v => enc_le 4 v
  | Words t => le16 (units16 t)
  | Raw l => l
  end.
Definition i32 (v : Z) : Prop := - 2 ^ 31 <= v < 2 ^ 31.
Definition piece_ok (p : piece) : Prop :=
  match p with
  | Number v => i32 v
  | Words t => unicode t /\ Z.of_nat (length (units16 t)) < 2 ^ 30
  | Raw l => Forall (fun b => 0 <= b < 256) l /\ Z.of_nat (length l) < 2 ^ 31
  end.
Definition stream (ps : list piece) : list Z := flat_map piece_bytes ps.
