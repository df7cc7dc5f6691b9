(** The layout of a classic package directory, written down independently of
    the reader. *)
From Coq Require Import ZArith List Bool.
From Verif.Spec Require Import Wire StrWire Version PropWire.
Import ListNotations.
Open Scope Z_scope.

(** Directory trees: where each image and directory stands and how long it is. *)
Inductive dtree :=
| TImage (off size : Z)
| TDir (off size : Z) (kids : list (list Z * dtree)).

(** The stored value [enc] at position [pos] stands for offset [off] (classic scheme). *)
Definition classic_offset (fstart hash pos enc off : Z) : Prop :=
  exists r, let a := ((2 ^ 32 - 1 - (pos - fstart) mod 2 ^ 32) * hash - 0x581C3F6D) mod 2 ^ 32 in
    rotated a (a mod 32) r /\ off = (Z.lxor r enc + 2 * fstart) mod 2 ^ 32.

Section classic.
  Variable buf : list Z.
  Variable ks : nat -> Z.
  Variable fstart hash : Z.

  (** Type byte and name of an entry of type [t], in place or (type byte 2) by reference. *)
  Inductive head_at (p q t : Z) (name : list Z) : Prop :=
  | head_inline : unicode name -> at_ buf p (p + 1) [t] -> at_ buf (p + 1) q (enc_str ks name) -> head_at p q t name
  | head_ref a e : unicode name -> - 2 ^ 31 <= a < 2 ^ 31 ->
      at_ buf p q (2 :: enc_le 4 a) -> at_ buf (fstart + a) (fstart + a + 1) [t] ->
      at_ buf (fstart + a + 1) e (enc_str ks name) -> head_at p q t name.

  (** Size, checksum and stored offset. *)
  Definition tail_at (p q size off : Z) : Prop :=
    exists a b checksum enc, 0 <= size /\ int_at buf p a size /\ int_at buf a b checksum /\
      0 <= enc < 2 ^ 32 /\ at_ buf b q (enc_le 4 enc) /\ classic_offset fstart hash b enc off /\
      off + size <= Z.of_nat (length buf).

  (** [laid_dir off kids]: a directory block; [laid_ents p q n kids]: [n] entries,
      of which those of type 1 (followed by ten bytes) are no children. *)
  Inductive laid_dir : Z -> list (list Z * dtree) -> Prop :=
  | dir_at off a q n kids : n <= 1000000 -> int_at buf off a n -> laid_ents a q n kids -> laid_dir off kids
  with laid_ents : Z -> Z -> Z -> list (list Z * dtree) -> Prop :=
  | ents_nil p : laid_ents p p 0 []
  | ents_skip p q n kids : at_ buf p (p + 1) [1] -> laid_ents (p + 11) q n kids -> laid_ents p q (n + 1) kids
  | ents_image p a b q n name off size hb kids : head_at p a 4 name -> tail_at a b size off ->
      hb = 0x73 \/ hb = 0x01 \/ hb = 0x23 -> at_ buf off (off + 1) [hb] ->
      laid_ents b q n kids -> laid_ents p q (n + 1) ((name, TImage off size) :: kids)
  | ents_dir p a b q n name off size sub kids : head_at p a 3 name -> tail_at a b size off ->
      size <> 0 -> laid_dir off sub ->
      laid_ents b q n kids -> laid_ents p q (n + 1) ((name, TDir off size sub) :: kids)
  | ents_empty_dir p a b c q n name off m kids : head_at p a 3 name -> tail_at a b 0 off ->
      int_at buf off c m -> 0 <= m ->
      laid_ents b q n kids -> laid_ents p q (n + 1) ((name, TDir off 0 []) :: kids).
End classic.
