(** Layout of package headers. *)
From Coq Require Import ZArith List Bool.
From Verif.Spec Require Import Wire.
Import ListNotations.
Open Scope Z_scope.

(** [v] is the little-endian number whose bytes are scattered over the
    positions [ix] of [buf]. *)
Definition scattered (buf : list Z) (ix : list nat) (v : Z) : Prop :=
  0 <= v < 2 ^ (8 * Z.of_nat (length ix)) /\
  forall k i, nth_error ix k = Some i ->
    nth_error buf i = Some ((v / 2 ^ (8 * Z.of_nat k)) mod 256).

Definition starts_with (buf magic : list Z) : Prop := firstn (length magic) buf = magic.
Definition PKG1 : list Z := [80; 75; 71; 49].
Definition PKG2 : list Z := [80; 75; 71; 50].

(** First bytes of a package directory that has at least one entry: the entry
    count as a compressed integer, then an entry type byte, which is not 0. *)
Definition dir_bytes (count : Z) (type : Z) : list Z :=
  enc_wzint 4 count ++ [type].
