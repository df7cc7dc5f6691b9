(** What the nodes of a directory have to show for a given directory tree. *)
From Coq Require Import ZArith List Bool.
From Verif.Model Require Import Base Directory.
From Verif.Spec Require Import DirWire.

Inductive shows_tree : dnode -> dtree -> Prop :=
| tree_image off size : shows_tree (NImage off size) (TImage off size)
| tree_dir off size parsed st es kids ts : shows_trees kids ts ->
    shows_tree (NDir (mkDir off size parsed st es) kids) (TDir off size ts)
with shows_trees : list (text * dnode) -> list (list Z * dtree) -> Prop :=
| trees_nil : shows_trees [] []
| trees_cons name n t kids ts : shows_tree n t -> shows_trees kids ts ->
    shows_trees ((name, n) :: kids) ((name, t) :: ts).

(** Every image of a tree starts with one of the known header bytes and ends
    (counting modulo 2^64) within the file. *)
Inductive sane (buf : list Z) : dnode -> Prop :=
| sane_image off size b pre post : buf = pre ++ b :: post -> Z.of_nat (length pre) = off ->
    (b = 0x73 \/ b = 0x01 \/ b = 0x23)%Z -> ((off + size) mod 2 ^ 64 <= Z.of_nat (length buf))%Z ->
    sane buf (NImage off size)
| sane_dir d kids : Forall (fun x => sane buf (snd x)) kids -> sane buf (NDir d kids)
| sane_empty : sane buf NEmpty.
