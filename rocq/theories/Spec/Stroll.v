(** Where the children lead that nodes have at the moment. *)
From Coq Require Import ZArith List.
From Verif.Model Require Import Base Node.
Import ListNotations.
Open Scope Z_scope.

(** From the node [i] the names lead down, child by child, to the node [j]. *)
Inductive stands (h : heap) : id -> list text -> id -> Prop :=
| stands_here i : stands h i [] i
| stands_down i c n k p j : h i = Some c -> In (n, k) (nd_slots c) -> stands h k p j -> stands h i (n :: p) j.
(** No node has two children of one name. *)
Definition told_apart (h : heap) : Prop := forall j c, h j = Some c -> NoDup (map fst (nd_slots c)).
(** These paths are all there are, each listed once, every path after the one it goes on from. *)
Definition all_paths (h : heap) (i : id) (ps : list (list text)) : Prop :=
  NoDup ps /\ (forall p j, stands h i p j -> In p ps) /\ forall a p n b, ps = a ++ (p ++ [n]) :: b -> In p a.
(** Every child is there. *)
Definition none_lost (h : heap) : Prop := forall j c n k, h j = Some c -> In (n, k) (nd_slots c) -> h k <> None.
