(** Trees of named nodes, described from outside: slots, descents, ancestry. *)
From Coq Require Import ZArith List Bool.
From Verif.Model Require Import Base Image Node.
From Verif.Spec Require Import PathSpec.

(** Node [i] has [j] as its only child called [n]. *)
Definition slot (h : heap) (i : id) (n : text) (j : id) : Prop :=
  exists c, h i = Some c /\ NoDup (map fst (nd_slots c)) /\ In (n, j) (nd_slots c).
(** Node [i] has no child called [n]. *)
Definition no_slot (h : heap) (i : id) (n : text) : Prop :=
  exists c, h i = Some c /\ ~ In n (map fst (nd_slots c)).

(** Descending from [i] by the names [p] ends at [j]. *)
Inductive down (h : heap) : id -> list text -> id -> Prop :=
| down_here i c : h i = Some c -> down h i [] i
| down_step i n k p j : slot h i n k -> down h k p j -> down h i (n :: p) j.

(** [i] is a root: its parent pointer is empty or dangling. *)
Definition rootless (h : heap) (i : id) : Prop :=
  exists c, h i = Some c /\ forall p, nd_parent c = Some p -> h p = None.
(** [p] is the parent of [i], which is called [n]. *)
Definition child_of (h : heap) (n : text) (i p : id) : Prop :=
  (exists c, h i = Some c /\ nd_name c = n /\ nd_parent c = Some p) /\ (exists c, h p = Some c).

(** A component that a path can carry. *)
Definition name_ok (n : text) : Prop := n <> [] /\ ~ In 47 n.

(** [i] hangs below [top] by the names [p]: at every step the parent pointer leads up and the
    parent has the child in the slot of its name. *)
Inductive hangs (h : heap) (top : id) : list text -> id -> Prop :=
| hangs_top c : h top = Some c -> hangs h top [] top
| hangs_child p n i j : hangs h top p j -> name_ok n -> child_of h n i j -> slot h j n i ->
    hangs h top (p ++ [n]) i.

(** All nodes strictly between the top and the node hanging by [q]. *)
Definition between (h : heap) (a : id) (q : list text) (P : cell -> Prop) : Prop :=
  forall q1 q2 m c, q = q1 ++ q2 -> q1 <> [] -> q2 <> [] -> hangs h a q1 m -> h m = Some c -> P c.

(** The component that goes up. *)
Definition dd : text := [46; 46].

(** The nodes below a node as a finite tree; [shaped] says the heap looks like that. *)
Inductive shape := Shape (i : id) (kids : list (text * shape)).
Definition top (s : shape) : id := let (i, _) := s in i.
Inductive shaped (h : heap) : shape -> Prop :=
| shaped_node i kids c : h i = Some c -> NoDup (map fst kids) ->
    nd_slots c = map (fun e => (fst e, top (snd e))) kids ->
    (forall n s, In (n, s) kids -> shaped h s) -> shaped h (Shape i kids).
(** All nodes of it, each before the nodes below it. *)
Fixpoint nodes (s : shape) : list id :=
  let (i, kids) := s in i :: flat_map (fun e => nodes (snd e)) kids.
(** Below [i] there is a finite tree without sharing, made of these nodes. *)
Definition tree (h : heap) (i : id) (l : list id) : Prop :=
  exists s, top s = i /\ shaped h s /\ NoDup (nodes s) /\ nodes s = l.

(** Every child, from [i] downwards, has as parent the node it is a child of. *)
Definition parented (h : heap) (i : id) : Prop :=
  forall p j n k, down h i p j -> slot h j n k -> exists c, h k = Some c /\ nd_parent c = Some j.

(** Same node but for its children and parent. *)
Definition same_self (h h' : heap) : Prop :=
  forall i, match h i, h' i with
            | Some c, Some c' => nd_name c' = nd_name c /\ nd_kind c' = nd_kind c
            | None, None => True
            | _, _ => False
            end.

(** Stepping through a relative path: '..' goes to the parent (but never above [b]), any other name
    to the child. *)
Inductive steps (h : heap) (b : option id) : id -> list text -> id -> Prop :=
| steps_end i : steps h b i [] i
| steps_up i n p r j : b <> Some i -> child_of h n i p -> steps h b p r j -> steps h b i (dd :: r) j
| steps_down i n k r j : n <> dd -> slot h i n k -> steps h b k r j -> steps h b i (n :: r) j.
(** Stepping that finds nothing: somewhere there is no parent or no such child. *)
Inductive stuck (h : heap) (b : option id) : id -> list text -> Prop :=
| stuck_root i r : rootless h i -> b <> Some i -> stuck h b i (dd :: r)
| stuck_bound i r : b = Some i -> no_slot h i dd -> stuck h b i (dd :: r)
| stuck_name i n r : n <> dd -> no_slot h i n -> stuck h b i (n :: r)
| stuck_up i n p r : b <> Some i -> child_of h n i p -> stuck h b p r -> stuck h b i (dd :: r)
| stuck_down i n k r : n <> dd -> slot h i n k -> stuck h b k r -> stuck h b i (n :: r).

(** Below [r], whoever is in a slot is called like the slot and has the owner as parent. *)
Definition proper (h : heap) (r : id) : Prop :=
  forall p i n k, hangs h r p i -> slot h i n k -> name_ok n /\ child_of h n k i.

(** The same nodes with the same parents; only slots may differ. *)
Definition same_but_slots (h h' : heap) : Prop :=
  forall i, match h i, h' i with
            | Some c, Some c' => nd_name c' = nd_name c /\ nd_kind c' = nd_kind c /\ nd_parent c' = nd_parent c
            | None, None => True
            | _, _ => False
            end.
(** The node [u] is called [n] and its parent is [p]. *)
Definition sits (h : heap) (u p : id) (n : text) : Prop :=
  exists c, h u = Some c /\ nd_name c = n /\ nd_parent c = Some p.

(** Reading a file, directory or image only adds nodes: those that exist stay as they are. *)
Definition only_adds (load : heap -> id -> id -> option (heap * list (text * id) * list id)) : Prop :=
  forall h p i h1 kids uols, load h p i = Some (h1, kids, uols) ->
  forall j c, h j = Some c -> h1 j = Some c.
(** The same nodes with the same children; only parents may differ. *)
Definition same_but_parents (h h' : heap) : Prop :=
  forall i, match h i, h' i with
            | Some c, Some c' => nd_name c' = nd_name c /\ nd_kind c' = nd_kind c /\ nd_slots c' = nd_slots c
            | None, None => True
            | _, _ => False
            end.

(** The links found while reading node [i] sit below [i] or below new nodes. *)
Definition links_inside (load : heap -> id -> id -> option (heap * list (text * id) * list id)) : Prop :=
  forall h p i h1 kids uols, load h p i = Some (h1, kids, uols) ->
  forall u q n, In u uols -> sits h1 u q n -> q = i \/ h q = None.
(** Nothing is left to be read for this node. *)
Definition settled (h : heap) (i : id) : Prop :=
  exists c, h i = Some c /\
    match nd_kind c with
    | KFile b | KMsFile b | KImage b | KDir b => b = true
    | KMsImage => False
    | _ => True
    end.

(** The text ".img". *)
Definition dot_img : text := [46; 105; 109; 103].
(** [a] followed by ".img": that is the first ".img" in it. *)
Definition first_img (a : text) : Prop := forall x y, a ++ dot_img = x ++ dot_img ++ y -> y = [].
(** No ".img" anywhere. *)
Definition img_free (t : text) : Prop := forall x y, t <> x ++ dot_img ++ y.
(** The node is an image, or is there and is none. *)
Definition image_node (h : heap) (i : id) : Prop := exists c b, h i = Some c /\ nd_kind c = KImage b.
Definition other_node (h : heap) (i : id) : Prop := exists c, h i = Some c /\ forall b, nd_kind c <> KImage b.
(** Descending by [p] without meeting an image. *)
Inductive plain_down (h : heap) : id -> list text -> id -> Prop :=
| plain_here i : plain_down h i [] i
| plain_step i n k p j : slot h i n k -> other_node h k -> plain_down h k p j -> plain_down h i (n :: p) j.
