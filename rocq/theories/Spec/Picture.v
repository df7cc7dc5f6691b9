(** Which picture a canvas stands for, told from the tree. *)
From Coq Require Import ZArith List Bool.
From Verif.Model Require Import Base Utf Image Node.
From Coq Require String.
From Verif.Spec Require Import PathSpec Tree PropWire.
Import String.StringSyntax.

(** The nearest node above [i] that fits; and: none does. *)
Inductive nearest (h : heap) (P : cell -> Prop) : id -> id -> Prop :=
| near_here i n a c : child_of h n i a -> h a = Some c -> P c -> nearest h P i a
| near_up i n p c a : child_of h n i p -> h p = Some c -> ~ P c -> nearest h P p a -> nearest h P i a.
Inductive none_above (h : heap) (P : cell -> Prop) : id -> Prop :=
| none_root i : rootless h i -> none_above h P i
| none_up i n p c : child_of h n i p -> h p = Some c -> ~ P c -> none_above h P p -> none_above h P i.

(** Descending by these names ends where there is no such child. *)
Inductive lost (h : heap) : id -> list text -> Prop :=
| lost_here i n p : no_slot h i n -> lost h i (n :: p)
| lost_below i n k p : slot h i n k -> lost h k p -> lost h i (n :: p).
(** The nodes entered on the way before the last one. *)
Inductive way (h : heap) : id -> list text -> list id -> Prop :=
| way_end i n : way h i [n] []
| way_step i n k m p l : slot h i n k -> way h k (m :: p) l -> way h i (n :: m :: p) (k :: l).

(** Images, and files called "Base". *)
Definition an_image (c : cell) : Prop := exists b, nd_kind c = KImage b.
Definition base_file (c : cell) : Prop := nd_name c = [66; 97; 115; 101] /\ exists b, nd_kind c = KFile b.

Section Shown.
  Variable picture : Type.
  Variable pixels : Z -> option (res picture).
  Variable string_of : Z -> option text.

  (** The child called [name] is a string (or a link) with this text; or there is no text to be had. *)
  Definition says (h : heap) (i : id) (name : text) (t : text) : Prop :=
    exists k c, slot h i name k /\ h k = Some c /\
      (nd_kind c = KUol (Some t) \/ exists w, nd_kind c = KOther w /\ string_of w = Some t).
  Definition silent (h : heap) (i : id) (name : text) : Prop :=
    no_slot h i name \/
    exists k c, slot h i name k /\ h k = Some c /\
      (forall t, nd_kind c <> KUol (Some t)) /\ (forall w t, nd_kind c = KOther w -> string_of w <> Some t).

  (** Components without a slash, at least one. *)
  Definition good (p : list text) : Prop := p <> [] /\ Forall (fun c => ~ In 47 c) p.

  (** The inlink of [i] leads to [j], from the image it lies in; or to nothing. *)
  Definition inlinked (h : heap) (i j : id) : Prop :=
    exists p a, says h i (codes "_inlink") (joined p) /\ good p /\ nearest h an_image i a /\ down h a p j.
  Definition not_inlinked (h : heap) (i : id) : Prop :=
    silent h i (codes "_inlink") \/
    exists p, says h i (codes "_inlink") (joined p) /\ good p /\
      (none_above h an_image i \/ exists a, nearest h an_image i a /\ lost h a p).

  (** The same for the outlink, from the file called "Base"; what is on the way has been read, is none of the nodes [seen], and does
      not lead back to that file. *)
  Definition open_way (h : heap) (seen : list id) (b : id) (p : list text) : Prop :=
    exists l, way h b p l /\ forall k, In k l -> settled h k /\ ~ In k seen /\ k <> b.
  Definition outlinked (h : heap) (seen : list id) (i j : id) : Prop :=
    exists p b, says h i (codes "_outlink") (joined p) /\ good p /\ nearest h base_file i b /\ down h b p j /\
      open_way h seen b p.
  Definition not_outlinked (h : heap) (seen : list id) (i : id) : Prop :=
    silent h i (codes "_outlink") \/
    exists p, says h i (codes "_outlink") (joined p) /\ good p /\
      (none_above h base_file i \/
       exists b p1 p2, nearest h base_file i b /\ p = p1 ++ p2 /\ lost h b p1 /\ open_way h seen b p1).

  (** A canvas and what its own pixels give. *)
  Definition canvas (h : heap) (i : id) (own : res picture) : Prop :=
    exists c w, h i = Some c /\ nd_kind c = KOther w /\ pixels w = Some own.
  Definition no_canvas (h : heap) (i : id) : Prop :=
    exists c, h i = Some c /\ forall w, nd_kind c = KOther w -> pixels w = None.

  (** Following the links from [i], the canvases [seen] having been passed: the inlink goes first, then the outlink; a canvas
      whose links lead nowhere shows its own pixels; and links may lead to what is no canvas. *)
  Inductive shows (h : heap) : list id -> id -> option (res picture) -> Prop :=
  | shows_other seen i : no_canvas h i -> shows h seen i None
  | shows_in seen i own j r : canvas h i own -> inlinked h i j -> shows h (i :: seen) j r -> shows h seen i r
  | shows_out seen i own j r : canvas h i own -> not_inlinked h i -> outlinked h (i :: seen) i j ->
      shows h (i :: seen) j r -> shows h seen i r
  | shows_own seen i own : canvas h i own -> not_inlinked h i -> not_outlinked h (i :: seen) i ->
      shows h seen i (Some own).
End Shown.

(** Going down with [at], name by name. *)
Inductive goes (h : heap) : id -> list text -> id -> Prop :=
| goes_here i : goes h i [] i
| goes_step i n k p j : node_at h i n = Some k -> goes h k p j -> goes h i (n :: p) j.
