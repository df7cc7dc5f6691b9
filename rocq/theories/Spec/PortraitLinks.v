(** Which canvas a path stands for in an image that may have links, told from the stored properties. *)
From Coq Require Import ZArith List Bool.
From Coq Require String Ascii.
From Verif.Spec Require Import PropWire PathSpec Whole Linked Portrait.
Import ListNotations. Import String.StringSyntax.
Open Scope Z_scope.

(** The names lead, through links, to this property. *)
Definition comes_to (props : list (list Z * prop)) (comps : list (list Z)) (v : prop) : Prop :=
  exists T, follows props [] comps T /\ leads (PlImage props) T (PlProp v).
(** The names lead to a text (a string, or a link that leads nowhere). *)
Definition reads (props : list (list Z * prop)) (comps : list (list Z)) (t : list Z) : Prop :=
  exists v, comes_to props comps v /\ (v = PStr t \/ v = PUol t).

(** Following inlinks from the end of the path [Q]: they lead from the top of the image, through links again.  One that leads nowhere does
    not count, and neither does what is no text; and an inlink may lead to something that is no canvas, even to the image. *)
Inductive depicts (props : list (list Z * prop)) : list (list Z) -> option prop -> Prop :=
| depicts_image Q : follows props [] Q [] -> depicts props Q None
| depicts_other Q v : comes_to props Q v -> ~ a_canvas v -> depicts props Q None
| depicts_linked Q v p r : comes_to props Q v -> a_canvas v -> p <> [] -> Forall (fun c => ~ In 47 c) p ->
    reads props (Q ++ [codes "_inlink"]) (joined p) -> depicts props p r -> depicts props Q r
| depicts_dead Q v p : comes_to props Q v -> a_canvas v -> p <> [] -> Forall (fun c => ~ In 47 c) p ->
    reads props (Q ++ [codes "_inlink"]) (joined p) -> missing props [] p -> depicts props Q (Some v)
| depicts_own Q v : comes_to props Q v -> a_canvas v -> (forall t, ~ reads props (Q ++ [codes "_inlink"]) t) -> depicts props Q (Some v).
