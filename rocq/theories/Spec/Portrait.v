(** Which canvas a canvas stands for in an image, told from the stored properties. *)
From Coq Require Import ZArith List Bool.
From Coq Require String Ascii.
From Verif.Spec Require Import PropWire PathSpec Whole.
Import ListNotations. Import String.StringSyntax.
Open Scope Z_scope.

Definition a_canvas (v : prop) : Prop := exists w h f s pg hd off size kids, v = PCanvas w h f s pg hd off size kids.
(** Below the property stands a text (a string or a link) of that name. *)
Definition remarks (v : prop) (name t : list Z) : Prop :=
  exists kids u, below v kids /\ last_named kids name u /\ (u = PStr t \/ u = PUol t).

(** Following inlinks from the place at [Q]: they lead from the top of the image.  One that leads nowhere does not count, and neither does
    what is no text; and a link may lead to something that is no canvas. *)
Inductive portrays (props : list (list Z * prop)) : list (list Z) -> option prop -> Prop :=
| portrays_other Q v : leads (PlImage props) Q (PlProp v) -> ~ a_canvas v -> portrays props Q None
| portrays_linked Q v p r : leads (PlImage props) Q (PlProp v) -> a_canvas v -> p <> [] -> Forall (fun c => ~ In 47 c) p ->
    remarks v (codes "_inlink") (joined p) -> portrays props p r -> portrays props Q r
| portrays_dead Q v p : leads (PlImage props) Q (PlProp v) -> a_canvas v -> p <> [] -> Forall (fun c => ~ In 47 c) p ->
    remarks v (codes "_inlink") (joined p) -> fails (PlImage props) p -> portrays props Q (Some v)
| portrays_own Q v : leads (PlImage props) Q (PlProp v) -> a_canvas v -> (forall t, ~ remarks v (codes "_inlink") t) -> portrays props Q (Some v).
