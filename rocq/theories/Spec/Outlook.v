(** Which canvas a place in a package called "Base" stands for, with links out of the image it lies in; told from the content. *)
From Coq Require Import ZArith List Bool.
From Coq Require String Ascii.
From Verif.Spec Require Import PropWire PathSpec Whole Portrait.
Import ListNotations. Import String.StringSyntax.
Open Scope Z_scope.

(** Names that are not empty and have no slash, at least one. *)
Definition good_path (p : list (list Z)) : Prop := p <> [] /\ Forall (fun c => c <> [] /\ ~ In 47 c) p.
(** The path [Y] goes on beyond [X]. *)
Definition beyond (X Y : list (list Z)) : Prop := exists rest, rest <> [] /\ Y = X ++ rest.

(** [X] is the path of the canvas [v], below the image [props] at [P]. *)
Definition canvas_at_path (top : place) (P : list (list Z)) (props : list (list Z * prop)) (X : list (list Z)) (v : prop) : Prop :=
  exists Q, Q <> [] /\ X = P ++ Q /\ leads top P (PlImage props) /\ leads (PlImage props) Q (PlProp v) /\ a_canvas v.
(** It has no inlink, or one that leads nowhere. *)
Definition no_inlink (props : list (list Z * prop)) (v : prop) : Prop :=
  (forall t, ~ remarks v (codes "_inlink") t) \/
  exists p, good_path p /\ remarks v (codes "_inlink") (joined p) /\ fails (PlImage props) p.
(** The same for its outlink, which must not lead below the canvases [seen] (that would be a deadlock). *)
Definition no_outlink (top : place) (seen : list (list (list Z))) (v : prop) : Prop :=
  (forall t, ~ remarks v (codes "_outlink") t) \/
  exists p, good_path p /\ remarks v (codes "_outlink") (joined p) /\ fails top p /\ Forall (fun X => ~ beyond X p) seen.

(** Following inlinks, which count from the image, and where there is none outlinks, which count from the top.  [seen] are the canvases
    passed before. *)
Inductive views (top : place) : list (list (list Z)) -> list (list Z) -> option prop -> Prop :=
| views_other seen X z : X <> [] -> leads top X z -> (forall v, z = PlProp v -> ~ a_canvas v) -> views top seen X None
| views_in seen P props X v p z r : canvas_at_path top P props X v -> good_path p -> remarks v (codes "_inlink") (joined p) ->
    leads (PlImage props) p z -> views top (X :: seen) (P ++ p) r -> views top seen X r
| views_out seen P props X v p z r : canvas_at_path top P props X v -> no_inlink props v -> good_path p -> remarks v (codes "_outlink") (joined p) ->
    leads top p z -> Forall (fun Y => ~ beyond Y p) (X :: seen) -> views top (X :: seen) p r -> views top seen X r
| views_own seen P props X v : canvas_at_path top P props X v -> no_inlink props v -> no_outlink top (X :: seen) v -> views top seen X (Some v).
