(** Where the links of canvases in a package called "Base" give no picture: an outlink that leads below a canvas already passed, and links
    that go round.  Told from the content. *)
From Coq Require Import ZArith List Bool.
From Coq Require String Ascii.
From Verif.Spec Require Import PropWire PathSpec Whole Portrait Outlook.
Import ListNotations. Import String.StringSyntax.
Open Scope Z_scope.

(** The canvas at [X] stands for what is at [Y], by its inlink or, where it has none, by its outlink. *)
Definition by_inlink (top : place) (X Y : list (list Z)) : Prop :=
  exists P props v p z, canvas_at_path top P props X v /\ good_path p /\ remarks v (codes "_inlink") (joined p) /\ leads (PlImage props) p z /\ Y = P ++ p.
Definition by_outlink (top : place) (X Y : list (list Z)) : Prop :=
  exists P props v z, canvas_at_path top P props X v /\ no_inlink props v /\ good_path Y /\ remarks v (codes "_outlink") (joined Y) /\ leads top Y z.

(** Following the links from [X], having passed [seen], comes to an outlink whose path goes on beyond a canvas that was passed (or beyond
    the canvas that has it), whether or not it leads anywhere. *)
Inductive jams (top : place) : list (list (list Z)) -> list (list Z) -> Prop :=
| jams_here seen P props X v p Y : canvas_at_path top P props X v -> no_inlink props v -> good_path p -> remarks v (codes "_outlink") (joined p) ->
    In Y (X :: seen) -> beyond Y p -> jams top seen X
| jams_in seen X Y : by_inlink top X Y -> jams top (X :: seen) Y -> jams top seen X
| jams_out seen X Y : by_outlink top X Y -> Forall (fun Z => ~ beyond Z Y) (X :: seen) -> jams top (X :: seen) Y -> jams top seen X.

(** Among the paths in [S] the links lead round: each stands for another in it, no outlink going on beyond one, nor beyond one of [seen]. *)
Definition goes_round (top : place) (seen : list (list (list Z))) (S : list (list Z) -> Prop) : Prop :=
  forall X, S X -> exists Y, S Y /\ (by_inlink top X Y \/ (by_outlink top X Y /\ forall Z, S Z \/ In Z seen -> ~ beyond Z Y)).
(** Following the links from [X], having passed [seen], comes into such a set. *)
Inductive circles (top : place) : list (list (list Z)) -> list (list Z) -> Prop :=
| circles_here seen S X : goes_round top seen S -> S X -> circles top seen X
| circles_in seen X Y : by_inlink top X Y -> circles top (X :: seen) Y -> circles top seen X
| circles_out seen X Y : by_outlink top X Y -> Forall (fun Z => ~ beyond Z Y) (X :: seen) -> circles top (X :: seen) Y -> circles top seen X.

(** The links of canvases are paths: names that are not empty, with a slash between them. *)
Definition path_links (top : place) : Prop :=
  forall X v t, leads top X (PlProp v) -> a_canvas v -> remarks v (codes "_inlink") t \/ remarks v (codes "_outlink") t -> exists p, good_path p /\ t = joined p.
