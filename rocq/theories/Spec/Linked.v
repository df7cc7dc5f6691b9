(** Images with links in them, and where a path leads through the links. *)
From Coq Require Import ZArith List Bool.
From Verif.Spec Require Import PropWire PathSpec Whole.
Import ListNotations.
Open Scope Z_scope.

(** The name that goes up. *)
Definition up : list Z := [46; 46].
Definition link (pl : place) : Prop := exists t, pl = PlProp (PUol t).

(** The names of what is directly below a place, as stored. *)
Inductive lists : place -> list (list Z) -> Prop :=
| lists_image props : lists (PlImage props) (map fst props)
| lists_prop v kids : below v kids -> lists (PlProp v) (map fst kids).
(** Everywhere in the image siblings have different names, and names are such that a path can have them: not empty, without
    slash, and not "..". *)
Definition tidy (props : list (list Z * prop)) : Prop :=
  forall P pl ns, leads (PlImage props) P pl -> lists pl ns -> NoDup ns /\ Forall (fun n => n <> [] /\ ~ In 47 n /\ n <> up) ns.

Section image.
  Variable props : list (list Z * prop).

  (** At [P], [n] is a link with these names in it. *)
  Definition linked (P : list (list Z)) (n : list Z) (us : list (list Z)) : Prop :=
    us <> [] /\ Forall (fun u => ~ In 47 u) us /\ leads (PlImage props) (P ++ [n]) (PlProp (PUol (joined us))).

  (** From [P] the names lead to [T], up and down inside the image, past no other link. *)
  Inductive route : list (list Z) -> list (list Z) -> list (list Z) -> Prop :=
  | route_end P : route P [] P
  | route_up P n us T : route P us T -> route (P ++ [n]) (up :: us) T
  | route_down P n us T pl : n <> up -> leads (PlImage props) (P ++ [n]) pl -> ~ link pl -> route (P ++ [n]) us T -> route P (n :: us) T.
  (** From [P] the names lead, past no other link, out of the image or to a name that is missing. *)
  Inductive astray : list (list Z) -> list (list Z) -> Prop :=
  | astray_out us : astray [] (up :: us)
  | astray_name P n us pl : n <> up -> leads (PlImage props) P pl -> nothing pl n -> astray P (n :: us)
  | astray_up P n us : astray P us -> astray (P ++ [n]) (up :: us)
  | astray_down P n us pl : n <> up -> leads (PlImage props) (P ++ [n]) pl -> ~ link pl -> astray (P ++ [n]) us -> astray P (n :: us).
  (** No link leads to or past another link. *)
  Definition simple_links : Prop := forall P n us, linked P n us -> (exists T, route P us T) \/ astray P us.

  (** Following names from [P], through links, ends at [Q]; a link that leads nowhere is only an end. *)
  Inductive follows : list (list Z) -> list (list Z) -> list (list Z) -> Prop :=
  | follows_here P : follows P [] P
  | follows_plain P n rest Q pl : leads (PlImage props) (P ++ [n]) pl -> ~ link pl -> follows (P ++ [n]) rest Q -> follows P (n :: rest) Q
  | follows_link P n us T rest Q : linked P n us -> route P us T -> follows T rest Q -> follows P (n :: rest) Q
  | follows_dead P n us : linked P n us -> astray P us -> follows P [n] (P ++ [n]).
  (** Following names from [P], through links, something is missing. *)
  Inductive missing : list (list Z) -> list (list Z) -> Prop :=
  | missing_here P n rest pl : leads (PlImage props) P pl -> nothing pl n -> missing P (n :: rest)
  | missing_dead P n us m rest : linked P n us -> astray P us -> missing P (n :: m :: rest)
  | missing_plain P n rest pl : leads (PlImage props) (P ++ [n]) pl -> ~ link pl -> missing (P ++ [n]) rest -> missing P (n :: rest)
  | missing_link P n us T rest : linked P n us -> route P us T -> missing T rest -> missing P (n :: rest).
End image.
