(** A package with everything in it, and where a path leads in it. *)
From Coq Require Import ZArith List Bool.
From Verif.Spec Require Import Wire StrWire Version PropWire DirWire.
From Coq Require String Ascii.
Import ListNotations. Import String.StringSyntax.
Open Scope Z_scope.

(** What a package contains: directories and images, the latter with their property trees. *)
Inductive content :=
| CImage (props : list (list Z * prop))
| CDir (kids : list (list Z * content)).

(** An image block with these properties stands at [off]: a mark, the word "Property", two bytes, the list. *)
Definition laid_image (buf : list Z) (ks : nat -> Z) (off : Z) (props : list (list Z * prop)) : Prop :=
  exists q e, at_ buf off (off + 1) [0x73] /\ at_ buf (off + 1) q (enc_str ks (codes "Property")) /\
    laid_list buf ks off (q + 2) e props.

(** No links anywhere in a property. *)
Fixpoint linkless (v : prop) : Prop :=
  match v with
  | PUol _ => False
  | PSub kids | PCanvas _ _ _ _ _ _ _ _ kids | PRaw _ _ kids => fold_right (fun e P => linkless (snd e) /\ P) True kids
  | PConvex kids => fold_right (fun e P => linkless e /\ P) True kids
  | _ => True
  end.

(** The name does not end in ".txt" (such images are taken for plain text). *)
Definition not_text (name : list Z) : Prop := forall pre, name <> pre ++ codes ".txt".

(** The directory tree, with the blocks its images point to, holds this content. *)
Inductive filled_with (buf : list Z) (ks : nat -> Z) : list (list Z * dtree) -> list (list Z * content) -> Prop :=
| filled_nil : filled_with buf ks [] []
| filled_image name off size props ts cs : not_text name -> laid_image buf ks off props ->
    Forall (fun e => linkless (snd e)) props -> filled_with buf ks ts cs ->
    filled_with buf ks ((name, TImage off size) :: ts) ((name, CImage props) :: cs)
| filled_dir name off size sub subc ts cs : filled_with buf ks sub subc -> filled_with buf ks ts cs ->
    filled_with buf ks ((name, TDir off size sub) :: ts) ((name, CDir subc) :: cs).

(** The last entry of that name. *)
Definition last_named {A} (l : list (list Z * A)) (name : list Z) (x : A) : Prop :=
  exists pre post, l = pre ++ (name, x) :: post /\ ~ In name (map fst post).

(** What is below a property; the items of a convex are called 0, 1, 2, ... *)
Inductive numbered : Z -> list prop -> list (list Z * prop) -> Prop :=
| numbered_nil i : numbered i [] []
| numbered_cons i ds v vs l : decimal i ds -> numbered (i + 1) vs l -> numbered i (v :: vs) ((map (Z.add 48) ds, v) :: l).
Inductive below : prop -> list (list Z * prop) -> Prop :=
| below_sub kids : below (PSub kids) kids
| below_canvas w h f s pg hd off size kids : below (PCanvas w h f s pg hd off size kids) kids
| below_raw off size kids : below (PRaw off size kids) kids
| below_convex vs kids : numbered 0 vs kids -> below (PConvex vs) kids
| below_leaf v : match v with PSub _ | PCanvas _ _ _ _ _ _ _ _ _ | PRaw _ _ _ | PConvex _ => False | _ => True end -> below v [].

(** What stands at the end of a path. *)
Inductive place := PlDir (kids : list (list Z * content)) | PlImage (props : list (list Z * prop)) | PlProp (v : prop).
Definition place_of (c : content) : place := match c with CImage props => PlImage props | CDir kids => PlDir kids end.
(** One step down. *)
Inductive inside : place -> list Z -> place -> Prop :=
| inside_dir kids name c : last_named kids name c -> inside (PlDir kids) name (place_of c)
| inside_image props name v : last_named props name v -> inside (PlImage props) name (PlProp v)
| inside_prop v kids name u : below v kids -> last_named kids name u -> inside (PlProp v) name (PlProp u).
(** Nothing of that name is there. *)
Inductive nothing : place -> list Z -> Prop :=
| nothing_dir kids name : ~ In name (map fst kids) -> nothing (PlDir kids) name
| nothing_image props name : ~ In name (map fst props) -> nothing (PlImage props) name
| nothing_prop v kids name : below v kids -> ~ In name (map fst kids) -> nothing (PlProp v) name.
(** Following names. *)
Inductive leads : place -> list (list Z) -> place -> Prop :=
| leads_here p : leads p [] p
| leads_on p name q rest z : inside p name q -> leads q rest z -> leads p (name :: rest) z.
(** Following names until one is missing. *)
Inductive fails : place -> list (list Z) -> Prop :=
| fails_here p name rest : nothing p name -> fails p (name :: rest)
| fails_on p name q rest : inside p name q -> fails q rest -> fails p (name :: rest).
