(** Packages whose images may have links in them, and where a path leads in them. *)
From Coq Require Import ZArith List Bool.
From Verif.Spec Require Import Wire StrWire PropWire DirWire Whole Linked.
Import ListNotations.
Open Scope Z_scope.

(** An image without links, or one whose links are simple. *)
Definition neat (props : list (list Z * prop)) : Prop :=
  Forall (fun e => linkless (snd e)) props \/ (tidy props /\ simple_links props).

(** The directory tree, with the blocks its images point to, holds this content. *)
Inductive stocked (buf : list Z) (ks : nat -> Z) : list (list Z * dtree) -> list (list Z * content) -> Prop :=
| stocked_nil : stocked buf ks [] []
| stocked_image name off size props ts cs : not_text name -> laid_image buf ks off props -> neat props -> stocked buf ks ts cs ->
    stocked buf ks ((name, TImage off size) :: ts) ((name, CImage props) :: cs)
| stocked_dir name off size sub subc ts cs : stocked buf ks sub subc -> stocked buf ks ts cs ->
    stocked buf ks ((name, TDir off size sub) :: ts) ((name, CDir subc) :: cs).

(** Following names down the directories and then, through links, inside an image, ends at the place [z], whose own path is [Q]. *)
Inductive gets : list (list Z * content) -> list (list Z) -> list (list Z) -> place -> Prop :=
| gets_here cs : gets cs [] [] (PlDir cs)
| gets_dir cs n kids rest Q z : last_named cs n (CDir kids) -> gets kids rest Q z -> gets cs (n :: rest) (n :: Q) z
| gets_image cs n props rest Q z : last_named cs n (CImage props) -> follows props [] rest Q -> leads (PlImage props) Q z ->
    gets cs (n :: rest) (n :: Q) z.
(** Following names something is missing. *)
Inductive lacks : list (list Z * content) -> list (list Z) -> Prop :=
| lacks_here cs n rest : ~ In n (map fst cs) -> lacks cs (n :: rest)
| lacks_dir cs n kids rest : last_named cs n (CDir kids) -> lacks kids rest -> lacks cs (n :: rest)
| lacks_image cs n props rest : last_named cs n (CImage props) -> missing props [] rest -> lacks cs (n :: rest).
