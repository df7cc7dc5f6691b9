(** What the full JSON has to say about a stored property tree. *)
From Coq Require Import ZArith List Bool.
From Coq Require String Ascii.
From Verif.Model Require Import Base Reader Image Json.
From Verif.Spec Require Import PropWire Version PropView JsonView JsonProp.
Import ListNotations. Import String.StringSyntax.
Open Scope Z_scope.

(** Word for the kind and value under "data" of each property that can be written. *)
Inductive noted (buf : list Z) : prop -> text -> option json -> Prop :=
| noted_null : noted buf PNull (codes "Null") None
| noted_short v : noted buf (PShort v) (codes "Short") (Some (VInt v))
| noted_int v : noted buf (PInt v) (codes "Int") (Some (VInt v))
| noted_long v : noted buf (PLong v) (codes "Long") (Some (VInt v))
| noted_float b : finite_single b -> noted buf (PFloat b) (codes "Float") (Some (VF32 b))
| noted_float_bad b : ~ finite_single b -> noted buf (PFloat b) (codes "Float") (Some VNull)
| noted_float_byte b bits : single_is bits b -> noted buf (PFloatByte b) (codes "Float") (Some (VF32 bits))
| noted_double b : finite_double b -> noted buf (PDouble b) (codes "Double") (Some (VF64 b))
| noted_double_bad b : ~ finite_double b -> noted buf (PDouble b) (codes "Double") (Some VNull)
| noted_str t : noted buf (PStr t) (codes "String") (Some (VText t))
| noted_uol t : noted buf (PUol t) (codes "UOL") (Some (VText t))
| noted_vec x y : noted buf (PVec x y) (codes "Vector") (Some (VArr [VInt x; VInt y]))
| noted_sub ps : noted buf (PSub ps) (codes "Property") None
| noted_convex ps : noted buf (PConvex ps) (codes "Convex") None
| noted_canvas w h f s pg hd off size ps m :
    entries m (size_field (PCanvas w h f s pg hd off size ps)) ->
    noted buf (PCanvas w h f s pg hd off size ps) (codes "PNG") (Some (VObj m))
| noted_sound off size dur hoff ty m : sound_kind buf hoff off size dur ty ->
    entries m (fun k v => (k = codes "duration" /\ v = VInt dur) \/
                          (k = codes "sound_type" /\ v = VText (sound_word ty))) ->
    noted buf (PSound off size dur hoff) (codes "Sound") (Some (VObj m)).

(** The named parts of a property, if it can have any; the ones of others are none. *)
Definition has_parts (p : prop) (l : list (list Z * prop)) : Prop :=
  lists p l \/ (l = [] /\ forall l', ~ lists p l').
(** The entries of one node. *)
Definition node_entries (m : list (text * json)) (nm word : text) (d : option json) (cs : list (text * json)) : Prop :=
  entries m (fun k v => (k = codes "name" /\ v = VText nm) \/ (k = codes "type" /\ v = VText word) \/
    (k = codes "data" /\ d = Some v) \/ (k = codes "children" /\ v = VObj cs)).
(** [told buf nm p j]: the full JSON of the property [p] called [nm] of an image stored in [buf]. *)
Inductive told (buf : list Z) : text -> prop -> json -> Prop :=
| told_node nm p word d l m cs : noted buf p word d -> has_parts p l -> node_entries m nm word d cs ->
    NoDup (map fst cs) -> (forall k v, In (k, v) cs -> In k (map fst l)) ->
    (forall k c, In (k, c) l -> exists v, In (k, v) cs /\ told buf k c v) ->
    told buf nm p (VObj m).

(** No two parts of one name, anywhere. *)
Inductive apart : prop -> Prop :=
| apart_all p : (forall l, lists p l -> NoDup (map fst l) /\ forall k c, In (k, c) l -> apart c) -> apart p.
(** Raw data or a video, anywhere. *)
Inductive holds_raw : prop -> Prop :=
| raw_here off size ps : holds_raw (PRaw off size ps)
| video_here off size : holds_raw (PVideo off size)
| raw_below p l k c : lists p l -> In (k, c) l -> holds_raw c -> holds_raw p.
