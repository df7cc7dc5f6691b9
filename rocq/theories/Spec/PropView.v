(** What a parsed node has to show for a given property. *)
From Coq Require Import ZArith List Bool.
From Verif.Model Require Import Base Reader Image.
From Verif.Spec Require Import PropWire Version.

(** The IEEE single with this bit pattern is the whole number [b]: zero, or
    significand (2^23 + fraction) times 2^(exponent - 150). *)
Definition single_is (bits b : Z) : Prop :=
  (b = 0 /\ bits = 0) \/
  (0 <= bits < 2 ^ 31 /\ 0 < bits / 2 ^ 23 <= 150 /\
   2 ^ 23 + bits mod 2 ^ 23 = b * 2 ^ (150 - bits / 2 ^ 23)).

(** What kind of sound it is: with a header of 70 bytes a WAV, unless the length
    field in it (byte 56) is the sound's size and it lasts 1000 ms, which makes it
    plain binary data; with any other header an MP3. *)
Definition length_field (buf : list Z) (hoff size : Z) : Prop :=
  exists a b c d, at_ buf (hoff + 56) (hoff + 60) [a; b; c; d] /\
    ((a + 256 * b + 65536 * c + 16777216 * d) mod 2 ^ 32 = size)%Z.
Definition sound_kind (buf : list Z) (hoff off size dur : Z) (ty : sound_type) : Prop :=
  match ty with
  | Mp3 => off - hoff <> 70
  | Binary => off - hoff = 70 /\ dur = 1000 /\ length_field buf hoff size
  | Wav => off - hoff = 70 /\ ~ (dur = 1000 /\ length_field buf hoff size)
  end.

(** The node presents the property: same kind, same number / text / place, and
    the same children in the same order; the items of a convex are named by their index. *)
Inductive shows (r : rd) : node -> prop -> Prop :=
| shows_null : shows r (Node ONull []) PNull
| shows_short v : shows r (Node (OShort v) []) (PShort v)
| shows_int v : shows r (Node (OInt v) []) (PInt v)
| shows_long v : shows r (Node (OLong v) []) (PLong v)
| shows_float v : shows r (Node (OFloat v) []) (PFloat v)
| shows_float_byte v b : single_is v b -> shows r (Node (OFloat v) []) (PFloatByte b)
| shows_double v : shows r (Node (ODouble v) []) (PDouble v)
| shows_str m t : get_string r m = Ok t -> shows r (Node (OStr m) []) (PStr t)
| shows_uol m t : get_string r m = Ok t -> shows r (Node (OUol m) []) (PUol t)
| shows_vec x y : shows r (Node (OVector x y) []) (PVec x y)
| shows_sub kids ps : shows_kids r kids ps -> shows r (Node OSub kids) (PSub ps)
| shows_convex kids ps : shows_items r 0 kids ps -> shows r (Node OConvex kids) (PConvex ps)
| shows_canvas w h f s pg hd off size kids ps : shows_kids r kids ps ->
    shows r (Node (OPng (mkPng w h f s off size hd pg)) kids) (PCanvas w h f s pg hd off size ps)
| shows_sound off size dur hoff ty : sound_kind (rd_buf r) hoff off size dur ty ->
    shows r (Node (OSound (mkSound off size hoff (off - hoff) dur ty)) []) (PSound off size dur hoff)
| shows_raw off size kids ps : shows_kids r kids ps ->
    shows r (Node (ORaw off size) kids) (PRaw off size ps)
| shows_video off size : shows r (Node (OVideo off size) []) (PVideo off size)
with shows_kids (r : rd) : list (text * node) -> list (list Z * prop) -> Prop :=
| kids_nil : shows_kids r [] []
| kids_cons name n v kids ps : shows r n v -> shows_kids r kids ps ->
    shows_kids r ((name, n) :: kids) ((name, v) :: ps)
with shows_items (r : rd) : Z -> list (text * node) -> list prop -> Prop :=
| items_nil i : shows_items r i [] []
| items_cons i ds n v kids ps : decimal i ds -> shows r n v -> shows_items r (i + 1) kids ps ->
    shows_items r i ((map (Z.add 48) ds, n) :: kids) (v :: ps).

(** Paths of all UOL nodes at or below a node, in document order. *)
Fixpoint uol_paths (n : node) : list (list text) :=
  let (o, kids) := n in
  match o with OUol _ => [[]] | _ => [] end ++
  flat_map (fun kv => map (cons (fst kv)) (uol_paths (snd kv))) kids.
Definition uol_paths_kids (kids : list (text * node)) : list (list text) :=
  flat_map (fun kv => map (cons (fst kv)) (uol_paths (snd kv))) kids.

(** Number of nodes of a tree, and of a list of trees. *)
Fixpoint tree_size (n : node) : Z :=
  let (_, kids) := n in 1 + fold_right (fun kv a => tree_size (snd kv) + a) 0 kids.
Definition list_size (kids : list (text * node)) : Z :=
  fold_right (fun kv a => tree_size (snd kv) + a) 0 kids.
