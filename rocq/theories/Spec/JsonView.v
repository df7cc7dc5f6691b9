(** What the JSON of a node tree has to say. *)
From Coq Require Import ZArith List Bool Permutation.
From Verif.Model Require Import Base Reader Image Json.
From Verif.Spec Require Import PropWire.
From Coq Require String Ascii.
Import ListNotations. Import String.StringSyntax.
Open Scope Z_scope.

Definition jname (n : jnode) : text := let (nm, _, _) := n in nm.
Definition jthing (n : jnode) : jobj := let (_, o, _) := n in o.
Definition jkids (n : jnode) : list (text * jnode) := let (_, _, k) := n in k.

(** Node [m] is reached from [n] by going down the names [p]. *)
Inductive below : jnode -> list text -> jnode -> Prop :=
| below_here n : below n [] n
| below_down n k c p m : In (k, c) (jkids n) -> below c p m -> below n (k :: p) m.
(** No node has two children of one name. *)
Definition distinct (n : jnode) : Prop :=
  forall p m, below n p m -> NoDup (map fst (jkids m)).

(** IEEE: finite means an exponent below the largest. *)
Definition finite_single (bits : Z) : Prop := (bits mod 2 ^ 31) / 2 ^ 23 < 255.
Definition finite_double (bits : Z) : Prop := (bits mod 2 ^ 63) / 2 ^ 52 < 2047.

(** The text a string object stands for; one that cannot be read stands for the empty text. *)
Inductive reads_as : res text -> text -> Prop :=
| reads_ok t : reads_as (Ok t) t
| reads_err e : reads_as (Err e) [].

Definition sound_word (t : sound_type) : text :=
  codes match t with Mp3 => "Mp3" | Wav => "Wav" | Binary => "Binary" end.
(** The two fields of a canvas, and of a sound. *)
Inductive extra : jobj -> text -> json -> Prop :=
| ex_width w h : extra (JPng w h) (codes "width") (VInt w)
| ex_height w h : extra (JPng w h) (codes "height") (VInt h)
| ex_duration d t : extra (JSound d t) (codes "duration") (VInt d)
| ex_type d t : extra (JSound d t) (codes "sound_type") (VText (sound_word t)).

(** The object has exactly these entries. *)
Definition entries (m : list (text * json)) (P : text -> json -> Prop) : Prop :=
  NoDup (map fst m) /\ forall k v, In (k, v) m <-> P k v.

(** The plain JSON value of a node without children. *)
Inductive plain : jobj -> json -> Prop :=
| pl_short v : plain (JShort v) (VInt v)
| pl_int v : plain (JInt v) (VInt v)
| pl_long v : plain (JLong v) (VInt v)
| pl_float b : finite_single b -> plain (JFloat b) (VF32 b)
| pl_double b : finite_double b -> plain (JDouble b) (VF64 b)
| pl_vector x y m :
    entries m (fun k v => (k = codes "x" /\ v = VInt x) \/ (k = codes "y" /\ v = VInt y)) ->
    plain (JVector x y) (VObj m)
| pl_uol s t : reads_as s t -> plain (JUol s) (VText t)
| pl_str s t : reads_as s t -> plain (JStr s) (VText t)
| pl_parsed t : plain (JParsed t) (VText t)
| pl_png w h m : entries m (extra (JPng w h)) -> plain (JPng w h) (VObj m)
| pl_sound d t m : entries m (extra (JSound d t)) -> plain (JSound d t) (VObj m)
| pl_null o :
    match o with
    | JFile _ _ _ _ _ _ | JMsFile _ _ _ _ _ _ _ _ | JImage | JMsImage | JDir
    | JConvex | JSub | JRaw | JVideo | JLua | JNull => True
    | _ => False
    end -> plain o VNull.

(** The JSON is a picture of the tree: values at the leaves, objects with one entry
    per child above them, and the fields of a canvas or sound where no child has
    that name. *)
Inductive pictures : jnode -> json -> Prop :=
| pic_leaf nm o v : plain o v -> pictures (JNode nm o []) v
| pic_inner nm o kids m : kids <> [] -> NoDup (map fst m) ->
    (forall k c, In (k, c) kids -> exists v, In (k, v) m /\ pictures c v) ->
    (forall k v, extra o k v -> ~ In k (map fst kids) -> In (k, v) m) ->
    (forall k v, In (k, v) m -> In k (map fst kids) \/ extra o k v) ->
    pictures (JNode nm o kids) (VObj m).

(** Going down a JSON value by keys. *)
Inductive at_json : json -> list text -> json -> Prop :=
| at_here j : at_json j [] j
| at_down m k c p v : In (k, c) m -> at_json c p v -> at_json (VObj m) (k :: p) v.

(** A leaf that JSON can hold. *)
Definition printable (o : jobj) : Prop :=
  match o with
  | JFloat b => finite_single b
  | JDouble b => finite_double b
  | JUol s | JStr s => exists t, reads_as s t
  | _ => True
  end.

(** The same tree, children taken in another order. *)
Inductive reorder : jnode -> jnode -> Prop :=
| reord nm o kids mid kids' : Permutation kids mid -> reorder_kids mid kids' ->
    reorder (JNode nm o kids) (JNode nm o kids')
with reorder_kids : list (text * jnode) -> list (text * jnode) -> Prop :=
| reord_nil : reorder_kids [] []
| reord_cons k c c' l l' : reorder c c' -> reorder_kids l l' ->
    reorder_kids ((k, c) :: l) ((k, c') :: l').

(** The word for each kind in the full JSON. *)
Definition kind_word (o : jobj) : text :=
  codes match o with
  | JFile _ _ _ _ _ _ => "File" | JMsFile _ _ _ _ _ _ _ _ => "MsFile"
  | JImage => "Image" | JMsImage => "MsImage" | JDir => "Directory"
  | JConvex => "Convex" | JSub => "Property" | JSound _ _ => "Sound" | JPng _ _ => "PNG"
  | JRaw => "RawData" | JVideo => "Video" | JLua => "Lua"
  | JShort _ => "Short" | JInt _ => "Int" | JLong _ => "Long"
  | JFloat _ => "Float" | JDouble _ => "Double" | JVector _ _ => "Vector"
  | JUol _ => "UOL" | JStr _ => "String" | JParsed _ => "ParsedString" | JNull => "Null"
  end.
(** The value under "data" in the full JSON, if there is one. *)
Inductive payload : jobj -> option json -> Prop :=
| pay_file p v e w h c m :
    entries m (fun k x => (k = codes "path" /\ x = VText p) \/
      (k = codes "patch_version" /\ x = VInt v) \/
      (k = codes "wz_version_header" /\ x = VInt e) \/
      (k = codes "wz_with_encrypt_version_header" /\ x = VBool w) \/
      (k = codes "hash" /\ x = VInt h) \/
      (k = codes "string_decryptor_verified" /\ x = VBool c)) ->
    payload (JFile p v e w h c) (Some (VObj m))
| pay_ms s n h v c hs es fv m :
    entries m (fun k x => (k = codes "key_salt" /\ x = VText s) \/
      (k = codes "name_with_salt" /\ x = VText n) \/
      (k = codes "header_hash" /\ x = VInt h) \/
      (k = codes "version" /\ x = VInt v) \/
      (k = codes "entry_count" /\ x = VInt c) \/
      (k = codes "hstart" /\ x = VInt hs) \/
      (k = codes "estart" /\ x = VInt es) \/
      (k = codes "ms_file_version" /\ x = VInt fv)) ->
    payload (JMsFile s n h v c hs es fv) (Some (VObj m))
| pay_empty o : o = JImage \/ o = JMsImage \/ o = JDir -> payload o (Some (VObj []))
| pay_none o : o = JConvex \/ o = JSub \/ o = JNull -> payload o None
| pay_fields o m : (exists a b, o = JPng a b) \/ (exists d t, o = JSound d t) ->
    entries m (extra o) -> payload o (Some (VObj m))
| pay_pair x y : payload (JVector x y) (Some (VArr [VInt x; VInt y]))
| pay_single b : ~ finite_single b -> payload (JFloat b) (Some VNull)
| pay_double b : ~ finite_double b -> payload (JDouble b) (Some VNull)
| pay_plain o v : (forall m, v <> VObj m) -> v <> VNull -> plain o v -> payload o (Some v).

(** The full JSON of a tree: name, type, data and children of every node. *)
Inductive records : jnode -> json -> Prop :=
| rec_node nm o kids m d cm :
    entries m (fun k v => (k = codes "name" /\ v = VText nm) \/
      (k = codes "type" /\ v = VText (kind_word o)) \/
      (k = codes "data" /\ d = Some v) \/
      (k = codes "children" /\ v = VObj cm)) ->
    payload o d -> NoDup (map fst cm) -> (forall k, In k (map fst cm) -> In k (map fst kids)) ->
    (forall k c, In (k, c) kids -> exists v, In (k, v) cm /\ records c v) ->
    records (JNode nm o kids) (VObj m).

(** Numbers within their Rust types. *)
Definition within (lo hi v : Z) : Prop := lo <= v < hi.
Definition typed (o : jobj) : Prop :=
  match o with
  | JFile _ v e _ h _ => within (- 2 ^ 31) (2 ^ 31) v /\ within (- 2 ^ 31) (2 ^ 31) e /\ within 0 (2 ^ 64) h
  | JMsFile _ _ h v c hs es fv => within (- 2 ^ 31) (2 ^ 31) h /\ within 0 256 v /\
      within (- 2 ^ 31) (2 ^ 31) c /\ within 0 (2 ^ 64) hs /\ within 0 (2 ^ 64) es /\ within 0 256 fv
  | JSound d _ => within 0 (2 ^ 32) d
  | JPng w h => within 0 (2 ^ 32) w /\ within 0 (2 ^ 32) h
  | JShort v => within (- 2 ^ 15) (2 ^ 15) v
  | JInt v => within (- 2 ^ 31) (2 ^ 31) v
  | JLong v => within (- 2 ^ 63) (2 ^ 63) v
  | JVector x y => within (- 2 ^ 31) (2 ^ 31) x /\ within (- 2 ^ 31) (2 ^ 31) y
  | _ => True
  end.
(** What the full JSON can carry there and back. *)
Definition portable (o : jobj) : Prop :=
  match o with
  | JNull | JRaw | JVideo | JLua => False
  | JFloat b => finite_single b
  | JDouble b => finite_double b
  | JUol s | JStr s => exists t, s = Ok t /\ Forall (fun c => 0 <= c < 0xD800 \/ 0xE000 <= c < 0x10000) t /\
                                 Z.of_nat (length t) < 2 ^ 31
  | _ => True
  end.
