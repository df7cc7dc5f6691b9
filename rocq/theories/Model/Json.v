(** node.rs, object.rs, property/mod.rs: a node tree as JSON and back.  The serde
    derives and serde_json are modelled by what they do on these types. *)
From Coq Require String Ascii.
From Verif.Model Require Import Base Utf Keys Reader WzStr Image.
Import String.StringSyntax.

(** What the [WzObjectType]s (object.rs:24-35; property/mod.rs:48-81) show to the
    JSON code: every field that is not [serde(skip)] (file.rs:42-71;
    ms/header.rs:32-47; ms/file.rs:32-43; wz_image.rs:52-65; ms/ms_image.rs:29-41;
    directory.rs:63-82; property/png.rs:128-148; property/sound.rs:36-49).  Of a
    [WzString] that is the outcome of [get_string] (property/string.rs:160-164).
    Floats are kept as bit patterns. *)
Inductive jobj :=
| JFile (path : text) (patch encver : Z) (with_encver : bool) (hash : Z) (verified : bool)
| JMsFile (salt name : text) (hash version count hstart estart fver : Z)
| JImage | JMsImage | JDir
| JConvex | JSub | JSound (duration : Z) (ty : sound_type) | JPng (width height : Z)
| JRaw | JVideo | JLua
| JShort (v : Z) | JInt (v : Z) | JLong (v : Z) | JFloat (bits : Z) | JDouble (bits : Z)
| JVector (x y : Z) | JUol (s : res text) | JStr (s : res text) | JParsed (s : text) | JNull.

(** node.rs:34-43 (WzNode): own name, object, and the [children] map as its
    (key, node) entries in iteration order. *)
Inductive jnode := JNode (name : text) (o : jobj) (kids : list (text * jnode)).

(** serde_json::Value as used in node.rs:544-593.  A number is a whole number, or
    the float of a bit pattern of either width ([VF32] is the f64 equal to that f32). *)
Inductive json :=
| VNull | VBool (b : bool) | VInt (v : Z) | VF32 (bits : Z) | VF64 (bits : Z)
| VText (t : text) | VArr (l : list json) | VObj (m : list (text * json)).

(** [Ord for String] (the key order of serde_json::Map, node.rs:563): UTF-8 orders
    like the character codes. *)
Fixpoint text_cmp (a b : text) : comparison :=
  match a, b with
  | [], [] => Eq
  | [], _ => Lt
  | _, [] => Gt
  | x :: a', y :: b' => match x ?= y with Eq => text_cmp a' b' | c => c end
  end.
(** [Map::insert] (node.rs:571,582,590; property/mod.rs:100-101): a BTreeMap, so
    kept in key order. *)
Fixpoint jinsert (m : list (text * json)) (k : text) (v : json) : list (text * json) :=
  match m with
  | [] => [(k, v)]
  | (k', v') :: r => match text_cmp k k' with
                     | Lt => (k, v) :: m
                     | Eq => (k, v) :: r
                     | Gt => (k', v') :: jinsert r k v
                     end
  end.
(** An object built entry by entry (property/mod.rs:99-102 and the derived serializers). *)
Definition jobject (l : list (text * json)) : json :=
  VObj (fold_left (fun m kv => jinsert m (fst kv) (snd kv)) l []).
(** Looking a key up in a serde_json::Map (the derived deserializers of node.rs:34). *)
Fixpoint field (m : list (text * json)) (k : text) : option json :=
  match m with
  | [] => None
  | (k', v) :: r => if text_eqb k' k then Some v else field r k
  end.

(** [Number::from_f64(..)] (property/mod.rs:96-97) refuses infinities and NaN. *)
Definition finite32 (bits : Z) : bool := negb (Z.land (Z.shiftr bits 23) 255 =? 255).
(** The same for an f64 (property/mod.rs:97). *)
Definition finite64 (bits : Z) : bool := negb (Z.land (Z.shiftr bits 52) 2047 =? 2047).

(** [get_string().unwrap_or_default()] (property/mod.rs:104-106; property/string.rs:239). *)
Definition text_or_default (s : res text) : res text :=
  match s with Err _ => Ok [] | x => x end.

(** The derived Serialize of WzPng, property/png.rs:128-148. *)
Definition png_json (w h : Z) : json :=
  jobject [(txt "width", VInt w); (txt "height", VInt h)].
(** The derived Serialize of WzSoundType, property/sound.rs:26-33. *)
Definition sound_type_name (t : sound_type) : text :=
  match t with Mp3 => txt "Mp3" | Wav => txt "Wav" | Binary => txt "Binary" end.
(** The derived Serialize of WzSound, property/sound.rs:35-49. *)
Definition sound_json (d : Z) (t : sound_type) : json :=
  jobject [(txt "duration", VInt d); (txt "sound_type", VText (sound_type_name t))].

(** [From<WzValue> for Value] (property/mod.rs:85-108) and the leaf cases of
    to_simple_json (node.rs:554-561). *)
Definition leaf_json (o : jobj) : res json :=
  match o with
  | JShort v | JInt v | JLong v => Ok (VInt v)
  | JFloat b => if finite32 b then Ok (VF32 b) else Panic
  | JDouble b => if finite64 b then Ok (VF64 b) else Panic
  | JVector x y => Ok (jobject [(txt "x", VInt x); (txt "y", VInt y)])
  | JUol s | JStr s => rmap VText (text_or_default s)
  | JParsed s => Ok (VText s)
  | JPng w h => Ok (png_json w h)
  | JSound d t => Ok (sound_json d t)
  | _ => Ok VNull
  end.

(** The fields put in first for a canvas or sound with children (node.rs:565-586). *)
Definition own_fields (o : jobj) : list (text * json) :=
  match o with
  | JPng w h => match png_json w h with VObj m => m | _ => [] end
  | JSound d t => match sound_json d t with VObj m => m | _ => [] end
  | _ => []
  end.

(** to_simple_json (node.rs:550-593). *)
Fixpoint simple_json (n : jnode) : res json :=
  let (_, o, kids) := n in
  match kids with
  | [] => leaf_json o
  | _ =>
    rmap VObj
      ((fix go (l : list (text * jnode)) (m : list (text * json)) {struct l} :=
          match l with
          | [] => Ok m
          | (k, c) :: r => rbind (simple_json c) (fun v => go r (jinsert m k v))
          end) kids (own_fields o))
  end.

(** The derived Serialize of WzObjectType with its untagged parts (object.rs:22-35;
    property/mod.rs:46-81; string.rs:233-244): the entries "type" and, if any, "data".
    The skipped kinds are refused. *)
Definition obj_fields (o : jobj) : res (list (text * json)) :=
  let both t d := Ok [(txt "type", VText t); (txt "data", d)] in
  let empty t := both t (VObj []) in
  let unit t := Ok [(txt "type", VText t)] in
  let str t s := rbind (text_or_default s) (fun x => both t (VText x)) in
  match o with
  | JFile p v e w h c =>
    both (txt "File") (jobject [(txt "path", VText p); (txt "patch_version", VInt v);
      (txt "wz_version_header", VInt e); (txt "wz_with_encrypt_version_header", VBool w);
      (txt "hash", VInt h); (txt "string_decryptor_verified", VBool c)])
  | JMsFile s n h v c hs es fv =>
    both (txt "MsFile") (jobject [(txt "key_salt", VText s); (txt "name_with_salt", VText n);
      (txt "header_hash", VInt h); (txt "version", VInt v); (txt "entry_count", VInt c);
      (txt "hstart", VInt hs); (txt "estart", VInt es); (txt "ms_file_version", VInt fv)])
  | JImage => empty (txt "Image")
  | JMsImage => empty (txt "MsImage")
  | JDir => empty (txt "Directory")
  | JConvex => unit (txt "Convex")
  | JSub => unit (txt "Property")
  | JSound d t => both (txt "Sound") (sound_json d t)
  | JPng w h => both (txt "PNG") (png_json w h)
  | JRaw | JVideo | JLua => Err (EOther 50)
  | JShort v => both (txt "Short") (VInt v)
  | JInt v => both (txt "Int") (VInt v)
  | JLong v => both (txt "Long") (VInt v)
  | JFloat b => both (txt "Float") (if finite32 b then VF32 b else VNull)
  | JDouble b => both (txt "Double") (if finite64 b then VF64 b else VNull)
  | JVector x y => both (txt "Vector") (VArr [VInt x; VInt y])
  | JUol s => str (txt "UOL") s
  | JStr s => str (txt "String") s
  | JParsed s => both (txt "ParsedString") (VText s)
  | JNull => unit (txt "Null")
  end.

(** to_json (node.rs:544-546): the derived Serialize of WzNode (node.rs:34-43) with
    arc_node_serde::serialize (node.rs:605-618). *)
Fixpoint to_json (n : jnode) : res json :=
  let (name, o, kids) := n in
  rbind (obj_fields o) (fun fs =>
  rmap (fun cs => jobject ((txt "name", VText name) :: fs ++ [(txt "children", VObj cs)]))
    ((fix go (l : list (text * jnode)) (m : list (text * json)) {struct l} :=
        match l with
        | [] => Ok m
        | (k, c) :: r => rbind (to_json c) (fun v => go r (jinsert m k v))
        end) kids [])).

Section FromJson.
  Variable aes : list Z -> list Z.
  (** [as f32] and [as f64] of numbers of another kind (the Float and Double of property/mod.rs:71-72). *)
  Variables (to_f32 to_f64 : json -> Z).

  (** A derived integer field (e.g. property/png.rs:146): out of range is an error. *)
  Definition get_int (lo hi : Z) (j : json) : option Z :=
    match j with
    | VInt v => if (lo <=? v) && (v <? hi) then Some v else None
    | _ => None
    end.
  (** i32 fields (file.rs:46). *)
  Definition get_i32 : json -> option Z := get_int (- 2 ^ 31) (2 ^ 31).
  (** u32 fields (property/png.rs:146-147). *)
  Definition get_u32 : json -> option Z := get_int 0 (2 ^ 32).
  (** usize fields (file.rs:52). *)
  Definition get_usize : json -> option Z := get_int 0 (2 ^ 64).
  (** u8 fields (ms/header.rs:38). *)
  Definition get_u8 : json -> option Z := get_int 0 256.
  (** bool fields (file.rs:50). *)
  Definition get_bool (j : json) : option bool := match j with VBool b => Some b | _ => None end.
  (** String fields (file.rs:44). *)
  Definition get_text (j : json) : option text := match j with VText t => Some t | _ => None end.
  (** A field that has to be there (file.rs:42-55). *)
  Definition need {A} (m : list (text * json)) (k : text) (f : json -> option A) : option A :=
    match field m k with Some j => f j | None => None end.
  (** A struct read from an object (e.g. property/png.rs:128); serde would also take
      the fields as an array, which is left out. *)
  Definition as_object (j : json) : option (list (text * json)) :=
    match j with VObj m => Some m | _ => None end.
  (** [?] on an option, standing for the derived code's error exits (object.rs:22). *)
  Definition obind {A B} (x : option A) (f : A -> option B) : option B :=
    match x with Some a => f a | None => None end.

  (** WzSoundType (property/sound.rs:26-33). *)
  Definition get_sound_type (j : json) : option sound_type :=
    obind (get_text j) (fun t =>
      if text_eqb t (txt "Mp3") then Some Mp3
      else if text_eqb t (txt "Wav") then Some Wav
      else if text_eqb t (txt "Binary") then Some Binary else None).

  (** The derived Deserialize of WzFileMeta (file.rs:40-55), flattened into WzFile (file.rs:69-70). *)
  Definition get_file (j : json) : option jobj :=
    obind (as_object j) (fun m =>
    obind (need m (txt "path") get_text) (fun p =>
    obind (need m (txt "patch_version") get_i32) (fun v =>
    obind (need m (txt "wz_version_header") get_i32) (fun e =>
    obind (need m (txt "wz_with_encrypt_version_header") get_bool) (fun w =>
    obind (need m (txt "hash") get_usize) (fun h =>
    obind (need m (txt "string_decryptor_verified") get_bool) (fun c =>
    Some (JFile p v e w h c)))))))).
  (** The derived Deserialize of MsHeader (ms/header.rs:30-47), flattened into MsFile (ms/file.rs:41-42). *)
  Definition get_ms_file (j : json) : option jobj :=
    obind (as_object j) (fun m =>
    obind (need m (txt "key_salt") get_text) (fun s =>
    obind (need m (txt "name_with_salt") get_text) (fun n =>
    obind (need m (txt "header_hash") get_i32) (fun h =>
    obind (need m (txt "version") get_u8) (fun v =>
    obind (need m (txt "entry_count") get_i32) (fun c =>
    obind (need m (txt "hstart") get_usize) (fun hs =>
    obind (need m (txt "estart") get_usize) (fun es =>
    obind (need m (txt "ms_file_version") get_u8) (fun fv =>
    Some (JMsFile s n h v c hs es fv)))))))))).
  (** WzPng (property/png.rs:128-148). *)
  Definition get_png (j : json) : option jobj :=
    obind (as_object j) (fun m =>
    obind (need m (txt "width") get_u32) (fun w =>
    obind (need m (txt "height") get_u32) (fun h => Some (JPng w h)))).
  (** WzSound (property/sound.rs:35-49). *)
  Definition get_sound (j : json) : option jobj :=
    obind (as_object j) (fun m =>
    obind (need m (txt "duration") get_u32) (fun d =>
    obind (need m (txt "sound_type") get_sound_type) (fun t => Some (JSound d t)))).
  (** WzImage, MsImage, WzDirectory: every field is skipped, so any object will do
      (wz_image.rs:52-65; ms/ms_image.rs:29-41; directory.rs:63-82). *)
  Definition get_empty (o : jobj) (j : json) : option jobj :=
    obind (as_object j) (fun _ => Some o).
  (** Vector2D (property/vector.rs:7-9), a pair. *)
  Definition get_vector (j : json) : option jobj :=
    match j with
    | VArr [a; b] => obind (get_i32 a) (fun x => obind (get_i32 b) (fun y => Some (JVector x y)))
    | _ => None
    end.
  (** f32 content (property/mod.rs:71). *)
  Definition get_f32 (j : json) : option jobj :=
    match j with
    | VF32 b => Some (JFloat b)
    | VInt _ | VF64 _ => Some (JFloat (to_f32 j))
    | _ => None
    end.
  (** f64 content (property/mod.rs:72). *)
  Definition get_f64 (j : json) : option jobj :=
    match j with
    | VF64 b => Some (JDouble b)
    | VInt _ | VF32 _ => Some (JDouble (to_f64 j))
    | _ => None
    end.
  (** The Deserialize of WzString (property/string.rs:247-274): encrypted anew with the zero IV. *)
  Definition get_wz_string (j : json) : option (res text) :=
    obind (get_text j) (fun t => Some (wzstring_get aes (wzstring_from_str aes t [0; 0; 0; 0]))).

  (** A variant with content (e.g. property/mod.rs:50); content missing is an error. *)
  Definition newtype {A} (d : option json) (f : json -> option A) : option A := obind d f.
  (** A variant without content (property/mod.rs:49,52,80) takes none or null. *)
  Definition unit_variant (o : jobj) (d : option json) : option jobj :=
    match d with None | Some VNull => Some o | _ => None end.

  (** The tagged variants of WzObjectType (object.rs:25-30). *)
  Definition main_of (t : text) (d : option json) : option jobj :=
    if text_eqb t (txt "File") then newtype d get_file
    else if text_eqb t (txt "MsFile") then newtype d get_ms_file
    else if text_eqb t (txt "Image") then newtype d (get_empty JImage)
    else if text_eqb t (txt "MsImage") then newtype d (get_empty JMsImage)
    else if text_eqb t (txt "Directory") then newtype d (get_empty JDir)
    else None.
  (** WzSubProperty (property/mod.rs:46-54); any other tag means [Property]. *)
  Definition sub_of (t : text) (d : option json) : option jobj :=
    if text_eqb t (txt "Convex") then unit_variant JConvex d
    else if text_eqb t (txt "Sound") then newtype d get_sound
    else if text_eqb t (txt "PNG") then newtype d get_png
    else unit_variant JSub d.
  (** WzValue (property/mod.rs:57-81); any other tag means [Null]. *)
  Definition value_of (t : text) (d : option json) : option jobj :=
    let int lo hi (c : Z -> jobj) := newtype d (fun j => option_map c (get_int lo hi j)) in
    if text_eqb t (txt "Short") then int (- 2 ^ 15) (2 ^ 15) JShort
    else if text_eqb t (txt "Int") || text_eqb t (txt "number") then int (- 2 ^ 31) (2 ^ 31) JInt
    else if text_eqb t (txt "Long") then int (- 2 ^ 63) (2 ^ 63) JLong
    else if text_eqb t (txt "Float") then newtype d get_f32
    else if text_eqb t (txt "Double") then newtype d get_f64
    else if text_eqb t (txt "Vector") then newtype d get_vector
    else if text_eqb t (txt "UOL") then newtype d (fun j => option_map JUol (get_wz_string j))
    else if text_eqb t (txt "String") then newtype d (fun j => option_map JStr (get_wz_string j))
    else if text_eqb t (txt "ParsedString") then newtype d (fun j => option_map JParsed (get_text j))
    else unit_variant JNull d.

  (** The derived Deserialize of WzObjectType (object.rs:22-35): the tagged variants,
      then the untagged ones in order.  A tag that is not a string is refused here
      (serde would also take a variant number). *)
  Definition obj_of (m : list (text * json)) : option jobj :=
    match field m (txt "type") with
    | Some (VText t) =>
      let d := field m (txt "data") in
      match main_of t d with
      | Some o => Some o
      | None => match sub_of t d with
                | Some o => Some o
                | None => value_of t d
                end
      end
    | _ => None
    end.

  (** serde_json::from_value::<WzNode> (node.rs:34-43,620-629). *)
  Fixpoint from_json (j : json) : option jnode :=
    match j with
    | VObj m =>
      obind (need m (txt "name") get_text) (fun name =>
      obind ((fix find (l : list (text * json)) : option (list (text * jnode)) :=
                match l with
                | [] => None
                | (k, c) :: r =>
                  if text_eqb k (txt "children") then
                    match c with
                    | VObj cm =>
                      (fix kids (l : list (text * json)) : option (list (text * jnode)) :=
                         match l with
                         | [] => Some []
                         | (k, v) :: r =>
                           obind (from_json v) (fun n =>
                           obind (kids r) (fun ns => Some ((k, n) :: ns)))
                         end) cm
                    | _ => None
                    end
                  else find r
                end) m) (fun ns =>
      obind (obj_of m) (fun o => Some (JNode name o ns))))
    | _ => None
    end.
End FromJson.

(** [children.insert] (parse_property.rs:206,232,293,374; node.rs:221): a later child takes the
    place of an earlier one of the same name. *)
Fixpoint kid_insert (l : list (text * jnode)) (k : text) (n : jnode) : list (text * jnode) :=
  match l with
  | [] => [(k, n)]
  | (k', n') :: r => if text_eqb k' k then (k, n) :: r else (k', n') :: kid_insert r k n
  end.

(** What a parsed object (object.rs:24-35) shows to the JSON code. *)
Definition view_obj (r : rd) (o : obj) : jobj :=
  match o with
  | ONull => JNull
  | OShort v => JShort v
  | OInt v => JInt v
  | OLong v => JLong v
  | OFloat b => JFloat b
  | ODouble b => JDouble b
  | OStr m => JStr (get_string r m)
  | OUol m => JUol (get_string r m)
  | OVector x y => JVector x y
  | OSub => JSub
  | OConvex => JConvex
  | OPng p => JPng (png_width p) (png_height p)
  | OSound s => JSound (snd_duration s) (snd_type s)
  | ORaw _ _ => JRaw
  | OVideo _ _ => JVideo
  | OLua _ _ => JLua
  end.

(** The tree of nodes made from a parse (node.rs:34-43): its sequence of insertions carried out. *)
Fixpoint view (r : rd) (name : text) (n : node) : jnode :=
  let (o, kids) := n in
  JNode name (view_obj r o)
    ((fix go (l : list (text * node)) (acc : list (text * jnode)) {struct l} :=
        match l with
        | [] => acc
        | (k, c) :: t => go t (kid_insert acc k (view r k c))
        end) kids []).

(** The image node (wz_image.rs:52-65) after its children have been inserted
    (node.rs:217-222), UOL nodes not yet replaced (node.rs:224-226). *)
Definition image_view (r : rd) (name : text) (kids : list (text * node)) : jnode :=
  let (_, _, ks) := view r name (Node OSub kids) in JNode name JImage ks.
