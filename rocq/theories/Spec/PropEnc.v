(** A serialiser for property trees: every text in place, no media. *)
From Coq Require Import ZArith List Bool.
From Coq Require String.
From Verif.Spec Require Import Wire StrWire PropWire.
Import ListNotations String.StringSyntax.
Open Scope Z_scope.

(** Trees that can be serialised: numbers in range, texts of Unicode
    characters, counts that fit; the items of a convex are extended properties. *)
Inductive good : prop -> Prop :=
| good_null : good PNull
| good_short v : - 2 ^ 15 <= v < 2 ^ 15 -> good (PShort v)
| good_int v : - 2 ^ 31 <= v < 2 ^ 31 -> good (PInt v)
| good_long v : - 2 ^ 63 <= v < 2 ^ 63 -> good (PLong v)
| good_float b : 0 <= b < 2 ^ 32 -> good (PFloat b)
| good_float_byte b : 0 <= b < 256 -> b <> 0x80 -> good (PFloatByte b)
| good_double b : 0 <= b < 2 ^ 64 -> good (PDouble b)
| good_str t : unicode t -> good (PStr t)
| good_of_ext v : good_ext v -> good v
with good_ext : prop -> Prop :=
| good_uol t : unicode t -> good_ext (PUol t)
| good_vec x y : - 2 ^ 31 <= x < 2 ^ 31 -> - 2 ^ 31 <= y < 2 ^ 31 -> good_ext (PVec x y)
| good_sub kids : good_kids kids -> good_ext (PSub kids)
| good_convex items : good_items items -> good_ext (PConvex items)
with good_kids : list (list Z * prop) -> Prop :=
| good_kids_nil : good_kids []
| good_kids_cons name v kids : unicode name -> good v -> good_kids kids -> good_kids ((name, v) :: kids)
with good_items : list prop -> Prop :=
| good_items_nil : good_items []
| good_items_cons v items : good_ext v -> good_items items -> good_items (v :: items).

Section serialise.
  Variable ks : nat -> Z.

  Definition ser_block (t : list Z) : list Z := 0x73 :: enc_str ks t.

  (** Type byte and value; [e] is the inside of the extended property, if it is one. *)
  Definition ser_value (v : prop) (e : list Z) : list Z :=
    match v with
    | PNull => [0]
    | PShort n => 2 :: enc_le 2 n
    | PInt n => 3 :: enc_wzint 4 n
    | PLong n => 20 :: enc_wzint 8 n
    | PFloat b => 4 :: 0x80 :: enc_le 4 b
    | PFloatByte b => [4; b]
    | PDouble b => 5 :: enc_le 8 b
    | PStr t => 8 :: ser_block t
    | _ => 9 :: enc_le 4 (Z.of_nat (length e)) ++ e
    end.

  Fixpoint ser_ext (v : prop) : list Z :=
    match v with
    | PSub kids =>
      ser_block (codes "Property") ++ [0; 0] ++ enc_wzint 4 (Z.of_nat (length kids)) ++
      flat_map (fun kv => ser_block (fst kv) ++ ser_value (snd kv) (ser_ext (snd kv))) kids
    | PConvex kids =>
      ser_block (codes "Shape2D#Convex2D") ++ enc_wzint 4 (Z.of_nat (length kids)) ++ flat_map ser_ext kids
    | PVec x y => ser_block (codes "Shape2D#Vector2D") ++ enc_wzint 4 x ++ enc_wzint 4 y
    | PUol t => ser_block (codes "UOL") ++ [0] ++ ser_block t
    | _ => []
    end.

  (** A list of named properties. *)
  Definition ser_entries (kids : list (list Z * prop)) : list Z :=
    flat_map (fun kv => ser_block (fst kv) ++ ser_value (snd kv) (ser_ext (snd kv))) kids.
  Definition ser_list (kids : list (list Z * prop)) : list Z :=
    enc_wzint 4 (Z.of_nat (length kids)) ++ ser_entries kids.

  (** A whole image: a property without the size field. *)
  Definition ser_image (kids : list (list Z * prop)) : list Z :=
    ser_block (codes "Property") ++ [0; 0] ++ ser_list kids.
End serialise.
