(** The layout of property trees inside an image, written down independently of
    the parser: which bytes stand where. *)
From Coq Require Import ZArith List Bool.
From Coq Require String Ascii.
From Verif.Spec Require Import Wire StrWire Version.
Import ListNotations.
Open Scope Z_scope.

(** The bytes [l] stand in [buf] from position [p] up to [q]. *)
Definition at_ (buf : list Z) (p q : Z) (l : list Z) : Prop :=
  exists pre post, buf = pre ++ l ++ post /\ p = Z.of_nat (length pre) /\ q = p + Z.of_nat (length l).

(** Character codes of a literal. *)
Fixpoint codes (s : String.string) : list Z :=
  match s with
  | String.EmptyString => []
  | String.String c r => Z.of_N (Ascii.N_of_ascii c) :: codes r
  end.
Import String.StringSyntax.
Arguments codes _%string_scope.

(** Property trees.  Floats are IEEE bit patterns; a whole number 0..255 may
    also be stored as a one-byte float ([PFloatByte]).  Media properties say
    where their data stands. *)
Inductive prop :=
| PNull
| PShort (v : Z) | PInt (v : Z) | PLong (v : Z)
| PFloat (bits : Z) | PFloatByte (b : Z) | PDouble (bits : Z)
| PStr (t : list Z) | PUol (t : list Z)
| PVec (x y : Z)
| PSub (kids : list (list Z * prop))
| PConvex (kids : list prop)
| PCanvas (width height format scale pages header off size : Z) (kids : list (list Z * prop))
| PSound (off size duration header_off : Z)
| PRaw (off size : Z) (kids : list (list Z * prop))
| PVideo (off size : Z).

Section layout.
  Variable buf : list Z.
  Variable ks : nat -> Z.
  (** Position to which string offsets are relative. *)
  Variable origin : Z.

  (** A text, in place (tag 0x00 / 0x73) or by reference (tag 0x01 / 0x1B). *)
  Inductive block_at (p q : Z) (t : list Z) : Prop :=
  | block_inline tag : tag = 0 \/ tag = 0x73 -> unicode t ->
      at_ buf p (p + 1) [tag] -> at_ buf (p + 1) q (enc_str ks t) -> block_at p q t
  | block_ref tag a e : tag = 0x01 \/ tag = 0x1B -> unicode t -> - 2 ^ 31 <= a < 2 ^ 31 ->
      at_ buf p (p + 1) [tag] -> at_ buf (p + 1) q (enc_le 4 a) ->
      at_ buf (origin + a) e (enc_str ks t) -> block_at p q t.

  Definition int_at (p q v : Z) : Prop := - 2 ^ 31 <= v < 2 ^ 31 /\ at_ buf p q (enc_wzint 4 v).

  (** Width, height, format, scale, page count, an unused number, two unused
      bytes, size + 1, one unused byte, the data (whose first two bytes are the
      stream header). *)
  Inductive laid_canvas : Z -> Z -> Z -> Z -> Z -> Z -> Z -> Z -> Z -> Z -> Prop :=
  | canvas_at p p1 p2 p3 p4 p5 w h f s pg u hd size :
      0 <= w -> 0 <= h -> 0 <= f -> 0 <= s < 128 -> 0 <= hd < 65536 ->
      0 <= size < 2 ^ 31 - 1 ->
      int_at p p1 w -> int_at p1 p2 h -> int_at p2 p3 f -> at_ buf p3 (p3 + 1) [s] ->
      int_at (p3 + 1) p4 pg -> int_at p4 p5 u ->
      at_ buf (p5 + 2) (p5 + 6) (enc_le 4 (size + 1)) ->
      at_ buf (p5 + 7) (p5 + 9) (enc_le 2 hd) ->
      laid_canvas p (p5 + 9) w h f s pg hd (p5 + 7) size.

  (** [laid_entries p q kids]: name and value of each property one after the
      other; [laid_value]: type byte and value; [laid_ext p e b v]: an extended
      property whose block ends at [b] and whose fields end at [e]. *)
  Inductive laid_entries : Z -> Z -> list (list Z * prop) -> Prop :=
  | entries_nil p : laid_entries p p []
  | entries_cons p a b q name v kids :
      block_at p a name -> laid_value a b v -> laid_entries b q kids ->
      laid_entries p q ((name, v) :: kids)
  with laid_value : Z -> Z -> prop -> Prop :=
  | value_null p q : at_ buf p q [0] -> laid_value p q PNull
  | value_short p q t v : t = 2 \/ t = 11 -> - 2 ^ 15 <= v < 2 ^ 15 ->
      at_ buf p q (t :: enc_le 2 v) -> laid_value p q (PShort v)
  | value_int p q t v : t = 3 \/ t = 19 -> at_ buf p (p + 1) [t] -> int_at (p + 1) q v ->
      laid_value p q (PInt v)
  | value_long p q v : - 2 ^ 63 <= v < 2 ^ 63 -> at_ buf p q (20 :: enc_wzint 8 v) ->
      laid_value p q (PLong v)
  | value_float p q bits : 0 <= bits < 2 ^ 32 -> at_ buf p q (4 :: 0x80 :: enc_le 4 bits) ->
      laid_value p q (PFloat bits)
  | value_float_byte p q b : 0 <= b < 256 -> b <> 0x80 -> at_ buf p q [4; b] ->
      laid_value p q (PFloatByte b)
  | value_double p q bits : 0 <= bits < 2 ^ 64 -> at_ buf p q (5 :: enc_le 8 bits) ->
      laid_value p q (PDouble bits)
  | value_str p q t : at_ buf p (p + 1) [8] -> block_at (p + 1) q t -> laid_value p q (PStr t)
  | value_ext p q e size v : 0 <= size < 2 ^ 32 ->
      at_ buf p (p + 5) (9 :: enc_le 4 size) -> q = p + 5 + size ->
      laid_ext (p + 5) e q v -> laid_value p q v
  with laid_ext : Z -> Z -> Z -> prop -> Prop :=
  | ext_sub p a e b kids : block_at p a (codes "Property") ->
      laid_list (a + 2) e kids -> laid_ext p e b (PSub kids)
  | ext_convex p a c e b kids : block_at p a (codes "Shape2D#Convex2D") ->
      int_at a c (Z.of_nat (length kids)) -> laid_exts c e b kids ->
      laid_ext p e b (PConvex kids)
  | ext_vec p a c e b x y : block_at p a (codes "Shape2D#Vector2D") ->
      int_at a c x -> int_at c e y -> laid_ext p e b (PVec x y)
  | ext_uol p a e b t : block_at p a (codes "UOL") -> block_at (a + 1) e t ->
      laid_ext p e b (PUol t)
  | ext_canvas_plain p a e b hc w h f s pg hd off sz : block_at p a (codes "Canvas") ->
      hc <> 1 -> 0 <= hc < 256 -> at_ buf (a + 1) (a + 2) [hc] ->
      laid_canvas (a + 2) e w h f s pg hd off sz ->
      laid_ext p e b (PCanvas w h f s pg hd off sz [])
  | ext_canvas_kids p a c e b w h f s pg hd off sz kids : block_at p a (codes "Canvas") ->
      at_ buf (a + 1) (a + 2) [1] -> laid_list (a + 4) c kids ->
      laid_canvas c e w h f s pg hd off sz ->
      laid_ext p e b (PCanvas w h f s pg hd off sz kids)
  | ext_sound p a c hoff b size dur : block_at p a (codes "Sound_DX8") ->
      0 <= size -> 0 <= dur -> int_at (a + 1) c size -> int_at c hoff dur ->
      hoff <= b - size -> b <= Z.of_nat (length buf) ->
      laid_ext p hoff b (PSound (b - size) size dur hoff)
  | ext_raw_plain p a e b ver size : block_at p a (codes "RawData") ->
      ver <> 1 -> 0 <= ver < 256 -> at_ buf a (a + 1) [ver] -> 0 <= size -> int_at (a + 1) e size ->
      laid_ext p e b (PRaw e size [])
  | ext_raw_bare p a e b hc size : block_at p a (codes "RawData") ->
      hc <> 1 -> 0 <= hc < 256 -> at_ buf a (a + 2) [1; hc] -> 0 <= size -> int_at (a + 2) e size ->
      laid_ext p e b (PRaw e size [])
  | ext_raw_kids p a c e b size kids : block_at p a (codes "RawData") ->
      at_ buf a (a + 2) [1; 1] -> laid_list (a + 4) c kids -> 0 <= size -> int_at c e size ->
      laid_ext p e b (PRaw e size kids)
  | ext_video p a e b size : block_at p a (codes "Canvas#Video") ->
      0 <= size -> int_at (a + 3) e size -> laid_ext p e b (PVideo e size)
  with laid_exts : Z -> Z -> Z -> list prop -> Prop :=
  | exts_nil p b : laid_exts p p b []
  | exts_cons p a e b v kids : laid_ext p a b v -> laid_exts a e b kids ->
      laid_exts p e b (v :: kids)
  with laid_list : Z -> Z -> list (list Z * prop) -> Prop :=
  | list_at p a q kids : int_at p a (Z.of_nat (length kids)) -> laid_entries a q kids ->
      laid_list p q kids.
End layout.
