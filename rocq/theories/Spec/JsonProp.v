(** What the simple JSON has to say about a stored property tree. *)
From Coq Require Import ZArith List Bool.
From Coq Require String Ascii.
From Verif.Model Require Import Base Reader Image Json.
From Verif.Spec Require Import PropWire Version PropView JsonView.
Import ListNotations. Import String.StringSyntax.
Open Scope Z_scope.

(** The named parts of a property; those of a convex are numbered from 0. *)
Inductive lists : prop -> list (list Z * prop) -> Prop :=
| lists_sub ps : lists (PSub ps) ps
| lists_canvas w h f s pg hd off size ps : lists (PCanvas w h f s pg hd off size ps) ps
| lists_raw off size ps : lists (PRaw off size ps) ps
| lists_convex ps l : map snd l = ps ->
    (forall i k c, nth_error l i = Some (k, c) ->
       exists ds, decimal (Z.of_nat i) ds /\ k = map (Z.add 48) ds) ->
    lists (PConvex ps) l.
(** The size of a canvas. *)
Inductive size_field : prop -> text -> json -> Prop :=
| sf_width w h f s pg hd off size ps : size_field (PCanvas w h f s pg hd off size ps) (codes "width") (VInt w)
| sf_height w h f s pg hd off size ps : size_field (PCanvas w h f s pg hd off size ps) (codes "height") (VInt h).

(** [says buf p v]: the JSON value of the property [p] of an image stored in [buf]. *)
Inductive says (buf : list Z) : prop -> json -> Prop :=
| says_null : says buf PNull VNull
| says_short v : says buf (PShort v) (VInt v)
| says_int v : says buf (PInt v) (VInt v)
| says_long v : says buf (PLong v) (VInt v)
| says_float b : says buf (PFloat b) (VF32 b)
| says_float_byte b bits : single_is bits b -> says buf (PFloatByte b) (VF32 bits)
| says_double b : says buf (PDouble b) (VF64 b)
| says_str t : says buf (PStr t) (VText t)
| says_uol t : says buf (PUol t) (VText t)
| says_vec x y m :
    entries m (fun k v => (k = codes "x" /\ v = VInt x) \/ (k = codes "y" /\ v = VInt y)) ->
    says buf (PVec x y) (VObj m)
| says_sound off size dur hoff ty m : sound_kind buf hoff off size dur ty ->
    entries m (fun k v => (k = codes "duration" /\ v = VInt dur) \/
                          (k = codes "sound_type" /\ v = VText (sound_word ty))) ->
    says buf (PSound off size dur hoff) (VObj m)
| says_video off size : says buf (PVideo off size) VNull
| says_empty p : lists p [] -> (forall k v, ~ size_field p k v) -> says buf p VNull
| says_canvas w h f s pg hd off size m :
    entries m (size_field (PCanvas w h f s pg hd off size [])) ->
    says buf (PCanvas w h f s pg hd off size []) (VObj m)
| says_inner p l m : lists p l -> l <> [] -> NoDup (map fst m) ->
    (forall k c, In (k, c) l -> exists v, In (k, v) m /\ says buf c v) ->
    (forall k v, size_field p k v -> ~ In k (map fst l) -> In (k, v) m) ->
    (forall k v, In (k, v) m -> In k (map fst l) \/ size_field p k v) ->
    says buf p (VObj m).

(** Names differ within each list, and floats are finite. *)
Inductive tidy : prop -> Prop :=
| tidy_float b : finite_single b -> tidy (PFloat b)
| tidy_double b : finite_double b -> tidy (PDouble b)
| tidy_leaf p : match p with
    | PNull | PShort _ | PInt _ | PLong _ | PFloatByte _ | PStr _ | PUol _ | PVec _ _ | PSound _ _ _ _ | PVideo _ _ => True
    | _ => False
    end -> tidy p
| tidy_sub ps : tidy_kids ps -> tidy (PSub ps)
| tidy_canvas w h f s pg hd off size ps : tidy_kids ps -> tidy (PCanvas w h f s pg hd off size ps)
| tidy_raw off size ps : tidy_kids ps -> tidy (PRaw off size ps)
| tidy_convex ps : (forall p, In p ps -> tidy p) -> tidy (PConvex ps)
with tidy_kids : list (list Z * prop) -> Prop :=
| tidy_list ps : NoDup (map fst ps) -> (forall k p, In (k, p) ps -> tidy p) -> tidy_kids ps.
