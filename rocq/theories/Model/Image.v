(** util/parse_property.rs and wz_image.rs: the property tree inside an image. *)
From Coq Require String Ascii.
From Verif.Model Require Import Base Utf Reader VersionPkg1.
Local Open Scope rd_scope.

(** A Rust string literal (e.g. parse_property.rs:190) as its list of character codes. *)
Fixpoint txt (s : String.string) : text :=
  match s with
  | String.EmptyString => []
  | String.String c r => Z.of_N (Ascii.N_of_ascii c) :: txt r
  end.
Import String.StringSyntax.
Arguments txt _%string_scope.

(** property/png.rs:128-145 (WzPng); the reader handle is left out. *)
Record png := mkPng { png_width : Z; png_height : Z; png_format1 : Z; png_format2 : Z;
  png_offset : Z; png_size : Z; png_header : Z; png_pages : Z }.

(** property/sound.rs:28-33 (WzSoundType). *)
Inductive sound_type := Mp3 | Wav | Binary.
(** property/sound.rs:36-49 (WzSound); the reader handle is left out. *)
Record sound := mkSound { snd_offset : Z; snd_length : Z; snd_header_offset : Z;
  snd_header_size : Z; snd_duration : Z; snd_type : sound_type }.

(** The [WzObjectType]s made by parse_property.rs and wz_image.rs (object.rs,
    property/mod.rs).  Floats are kept as bit patterns. *)
Inductive obj :=
| ONull | OShort (v : Z) | OInt (v : Z) | OLong (v : Z) | OFloat (bits : Z) | ODouble (bits : Z)
| OStr (m : smeta) | OUol (m : smeta) | OVector (x y : Z)
| OSub | OConvex
| OPng (p : png) | OSound (s : sound) | ORaw (off len : Z) | OVideo (off len : Z) | OLua (off len : Z).

(** node.rs:34-43 (WzNode).  The node's own name is the key under which it is
    listed (parse_property.rs always uses the same name for both); the parent
    pointer is implied by the nesting.  [kids] is the sequence of [insert]s
    made into the [children] map, so a lookup finds the last of equal names. *)
Inductive node := Node (o : obj) (kids : list (text * node)).
(** Field [object_type], node.rs:38. *)
Definition nd_obj (n : node) : obj := let (o, _) := n in o.
(** Field [children], node.rs:42. *)
Definition nd_kids (n : node) : list (text * node) := let (_, k) := n in k.

(** [children.get(name)] (node.rs:376-378) on the insertion sequence. *)
Fixpoint child (kids : list (text * node)) (name : text) : option node :=
  match kids with
  | [] => None
  | (k, n) :: r => match child r name with
                   | Some m => Some m
                   | None => if text_eqb k name then Some n else None
                   end
  end.

(** [float_type as f32] (parse_property.rs:99): the bit pattern of a small
    whole number. *)
Definition f32_of_u8 (b : Z) : Z :=
  if b =? 0 then 0 else let e := Z.log2 b in (127 + e) * 2 ^ 23 + (b - 2 ^ e) * 2 ^ (23 - e).

(** property/sound.rs:63-69 (get_frequency_header); the read cannot fail there. *)
Definition frequency_header (h : list Z) : res Z :=
  if zlen h <=? 0x3c then Ok 0
  else match read_i32_at h 0x38 with Ok v => Ok (wrap 32 v) | _ => Panic end.
(** property/sound.rs:71-82 (get_sound_type_from_header). *)
Definition sound_type_of (h : list Z) (size duration : Z) : res sound_type :=
  rbind (frequency_header h) (fun f =>
  Ok (if zlen h =? 0x46 then (if (f =? size) && (duration =? 1000) then Binary else Wav) else Mp3)).

(** What parsing one property gives (parse_property.rs:69): its name, the
    node, and the UOL nodes found in it.  A UOL node is represented by its
    path below the property's parent. *)
Definition parsed := (text * node * list (list text))%type.

(** parse_property.rs:121-141: an unknown extended type is turned into a null
    node named after the error's name; other failures pass through.  Then
    [seek(next_pos)] (line 143), which only happens on success. *)
Definition catch_unknown (m : R parsed) (next_pos : Z) : R parsed := fun p =>
  match m p with
  | (Ok x, _) => (Ok x, next_pos)
  | (Err (EUnknownExt n), _) => (Ok (n, Node ONull [], []), next_pos)
  | (e, q) => (e, q)
  end.

(** [Vec::with_capacity(n as usize)] / [reserve(n as usize)] of an i32
    (parse_property.rs:37, 279): "capacity overflow" panic for a negative
    number.  Exhausted memory is not modelled. *)
Definition reserve (n : Z) : R unit := if n <? 0 then panic else ret tt.

Section parser.
  Variable r : rd.
  (** [origin_offset], parse_property.rs:33. *)
  Variable origin : Z.

  (** The "Canvas" tail, parse_property.rs:232-256: all fields after the children. *)
  Definition p_canvas_tail : R png :=
    do width <- read_wz_int r;
    do height <- read_wz_int r;
    do format1 <- read_wz_int r;
    do scale <- read_i8 r;
    do pages <- read_wz_int r;
    do unknown <- read_wz_int r;
    skip 2 ;;
    do size <- read_i32 r;
    skip 1 ;;
    do off <- get_pos;
    do header <- read_u16 r;
    ret (mkPng (wrap 32 width) (wrap 32 height) (wrap 32 format1) (wrap 32 scale)
               off (wrap 64 (sext 32 (size - 1))) header pages).

  (** "Sound_DX8", parse_property.rs:308-335.  The subtractions wrap; the slice panics
      when it is reversed or outside the buffer. *)
  Definition p_sound (eob : Z) : R sound :=
    skip 1 ;;
    do sz <- read_wz_int r;
    do dur <- read_wz_int r;
    let size := wrap 32 sz in
    let duration := wrap 32 dur in
    let off := wrap 64 (eob - size) in
    do hoff <- get_pos;
    let hsize := wrap 64 (off - hoff) in
    match slice (rd_buf r) hoff (wrap 64 (hoff + hsize)) with
    | None => panic
    | Some h =>
      do t <- lift (sound_type_of h size duration);
      ret (mkSound off size hoff hsize duration t)
    end.

  (** The UOL nodes handed up by a child (parse_property.rs:210, 262, 297, 385) are
      represented by their paths: each gets the child's name in front. *)
  Definition under (name : text) (us : list (list text)) : list (list text) := map (cons name) us.

  (** parse_property.rs:39-57 (the loop of parse_property_list; [n] entries
      left), 62-156 (parse_property_node), 159-178 and 180-406
      (parse_extended_prop, parse_more) and 272-297 (the loop of the convex
      branch; [i] is its counter, named by [i.to_string()]).  One unit of fuel per call. *)
  Fixpoint p_entries (fuel : nat) (n : Z) {struct fuel} : R (list (text * node) * list (list text)) :=
    if n <=? 0 then ret ([], [])
    else match fuel with
    | O => out_of_fuel
    | S k =>
      do name <- read_wz_string_block r origin;
      do t <- read_u8 r;
      do x <- p_node k name t;
      do rest <- p_entries k (n - 1);
      let '(nm, nd, us) := x in
      ret ((nm, nd) :: fst rest, us ++ snd rest)
    end
  with p_node (fuel : nat) (name : text) (t : Z) {struct fuel} : R parsed :=
    match fuel with
    | O => out_of_fuel
    | S k =>
      if t =? 0 then ret (name, Node ONull [], [])
      else if (t =? 2) || (t =? 11) then do v <- read_i16 r; ret (name, Node (OShort v) [], [])
      else if (t =? 3) || (t =? 19) then do v <- read_wz_int r; ret (name, Node (OInt v) [], [])
      else if t =? 20 then do v <- read_wz_int64 r; ret (name, Node (OLong v) [], [])
      else if t =? 4 then
        do ft <- read_u8 r;
        if ft =? 0x80 then do v <- read_float r; ret (name, Node (OFloat v) [], [])
        else ret (name, Node (OFloat (f32_of_u8 ft)) [], [])
      else if t =? 5 then do v <- read_double r; ret (name, Node (ODouble v) [], [])
      else if t =? 8 then
        do m <- read_wz_string_block_meta r origin; ret (name, Node (OStr m) [], [])
      else if t =? 9 then
        do size <- read_u32 r;
        do p <- get_pos;
        let next_pos := wrap 64 (p + size) in
        catch_unknown (p_ext k name next_pos) next_pos
      else fail EUnknownProp
    end
  with p_ext (fuel : nat) (name : text) (eob : Z) {struct fuel} : R parsed :=
    match fuel with
    | O => out_of_fuel
    | S k =>
      do ty <- read_wz_string_block r origin;
      if text_eqb ty (txt "Property") then
        skip 2 ;;
        do n <- read_wz_int r;
        reserve n ;;
        do l <- p_entries k n;
        ret (name, Node OSub (fst l), under name (snd l))
      else if text_eqb ty (txt "Canvas") then
        skip 1 ;;
        do hc <- read_u8 r;
        do l <- (if hc =? 1 then skip 2 ;; do n <- read_wz_int r; reserve n ;; p_entries k n
                 else ret ([], []));
        do png <- p_canvas_tail;
        ret (name, Node (OPng png) (fst l), under name (snd l))
      else if text_eqb ty (txt "Shape2D#Convex2D") then
        do n <- read_wz_int r;
        reserve n ;;
        do l <- p_convex k eob 0 n;
        ret (name, Node OConvex (fst l), under name (snd l))
      else if text_eqb ty (txt "Shape2D#Vector2D") then
        do x <- read_wz_int r;
        do y <- read_wz_int r;
        ret (name, Node (OVector x y) [], [])
      else if text_eqb ty (txt "Sound_DX8") then
        do s <- p_sound eob; ret (name, Node (OSound s) [], [])
      else if text_eqb ty (txt "UOL") then
        skip 1 ;;
        do m <- read_wz_string_block_meta r origin;
        ret (name, Node (OUol m) [], [[name]])
      else if text_eqb ty (txt "RawData") then
        do ver <- read_u8 r;
        do hc <- (if ver =? 1 then read_u8 r else ret 0);
        do l <- (if hc =? 1 then skip 2 ;; do n <- read_wz_int r; reserve n ;; p_entries k n
                 else ret ([], []));
        do size <- read_wz_int r;
        do off <- get_pos;
        ret (name, Node (ORaw off (wrap 64 size)) (fst l), under name (snd l))
      else if text_eqb ty (txt "Canvas#Video") then
        skip 3 ;;
        do size <- read_wz_int r;
        do off <- get_pos;
        ret (name, Node (OVideo off (wrap 64 size)) [], [])
      else fail (EUnknownExt name)
    end
  with p_convex (fuel : nat) (eob i n : Z) {struct fuel} : R (list (text * node) * list (list text)) :=
    if n <=? i then ret ([], [])
    else match fuel with
    | O => out_of_fuel
    | S k =>
      do x <- p_ext k (to_string i) eob;
      do rest <- p_convex k eob (i + 1) n;
      let '(nm, nd, us) := x in
      ret ((nm, nd) :: fst rest, us ++ snd rest)
    end.

  (** parse_property.rs:29-60 (parse_property_list). *)
  Definition p_list (fuel : nat) : R (list (text * node) * list (list text)) :=
    do n <- read_wz_int r;
    reserve n ;;
    p_entries fuel n.

  (** [path.split('/')] (parse_property.rs:419). *)
  Fixpoint split_slash (p : text) : list text :=
    match p with
    | [] => [[]]
    | c :: r => if c =? 47 then [] :: split_slash r
                else match split_slash r with
                     | [] => [[c]]
                     | w :: ws => (c :: w) :: ws
                     end
    end.

  (** Outcome of the [for] loop of get_node (parse_property.rs:425-493): a
      result, or [break] into the matching extended property, or running off
      the end of the list. *)
  Inductive scan := SFound (name : text) (nd : node) | SDescend | SEnd.

  (** parse_property.rs:425-493: one pass over a list of [n] entries looking
      for [cur]; [last] tells whether [next_path] is [None].  The string skip
      of 456-468 is written out. *)
  Fixpoint scan_list (fuel : nat) (cur : text) (last : bool) (n : Z) {struct fuel} : R scan :=
    if n <=? 0 then ret SEnd
    else match fuel with
    | O => out_of_fuel
    | S k =>
      do name <- read_wz_string_block r origin;
      do t <- read_u8 r;
      if text_eqb name cur && last then
        do x <- p_node k name t;
        let '(nm, nd, _) := x in ret (SFound nm nd)
      else if t =? 0 then scan_list k cur last (n - 1)
      else if (t =? 2) || (t =? 11) then skip 2 ;; scan_list k cur last (n - 1)
      else if (t =? 3) || (t =? 19) then read_wz_int r ;; scan_list k cur last (n - 1)
      else if t =? 20 then read_wz_int64 r ;; scan_list k cur last (n - 1)
      else if t =? 4 then
        do ft <- read_u8 r;
        (if ft =? 0x80 then skip 4 else ret tt) ;; scan_list k cur last (n - 1)
      else if t =? 5 then skip 8 ;; scan_list k cur last (n - 1)
      else if t =? 8 then
        do st <- read_u8 r;
        (if (st =? 0) || (st =? 0x73) then read_wz_string_meta r ;; ret tt
         else if (st =? 1) || (st =? 0x1B) then skip 4 else ret tt) ;;
        scan_list k cur last (n - 1)
      else if t =? 9 then
        if text_eqb name cur then
          skip 4 ;; read_wz_string_block_meta r origin ;; skip 2 ;; ret SDescend
        else
          do size <- read_u32 r;
          skip size ;; scan_list k cur last (n - 1)
      else fail EUnknownProp
    end.

  (** parse_property.rs:421-503, the [while] loop.  [cur] is [current_path]
      and [rest] what [pathes] still holds: one component is taken from it in
      every round, whether or not the current one was found. *)
  Fixpoint get_loop (fuel : nat) (cur : text) (rest : list text) {struct rest} : R (text * node) :=
    do n <- read_wz_int r;
    match rest with
    | [] =>
      do s <- scan_list fuel cur true n;
      match s with SFound nm nd => ret (nm, nd) | _ => fail ENotFound end
    | nx :: rest' =>
      do s <- scan_list fuel cur false n;
      match s with
      | SFound nm nd => ret (nm, nd)
      | SDescend => get_loop fuel nx rest'
      | SEnd => get_loop fuel cur rest'
      end
    end.

  (** parse_property.rs:409-504 (get_node). *)
  Definition get_node (fuel : nat) (path : text) : R (text * node) :=
    match path with
    | [] => fail ENotFound
    | _ => match split_slash path with
           | [] => fail ENotFound
           | c :: rest => get_loop fuel c rest
           end
    end.
End parser.

(** The header check shared by wz_image.rs:121-135 (at_path) and 199-205
    (resolve_children), after the first byte; [e] is the error each raises. *)
Definition image_head (r : rd) (e : err) : R unit :=
  do name <- read_wz_string r;
  do value <- read_u16 r;
  if negb (text_eqb name (txt "Property")) && negb (value =? 0) then fail e else ret tt.

(** wz_image.rs:121-143 (at_path). *)
Definition image_at_path (fuel : nat) (r : rd) (offset : Z) (path : text) : res node :=
  fst ((do b <- read_u8 r;
        (if negb (b =? 0x73) then fail EImageHeader else image_head r EParse) ;;
        do x <- get_node r offset fuel path;
        ret (snd x)) offset).

(** [str::ends_with] (wz_image.rs:161, 173). *)
Definition ends_with (t suffix : text) : bool :=
  (Z.of_nat (length suffix) <=? zlen t) &&
  text_eqb (skipn (length t - length suffix) t) suffix.

(** wz_image.rs:151-213 (resolve_children).  [self.block_size - 9] wraps. *)
Definition image_children (fuel : nat) (r : rd) (name : text) (offset block_size : Z)
  : res (list (text * node) * list (list text)) :=
  fst ((do b <- read_u8 r;
        if ends_with name (txt ".txt") then
          ret ([(txt "text.txt", Node (ORaw offset block_size) [])], [])
        else if b =? 0x01 then
          if ends_with name (txt ".lua") then
            do len <- read_wz_int r;
            do off <- get_pos;
            ret ([(txt "Script", Node (OLua off (wrap 64 len)) [])], [])
          else fail ELua
        else if b =? 0x23 then
          match slice (rd_buf r) offset (wrap 64 (offset + 9)) with
          | None => panic
          | Some l => if text_eqb l (txt "#Property")
                      then ret ([(txt "text.txt", Node (ORaw (wrap 64 (offset + 9)) (wrap 64 (block_size - 9))) [])], [])
                      else fail EImageHeader
          end
        else if b =? 0x73 then
          image_head r EWrongVersion ;; p_list r offset fuel
        else fail EImageHeader) offset).
