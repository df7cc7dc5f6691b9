(** property/png.rs:55-81: the picture of a canvas found in a package, an archive or an image file. *)
From Verif.Model Require Import Base Utf Reader Image Png Node World.
From Coq Require String Ascii.
Import String.StringSyntax.

(** What [extract_png] needs of a canvas (png.rs:128-170). *)
Definition canvas_of (g : Image.png) : Png.png :=
  Png.mkPng (png_offset g) (png_size g) (png_format1 g) (png_format2 g) (png_header g) (png_width g) (png_height g).

(** [.at(name).and_then(|node| resolve_string_from_node(&node).ok())] (png.rs:58-60, 67-69; string.rs:169-175, 160-164;
    node_cast.rs:94-100: strings and UOLs are taken). *)
Definition w_link_text (w : world) (i : id) (name : text) : res (option text) :=
  match node_at (w_heap w) i name with
  | None => Ok None
  | Some k =>
    match w_thing w k with
    | ThProp r (OStr m) | ThProp r (OUol m) =>
      match get_string r m with Ok t => Ok (Some t) | Err _ => Ok None | Panic => Panic | OutOfFuel => OutOfFuel end
    | _ => Ok None
    end
  end.

Section pictures.
  (** As in Model/World.v (node.rs:174-229) and Model/Png.v (png.rs:278-287, 864-873). *)
  Variable stream : list Z -> nat -> Z.
  Variable block : list Z -> list Z -> Z -> list Z.
  Variable fuel : nat.
  Variable inflate : bool -> list Z -> Z -> option (list Z).
  Variable decode_bc7 : list Z -> Z -> Z -> option (list Z).
  Variable rayon : bool.

  (** The [try_fold] of [at_path_parsed] (node.rs:439-443) while the nodes [lk] are locked by the callers; locking one of them for writing
      is a deadlock, written [Panic].  Errors become [None] (node_util.rs:24). *)
  Fixpoint w_forced (lk : list id) (w : world) (n : id) (l : list text) : res (option id) * world :=
    match l with
    | [] => (Ok (Some n), w)
    | name :: r =>
      if held n lk then (Panic, w)
      else match w_parse stream block fuel w n n with
           | (Ok _, w1) => match node_at (w_heap w1) n name with
                           | Some m => w_forced lk w1 m r
                           | None => (Ok None, w1)
                           end
           | (Err _, w1) => (Ok None, w1)
           | (Panic, w1) => (Panic, w1)
           | (OutOfFuel, w1) => (OutOfFuel, w1)
           end
    end.
  (** [resolve_outlink] with [force_parse] on (node_util.rs:20-25): the base file stays write-locked. *)
  Definition w_outlink (depth : nat) (rd : list id) (w : world) (path : text) (i : id) : res (option id) * world :=
    match get_base_wz_file depth (w_heap w) i with
    | Ok (Some base) =>
      if held base rd then (Panic, w)
      else match split_slash path with
           | [] => (Panic, w)
           | first :: rest => match node_at (w_heap w) base first with
                              | Some n => w_forced (base :: rd) w n rest
                              | None => (Ok None, w)
                              end
           end
    | Ok None => (Ok None, w)
    | Err e => (Err e, w)
    | Panic => (Panic, w)
    | OutOfFuel => (OutOfFuel, w)
    end.

  (** [get_image] (png.rs:55-81), with the world it leaves.  [rd] are the canvases the callers keep read-locked.  [EOther 70] is
      [NotPngProperty]. *)
  Fixpoint w_get_image (depth : nat) (rd : list id) (w : world) (i : id) : res (list px) * world :=
    match depth with
    | O => (OutOfFuel, w)
    | S d =>
      match w_thing w i with
      | ThProp r (OPng g) =>
        match rbind (w_link_text w i (txt "_inlink")) (fun o =>
              match o with Some p => resolve_inlink d (w_heap w) p i | None => Ok None end) with
        | Ok (Some t) => w_get_image d (i :: rd) w t
        | Ok None =>
          match (match w_link_text w i (txt "_outlink") with
                 | Ok (Some p) => w_outlink d (i :: rd) w p i
                 | Ok None => (Ok None, w)
                 | Err e => (Err e, w)
                 | Panic => (Panic, w)
                 | OutOfFuel => (OutOfFuel, w)
                 end) with
          | (Ok (Some t), w1) => w_get_image d (i :: rd) w1 t
          | (Ok None, w1) => (extract_png inflate decode_bc7 rayon r (canvas_of g), w1)
          | (Err e, w1) => (Err e, w1)
          | (Panic, w1) => (Panic, w1)
          | (OutOfFuel, w1) => (OutOfFuel, w1)
          end
        | Err e => (Err e, w)
        | Panic => (Panic, w)
        | OutOfFuel => (OutOfFuel, w)
        end
      | _ => (Err (EOther 70), w)
      end
    end.
End pictures.
