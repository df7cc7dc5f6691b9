(** A package, an .ms archive or an image file as the caller meets it: one node for the file, whose contents are read when they
    are asked for (node.rs:174-229, 434-447; file.rs; directory.rs; ms/file.rs; ms/ms_image.rs; wz_image.rs;
    parse_property.rs).  The loading that Model/Node.v leaves open is supplied here by the models of files, directories, archives
    and images. *)
From Verif.Model Require Import Base Utf Keys Reader Header Offset VersionPkg2 Directory Image Media Guess File Node Ms.
From Coq Require String Ascii.
Import String.StringSyntax.

(** What all directories of a file have in common (directory.rs:66-81: reader, hash and profile; reader.rs:66-75: header and keys). *)
Record shared := mkShared { sh_rd : rd; sh_hd : header; sh_p2 : bool; sh_scheme : offv; sh_hash : Z }.

(** [WzObjectType] (object.rs:25-35) with what reading needs of it; the flags [is_parsed] and the names are in the heap of
    Model/Node.v ([di_parsed] is not looked at).  An image carries its own copy of its name (wz_image.rs:66-78). *)
Inductive thing :=
| ThFile (buf : list Z) (iv : option (list Z)) (existing : option decr) (patch : Z)
| ThDir (s : shared) (d : dir)
| ThImage (r : rd) (name : text) (off size : Z)
| ThMsFile (buf : list Z) (h : ms_header)
| ThMsImage (buf : list Z) (e : ms_entry)
| ThProp (r : rd) (o : obj).

(** The nodes (node.rs:36-44), the object of each, the next address to be handed out, and the
    profile cache (util/profile.rs:114-126). *)
Record world := mkWorld { w_heap : heap; w_thing : id -> thing; w_next : id; w_cache : pcache }.

(** What Model/Node.v sees of a new node (object.rs:25-35, node_util.rs:60-64). *)
Definition kind_of (t : thing) : kind :=
  match t with
  | ThFile _ _ _ _ => KFile false
  | ThDir _ _ => KDir false
  | ThImage _ _ _ _ => KImage false
  | ThMsFile _ _ => KMsFile false
  | ThMsImage _ _ => KMsImage
  | ThProp r (OUol m) => KUol (match get_string r m with Ok t => Some t | _ => None end)
  | ThProp _ _ => KOther 0
  end.

(** [WzNode::new(name, object, parent).into_lock()] (node.rs:56-70, 168-171) at the next address. *)
Definition fresh (w : world) (name : text) (t : thing) (parent : option id) : world * id :=
  let i := w_next w in
  (mkWorld (put (w_heap w) i (mkCell name (kind_of t) parent []))
           (fun j => if j =? i then t else w_thing w j) (i + 1) (w_cache w), i).

(** [node.children.insert] for each child in turn (parse_property.rs:205-208, directory.rs:140-142). *)
Definition fill (w : world) (i : id) (l : list (text * id)) : world :=
  mkWorld (fold_left (fun h e => insert_child h i (fst e) (snd e)) l (w_heap w)) (w_thing w) (w_next w) (w_cache w).

(** A list of siblings, made one after the other by [f] (parse_property.rs:39-57, 282-294; directory.rs:122-130). *)
Definition plant_list {A} (f : world -> text -> A -> world * id * list id) : world -> list (text * A) -> world * list (text * id) * list id :=
  fix go w l := match l with
                | [] => (w, [], [])
                | (name, n) :: r =>
                  let '(w1, i, us) := f w name n in
                  let '(w2, l', us') := go w1 r in
                  (w2, (name, i) :: l', us ++ us')
                end.

(** parse_property.rs:62-406: the nodes made for a parsed property, with the UOL nodes found in it in order; every node is made
    before those below it and is their parent. *)
Fixpoint plant (r : rd) (parent : id) (w : world) (name : text) (n : node) : world * id * list id :=
  match n with
  | Node o kids =>
    let '(w1, i) := fresh w name (ThProp r o) (Some parent) in
    let '(w2, l, us) := plant_list (plant r i) w1 kids in
    (fill w2 i l, i, match o with OUol _ => i :: us | _ => us end)
  end.

(** directory.rs:122-146, 451-479: the nodes made for a directory listing.  [WzNode::empty()] (node.rs:72-79) has no name and no
    parent.  All entries of a directory are made before those below them; addresses have no meaning,
    so the order does not matter. *)
Fixpoint plant_dir (s : shared) (parent : id) (w : world) (name : text) (n : dnode) : world * id * list id :=
  match n with
  | NImage off size => (fresh w name (ThImage (sh_rd s) name off size) (Some parent), [])
  | NDir d kids =>
    let '(w1, i) := fresh w name (ThDir s d) (Some parent) in
    let '(w2, l, us) := plant_list (plant_dir s i) w1 kids in
    (fill w2 i l, i, us)
  | NEmpty => (fresh w [] (ThProp (sh_rd s) ONull) None, [])
  end.

(** ms/file.rs:143-150, 225-232: the nodes made for the entries of an archive. *)
Definition plant_ms (buf : list Z) (parent : id) (w : world) (name : text) (e : ms_entry) : world * id * list id :=
  (fresh w name (ThMsImage buf e) (Some parent), []).

(** The object of a node changes (node.rs:180-209: the directory is borrowed mutably; an [MsImage] gives way to an image). *)
Definition set_thing (w : world) (i : id) (t : thing) : world :=
  mkWorld (w_heap w) (fun j => if j =? i then t else w_thing w j) (w_next w) (w_cache w).
(** A profile that worked is remembered (file.rs:290-293). *)
Definition set_cache (w : world) (c : pcache) : world := mkWorld (w_heap w) (w_thing w) (w_next w) c.

Section world.
  (** Oracle: key streams of the [EcbDecryptor]s (see Model/Guess.v). *)
  Variable stream : list Z -> nat -> Z.
  (** Oracle: the ChaCha20 blocks (see Model/Ms.v). *)
  Variable block : list Z -> list Z -> Z -> list Z.
  Variable fuel : nat.

  (** [WzReader::new(..).with_iv] (reader.rs:182-200) and, with no IV, [WzReader::from_buff] (reader.rs:259-277): the decryptor
      for [DecrypterType::Unknown] is the one of IV 0 (string_decryptor/mod.rs:199-211, 241). *)
  Definition fresh_reader (buf iv : list Z) : rd := mkRd buf (stream iv) (rd_pks (reader_of stream buf pkg2_default)).
  (** [from_buff] (reader.rs:259-277) makes one zero byte of an empty buffer. *)
  Definition own_reader (buf : list Z) : rd := fresh_reader (match buf with [] => [0] | _ => buf end) [0; 0; 0; 0].

  (** What the directories of a parsed file share (file.rs:165, 187-190, 249-251, 279-281). *)
  Definition shared_of (buf : list Z) (h : header) (x : parsed_file) : shared :=
    mkShared (reader_of stream buf (pf_key x)) h (is_pkg2 (pf_key x))
             (match pf_version x with inl _ => OPkg1 | inr p => prof_offset p end) (pf_hash x).

  (** node.rs:176-211: the children of node [i] and the UOL nodes among them.  The IV, key and
      version a file was opened with are kept (file.rs:60-72, 110-132), and opening is done again here where the code did it when the file
      was opened, which gives the same as the bytes have not changed. *)
  Definition w_load (w : world) (parent i : id) : res (list (text * id) * list id) * world :=
    match w_thing w i with
    | ThFile buf iv existing patch =>
      match rbind (header_of buf) (fun h => rmap (fun x => (h, x)) (parse_file stream fuel buf iv existing patch None (w_cache w))) with
      | Ok (h, x) =>
        let '(w1, l, _) := plant_list (plant_dir (shared_of buf h x) parent) (set_cache w (pf_cache x)) (pf_kids x) in
        (Ok (l, []), w1)
      | Err e => (Err e, w)
      | Panic => (Panic, w)
      | OutOfFuel => (OutOfFuel, w)
      end
    | ThDir s d =>
      match resolve_children (sh_rd s) (sh_hd s) (sh_p2 s) (sh_scheme s) (sh_hash s) fuel d with
      | (Ok kids, d') =>
        let '(w1, l, _) := plant_list (plant_dir s parent) (set_thing w i (ThDir s d')) kids in
        (Ok (l, []), w1)
      | (Err e, d') => (Err e, set_thing w i (ThDir s d'))
      | (Panic, d') => (Panic, set_thing w i (ThDir s d'))
      | (OutOfFuel, d') => (OutOfFuel, set_thing w i (ThDir s d'))
      end
    | ThImage r name off size =>
      match image_children fuel r name off size with
      | Ok (kids, _) =>
        let '(w1, l, us) := plant_list (plant r parent) w kids in
        (Ok (l, us), w1)
      | Err e => (Err e, w)
      | Panic => (Panic, w)
      | OutOfFuel => (OutOfFuel, w)
      end
    | ThMsFile buf h =>
      match ms_parse block h buf with
      | Ok es =>
        let '(w1, l, _) := plant_list (plant_ms buf parent) w (map (fun e => (me_name e, e)) es) in
        (Ok (l, []), w1)
      | Err e => (Err e, w)
      | Panic => (Panic, w)
      | OutOfFuel => (OutOfFuel, w)
      end
    | ThMsImage buf e =>
      match rbind (to_wz_image block buf e) (fun b =>
            rmap (fun x => (own_reader b, fst x)) (image_children fuel (own_reader b) (me_name e) 0 (wrap 64 (me_size e)))) with
      | Ok (r, kids) =>
        let '(w1, l, us) := plant_list (plant r parent) (set_thing w i (ThImage r (me_name e) 0 (wrap 64 (me_size e)))) kids in
        (Ok (l, us), w1)
      | Err e => (Err e, w)
      | Panic => (Panic, w)
      | OutOfFuel => (OutOfFuel, w)
      end
    | ThProp _ _ => (Ok ([], []), w)
    end.

  (** Whether [parse] has anything to do (node.rs:177-208). *)
  Definition unread (k : kind) : bool :=
    match k with KFile b | KMsFile b | KImage b | KDir b => negb b | KMsImage => true | _ => false end.

  (** [parse] (node.rs:174-229) of the node [i], by Model/Node.v with the loading supplied; the caller holds the lock of [i]. *)
  Definition w_parse (w : world) (i parent : id) : res unit * world :=
    match w_heap w i with
    | None => (Panic, w)
    | Some c =>
      if unread (nd_kind c) then
        match w_load w parent i with
        | (Ok (kids, us), w1) =>
          match parse (fun _ _ _ => Some (w_heap w1, kids, us)) (w_heap w) [] i parent with
          | Ok h => (Ok tt, mkWorld h (w_thing w1) (w_next w1) (w_cache w1))
          | Err e => (Err e, w1)
          | Panic => (Panic, w1)
          | OutOfFuel => (OutOfFuel, w1)
          end
        | (Err e, w1) => (Err e, w1)
        | (Panic, w1) => (Panic, w1)
        | (OutOfFuel, w1) => (OutOfFuel, w1)
        end
      else (Ok tt, w)
    end.

  (** The [try_fold] of [at_path_parsed] (node.rs:439-443), with the world it leaves. *)
  Fixpoint w_fold (w : world) (n : id) (l : list text) : res id * world :=
    match l with
    | [] => (Ok n, w)
    | name :: r =>
      match w_parse w n n with
      | (Ok _, w1) => match node_at (w_heap w1) n name with
                      | Some m => w_fold w1 m r
                      | None => (Err ENotFound, w1)
                      end
      | (Err e, w1) => (Err e, w1)
      | (Panic, w1) => (Panic, w1)
      | (OutOfFuel, w1) => (OutOfFuel, w1)
      end
    end.
  (** [at_path_parsed] (node.rs:434-447). *)
  Definition w_at_path_parsed (w : world) (i : id) (path : text) : res id * world :=
    match split_slash path with
    | [] => (Panic, w)
    | first :: rest => match node_at (w_heap w) i first with
                       | Some n => w_fold w n rest
                       | None => (Err ENotFound, w)
                       end
    end.

  (** The order in which the children of a node are visited: that of a hash map (node.rs:41, walk.rs:14). *)
  Variable order : list (text * id) -> list (text * id).
  (** The loop of [walk_node] over the children (walk.rs:14-16). *)
  Fixpoint w_loop (rec : world -> id -> res (list (id * world)) * world) (w : world) (l : list (text * id)) : res (list (id * world)) * world :=
    match l with
    | [] => (Ok [], w)
    | (_, j) :: r => match rec w j with
                     | (Ok a, w1) => let (b, w2) := w_loop rec w1 r in (rmap (app a) b, w2)
                     | x => x
                     end
    end.
  (** [walk_node] (walk.rs:6-23): the nodes [f] was called with, each with the world as [f] met it, and the world left behind.  [rd] are the
      nodes the callers hold for reading (walk.rs:14); locking one of them for writing (walk.rs:9) is a deadlock, written [Panic].  [f] itself
      is taken to change nothing; errors of [parse] are ignored. *)
  Fixpoint w_walk_in (rd : list id) (depth : nat) (force : bool) (w : world) (i : id) : res (list (id * world)) * world :=
    match depth with
    | O => (OutOfFuel, w)
    | S d =>
      if force && held i rd then (Panic, w)
      else
      match (if force then w_parse w i i else (Ok tt, w)) with
      | (Panic, w1) => (Panic, w1)
      | (OutOfFuel, w1) => (OutOfFuel, w1)
      | (_, w1) =>
        match w_heap w1 i with
        | None => (Panic, w1)
        | Some c =>
          match w_loop (w_walk_in (i :: rd) d force) w1 (order (nd_slots c)) with
          | (Ok l, w2) =>
            (Ok ((i, w1) :: l),
             match w_heap w2 i with
             | Some c2 => if force && is_image c2 then mkWorld (unparse (w_heap w2) i) (w_thing w2) (w_next w2) (w_cache w2) else w2
             | None => w2
             end)
          | x => x
          end
        end
      end
    end.
  (** [walk_node] (walk.rs:6-23) called by somebody who holds no lock. *)
  Definition w_walk : nat -> bool -> world -> id -> res (list (id * world)) * world := w_walk_in [].
End world.

(** Nothing anywhere (node.rs:36-44: no node has been made), with the profile cache (util/profile.rs:114-126). *)
Definition nowhere (cache : pcache) : world := mkWorld (fun _ => None) (fun _ => ThProp (mkRd [] (fun _ => 0) (fun _ => 0)) ONull) 0 cache.
(** [WzNode::from_wz_file_full(..).into_lock()] (node.rs:92-113) at address 0, with nothing else around.  The errors of opening
    come up at [parse]. *)
Definition w_open (name : text) (buf : list Z) (iv : option (list Z)) (existing : option decr) (patch : Z) (cache : pcache) : world :=
  fst (fresh (nowhere cache) name (ThFile buf iv existing patch) None).
(** [WzNode::from_ms_file(..).into_lock()] (node.rs:124-133; ms/file.rs:46-72): [file] is the name of the file, [name] the name
    without its extension. *)
Definition w_open_ms (block : list Z -> list Z -> Z -> list Z) (name file : text) (buf : list Z) : res world :=
  rmap (fun h => fst (fresh (nowhere []) name (ThMsFile buf h) None)) (ms_open block file buf).
(** [WzNode::from_img_file(..).into_lock()] (node.rs:138-165; wz_image.rs:83-116). *)
Definition w_open_img (stream : list Z -> nat -> Z) (name : text) (buf : list Z) (iv : option (list Z)) : res world :=
  rmap (fun iv => fst (fresh (nowhere []) name (ThImage (fresh_reader stream buf iv) name 0 (zlen buf)) None)) (image_open stream buf iv).
