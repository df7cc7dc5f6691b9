(** The node tree: shared nodes, paths, links, moving and walking (node.rs, util/node_util.rs,
    util/walk.rs). *)
From Verif.Model Require Import Base Utf Image.

(** Which node an [Arc] points to ([WzNodeArc], node.rs:46): an address. *)
Definition id := Z.

(** What the modelled code looks at in [WzObjectType] (object.rs:25-35): the [is_parsed] flag of
    files, directories and images; for a UOL value its text, [None] when
    [get_string] fails (node_util.rs:60-64); every other object is opaque. *)
Inductive kind : Type :=
| KFile (is_parsed : bool)
| KMsFile (is_parsed : bool)
| KImage (is_parsed : bool)
| KMsImage
| KDir (is_parsed : bool)
| KUol (target : option text)
| KOther (what : Z).

(** [WzNode] (node.rs:36-44).  The [WzMap] of children is its list of entries in iteration order;
    [nd_parent] is the [Weak] pointer. *)
Record cell := mkCell { nd_name : text; nd_kind : kind; nd_parent : option id;
                        nd_slots : list (text * id) }.

(** All nodes that are alive.  A node that has been dropped is absent; the model does not drop
    nodes itself (whoever called keeps them alive), so reference counts (node.rs:46) are left out. *)
Definition heap := id -> option cell.

(** Writing through a write guard (node.rs:526-537, [write.children.insert], [.parent = ..]). *)
Definition put (h : heap) (i : id) (c : cell) : heap := fun j => if j =? i then Some c else h j.

(** [children.get(name)] (node.rs:377). *)
Fixpoint slot_get (l : list (text * id)) (name : text) : option id :=
  match l with
  | [] => None
  | (k, j) :: r => if text_eqb k name then Some j else slot_get r name
  end.
(** [children.insert(name, child)] (node.rs:219-221,254): an existing entry keeps its place. *)
Fixpoint slot_insert (l : list (text * id)) (name : text) (j : id) : list (text * id) :=
  match l with
  | [] => [(name, j)]
  | (k, x) :: r => if text_eqb k name then (k, j) :: r else (k, x) :: slot_insert r name j
  end.

(** [children.insert] on the node [i] (node.rs:220,254,536). *)
Definition insert_child (h : heap) (i : id) (name : text) (j : id) : heap :=
  match h i with
  | Some c => put h i (mkCell (nd_name c) (nd_kind c) (nd_parent c) (slot_insert (nd_slots c) name j))
  | None => h
  end.
(** [.parent = Arc::downgrade(to)] (node.rs:535, node_util.rs:35). *)
Definition set_parent (h : heap) (i p : id) : heap :=
  match h i with
  | Some c => put h i (mkCell (nd_name c) (nd_kind c) (Some p) (nd_slots c))
  | None => h
  end.

(** [Weak::upgrade] (node.rs:273). *)
Definition upgrade (h : heap) (w : option id) : option id :=
  match w with
  | Some p => match h p with Some _ => Some p | None => None end
  | None => None
  end.
(** [self.parent.upgrade()] (node.rs:273,297,402). *)
Definition parent_of (h : heap) (i : id) : option id :=
  match h i with Some c => upgrade h (nd_parent c) | None => None end.

(** [add] (node.rs:253-256). *)
Definition add (h : heap) (i j : id) : heap :=
  match h j with Some c => insert_child h i (nd_name c) j | None => h end.

(** The loop of [get_full_path] (node.rs:274-278). *)
Fixpoint full_path_up (fuel : nat) (h : heap) (p : option id) (path : text) : res text :=
  match p with
  | None => Ok path
  | Some j =>
    match fuel with
    | O => OutOfFuel
    | S f => match h j with
             | Some c => full_path_up f h (upgrade h (nd_parent c)) (nd_name c ++ 47 :: path)
             | None => Panic
             end
    end
  end.
(** [get_full_path] (node.rs:271-280); the loop does not end when the parents form a cycle. *)
Definition get_full_path (fuel : nat) (h : heap) (i : id) : res text :=
  match h i with
  | Some c => full_path_up fuel h (upgrade h (nd_parent c)) (nd_name c)
  | None => Panic
  end.

(** The loop of [get_path_from_root] (node.rs:305-311). *)
Fixpoint root_path_up (fuel : nat) (h : heap) (p : option id) (path : text) : res text :=
  match p with
  | None => Ok path
  | Some j =>
    match fuel with
    | O => OutOfFuel
    | S f => match h j with
             | Some c => let q := upgrade h (nd_parent c) in
                         root_path_up f h q
                           (match q with Some _ => nd_name c ++ 47 :: path | None => path end)
             | None => Panic
             end
    end
  end.
(** [get_path_from_root] (node.rs:296-313). *)
Definition get_path_from_root (fuel : nat) (h : heap) (i : id) : res text :=
  match h i with
  | Some c => match upgrade h (nd_parent c) with
              | None => Ok []
              | Some p => root_path_up fuel h (Some p) (nd_name c)
              end
  | None => Panic
  end.

(** [try_as_image] is [Some] (node_cast.rs:72). *)
Definition is_image (c : cell) : bool := match nd_kind c with KImage _ => true | _ => false end.

(** The loop of [get_path_from_image] (node.rs:338-354). *)
Fixpoint image_path_up (fuel : nat) (h : heap) (p : option id) (path : text) : res text :=
  match p with
  | None => Ok []
  | Some j =>
    match fuel with
    | O => OutOfFuel
    | S f => match h j with
             | Some c =>
               if is_image c then Ok path
               else match upgrade h (nd_parent c) with
                    | None => Ok []
                    | Some q => image_path_up f h (Some q) (nd_name c ++ 47 :: path)
                    end
             | None => Panic
             end
    end
  end.
(** [get_path_from_image] (node.rs:329-355). *)
Definition get_path_from_image (fuel : nat) (h : heap) (i : id) : res text :=
  match h i with
  | Some c => match upgrade h (nd_parent c) with
              | None => Ok []
              | Some p => image_path_up fuel h (Some p) (nd_name c)
              end
  | None => Panic
  end.

(** [at] (node.rs:376-378). *)
Definition node_at (h : heap) (i : id) (name : text) : option id :=
  match h i with Some c => slot_get (nd_slots c) name | None => None end.
(** [at_relative] (node.rs:400-406). *)
Definition at_relative (h : heap) (i : id) (path : text) : option id :=
  if text_eqb path [46; 46] then parent_of h i else node_at h i path.

(** [Iterator::try_fold] with [Option] (node.rs:428,469; node_util.rs:77). *)
Fixpoint try_fold {A B} (f : A -> B -> option A) (a : A) (l : list B) : option A :=
  match l with
  | [] => Some a
  | b :: r => match f a b with Some a' => try_fold f a' r | None => None end
  end.

(** [at_path] (node.rs:424-432); [split] never yields nothing. *)
Definition at_path (h : heap) (i : id) (path : text) : option id :=
  match split_slash path with
  | [] => None
  | first :: rest => match node_at h i first with
                     | Some n => try_fold (node_at h) n rest
                     | None => None
                     end
  end.
(** [at_path_relative] (node.rs:465-473). *)
Definition at_path_relative (h : heap) (i : id) (path : text) : option id :=
  match split_slash path with
  | [] => None
  | first :: rest => match at_relative h i first with
                     | Some n => try_fold (at_relative h) n rest
                     | None => None
                     end
  end.

(** The loop of [filter_parent] (node.rs:497-509). *)
Fixpoint filter_up (fuel : nat) (h : heap) (cb : cell -> bool) (p : option id) : res (option id) :=
  match p with
  | None => Ok None
  | Some j =>
    match fuel with
    | O => OutOfFuel
    | S f => match h j with
             | Some c => if cb c then Ok (Some j) else filter_up f h cb (upgrade h (nd_parent c))
             | None => Panic
             end
    end
  end.
(** [filter_parent] (node.rs:492-509). *)
Definition filter_parent (fuel : nat) (h : heap) (i : id) (cb : cell -> bool) : res (option id) :=
  match h i with
  | Some c => filter_up fuel h cb (upgrade h (nd_parent c))
  | None => Panic
  end.
(** [get_parent_wz_image] (node.rs:512-514). *)
Definition get_parent_wz_image (fuel : nat) (h : heap) (i : id) : res (option id) :=
  filter_parent fuel h i is_image.
(** [get_base_wz_file] (node.rs:517-521); the name is "Base". *)
Definition get_base_wz_file (fuel : nat) (h : heap) (i : id) : res (option id) :=
  filter_parent fuel h i (fun c => match nd_kind c with
                                   | KFile _ => text_eqb (nd_name c) [66; 97; 115; 101]
                                   | _ => false
                                   end).

(** [resolve_inlink] (node_util.rs:12-16). *)
Definition resolve_inlink (fuel : nat) (h : heap) (path : text) (i : id) : res (option id) :=
  rbind (get_parent_wz_image fuel h i) (fun o =>
    match o with Some img => Ok (at_path h img path) | None => Ok None end).
(** [resolve_outlink] with [force_parse] off (node_util.rs:20-28). *)
Definition resolve_outlink (fuel : nat) (h : heap) (path : text) (i : id) : res (option id) :=
  rbind (get_base_wz_file fuel h i) (fun o =>
    match o with Some base => Ok (at_path h base path) | None => Ok None end).

(** Whether a lock is held (node.rs:525-535): the nodes write-locked by callers on this thread. *)
Definition held (i : id) (lk : list id) : bool := existsb (Z.eqb i) lk.

(** The loop of [transfer_childs] (node.rs:531-538); [rec] is the recursive call. *)
Fixpoint transfer_loop (rec : list id -> heap -> id -> id -> res heap) (lk : list id) (to : id)
    (h : heap) (l : list (text * id)) : res heap :=
  match l with
  | [] => Ok h
  | (name, child) :: r =>
    if held child lk then Panic
    else match node_at h to name with
         | Some old => rbind (rec (child :: lk) h child old) (fun h' => transfer_loop rec lk to h' r)
         | None => transfer_loop rec lk to (insert_child (set_parent h child to) to name child) r
         end
  end.
(** [transfer_childs] (node.rs:524-539).  Taking a write lock the thread already holds is a panic
    or deadlock of [RwLock], written [Panic]. *)
Fixpoint transfer (fuel : nat) (lk : list id) (h : heap) (self to : id) : res heap :=
  match fuel with
  | O => OutOfFuel
  | S f =>
    if held to lk then Panic
    else match h self with
         | Some c =>
           transfer_loop (transfer f) (to :: lk) to
             (put h self (mkCell (nd_name c) (nd_kind c) (nd_parent c) [])) (nd_slots c)
         | None => Panic
         end
  end.
(** [node.write().unwrap().transfer_childs(&to)] (node.rs:524): the caller holds [self]. *)
Definition transfer_childs (fuel : nat) (h : heap) (self to : id) : res heap :=
  transfer fuel [self] h self to.

(** The loop of [resolve_childs_parent] over the children (node_util.rs:34-37). *)
Fixpoint fix_parents_loop (rec : heap -> id -> res heap) (i : id) (h : heap) (l : list (text * id))
    : res heap :=
  match l with
  | [] => Ok h
  | (_, j) :: r => rbind (rec (set_parent h j i) j) (fun h' => fix_parents_loop rec i h' r)
  end.
(** [resolve_childs_parent] (node_util.rs:32-38). *)
Fixpoint resolve_childs_parent (fuel : nat) (h : heap) (i : id) : res heap :=
  match fuel with
  | O => OutOfFuel
  | S f => match h i with
           | Some c => fix_parents_loop (resolve_childs_parent f) i h (nd_slots c)
           | None => Panic
           end
  end.

(** [join("/")] (node_util.rs:52). *)
Fixpoint join_slash (l : list text) : text :=
  match l with
  | [] => []
  | [a] => a
  | a :: r => a ++ 47 :: join_slash r
  end.
(** The loop of [get_resolved_uol_path] (node_util.rs:45-51). *)
Fixpoint uol_steps (pathes : list text) (l : list text) : list text :=
  match l with
  | [] => pathes
  | p :: r => if text_eqb p [46; 46] && negb (match pathes with [] => true | _ => false end)
              then uol_steps (removelast pathes) r
              else uol_steps (pathes ++ [p]) r
  end.
(** [get_resolved_uol_path] (node_util.rs:41-53). *)
Definition get_resolved_uol_path (path uol_path : text) : text :=
  join_slash (uol_steps (removelast (split_slash path)) (split_slash uol_path)).

(** One step of the [try_fold] in [resolve_uol] (node_util.rs:77-86): a node that cannot be read is
    taken to be the image being parsed. *)
Definition uol_step (h : heap) (lk : list id) (image : option id) (n : id) (name : text) : option id :=
  if held n lk then match image with Some im => node_at h im name | None => None end
  else at_relative h n name.
(** [children.get_mut(&name)] and [mem::replace] (node_util.rs:96-98,100-102). *)
Definition replace_child (h : heap) (i : id) (name : text) (j : id) : heap :=
  match node_at h i name with
  | Some _ => insert_child h i name j
  | None => h
  end.
(** [resolve_uol] (node_util.rs:57-106), on one thread: [lk] are the write locks held by the callers
    and [image] is the image being parsed, if any.  The node itself is read at the start, so the
    branch for an unreadable node (node_util.rs:70-71) is never taken. *)
Definition resolve_uol (h : heap) (lk : list id) (image : option id) (node : id) : res heap :=
  if held node lk then Panic
  else match h node with
       | None => Panic
       | Some c =>
         match upgrade h (nd_parent c) with
         | None => Panic
         | Some p =>
           match nd_kind c with
           | KUol (Some target) =>
             match try_fold (uol_step h lk image) p (split_slash target) with
             | None => Ok h
             | Some t =>
               if held p lk
               then match image with Some im => Ok (replace_child h im (nd_name c) t) | None => Ok h end
               else Ok (replace_child h p (nd_name c) t)
             end
           | _ => Ok h
           end
         end
       end.

(** Everything up to and including the first occurrence of [pat], and what follows
    ([split_inclusive], node_util.rs:119). *)
Fixpoint starts (pat s : text) : bool :=
  match pat, s with
  | [], _ => true
  | x :: p, y :: r => (x =? y) && starts p r
  | _ :: _, [] => false
  end.
(** See [starts]: first occurrence of a non-empty pattern (node_util.rs:118-121). *)
Fixpoint cut_after (pat s : text) : option (text * text) :=
  match s with
  | [] => None
  | x :: r => if starts pat s then Some (firstn (length pat) s, skipn (length pat) s)
              else match cut_after pat r with Some (a, b) => Some (x :: a, b) | None => None end
  end.
(** The loop over the components (node_util.rs:129-141).  Offsets count characters where Rust counts
    bytes; both name the same place, behind a slash. *)
Fixpoint image_on_way (h : heap) (n : id) (path : text) (at_ : nat) (l : list text)
    : res (option (id * text)) :=
  match l with
  | [] => Ok None
  | c :: r =>
    match node_at h n c with
    | None => Ok None
    | Some t =>
      let at' := (at_ + (length c + 1))%nat in
      match h t with
      | Some ct => if is_image ct
                   then if Nat.ltb (length path) at' then Panic
                        else Ok (Some (t, skipn at' path))
                   else image_on_way h t path at' r
      | None => Panic
      end
    end
  end.
(** [get_image_node_from_path] (node_util.rs:109-143); the pattern is ".img". *)
Definition get_image_node_from_path (h : heap) (n : id) (path : text) : res (option (id * text)) :=
  match path with
  | [] => Ok None
  | _ =>
    let img := [46; 105; 109; 103] in
    match cut_after img path with
    | Some (img_path, more) =>
      let second := match cut_after img more with Some (b, _) => b | None => more end in
      match second with
      | 47 :: rest => match at_path h n img_path with
                      | Some t => Ok (Some (t, rest))
                      | None => Ok None
                      end
      | _ => Ok None
      end
    | None => image_on_way h n path 0 (split_slash path)
    end
  end.

Section External.
  (** Reading the contents of a file, directory or image ([resolve_children], [file.parse], [to_wz_image];
      node.rs:180-209): [load h parent i] yields the heap with the new nodes, the children of [i] and
      the UOL nodes found, or [None] on an error. *)
  Variable load : heap -> id -> id -> option (heap * list (text * id) * list id).
  (** Looking a path up in the bytes of an unparsed image (wz_image.rs, modelled in Image.v). *)
  Variable image_lookup : id -> text -> option id.

  (** [node.parse] for an object that is read (node.rs:214-227), with [k] its new object. *)
  Definition parse_as (h : heap) (lk : list id) (i parent : id) (k : kind) : res heap :=
    match load h parent i with
    | None => Err EParse
    | Some (h1, kids, uols) =>
      match h1 i with
      | None => Panic
      | Some c =>
        let slots := fold_left (fun l e => slot_insert l (fst e) (snd e)) kids (nd_slots c) in
        let h2 := put h1 i (mkCell (nd_name c) k (nd_parent c) slots) in
        fold_left (fun acc u => rbind acc (fun h' => resolve_uol h' (i :: lk) (Some i) u)) uols (Ok h2)
      end
    end.
  (** [parse] (node.rs:174-229): the caller holds the write lock of [i]. *)
  Definition parse (h : heap) (lk : list id) (i parent : id) : res heap :=
    match h i with
    | None => Panic
    | Some c =>
      match nd_kind c with
      | KDir b => if b then Ok h else parse_as h lk i parent (KDir true)
      | KFile b => if b then Ok h else parse_as h lk i parent (KFile true)
      | KMsFile b => if b then Ok h else parse_as h lk i parent (KMsFile true)
      | KImage b => if b then Ok h else parse_as h lk i parent (KImage true)
      | KMsImage => parse_as h lk i parent (KImage true)
      | _ => Ok h
      end
    end.
  (** [unparse] (node.rs:233-248). *)
  Definition unparse (h : heap) (i : id) : heap :=
    match h i with
    | None => h
    | Some c =>
      match nd_kind c with
      | KDir _ => put h i (mkCell (nd_name c) (KDir false) (nd_parent c) [])
      | KFile _ => put h i (mkCell (nd_name c) (KFile false) (nd_parent c) [])
      | KImage _ => put h i (mkCell (nd_name c) (KImage false) (nd_parent c) [])
      | _ => h
      end
    end.

  (** The [try_fold] of [at_path_parsed] (node.rs:439-443). *)
  Fixpoint parsed_fold (h : heap) (n : id) (l : list text) : res (heap * id) :=
    match l with
    | [] => Ok (h, n)
    | name :: r =>
      rbind (parse h [] n n) (fun h' =>
        match node_at h' n name with
        | Some m => parsed_fold h' m r
        | None => Err ENotFound
        end)
    end.
  (** [at_path_parsed] (node.rs:434-447), with the tree it leaves. *)
  Definition at_path_parsed (h : heap) (i : id) (path : text) : res (heap * id) :=
    match split_slash path with
    | [] => Panic
    | first :: rest => match node_at h i first with
                       | Some n => parsed_fold h n rest
                       | None => Err ENotFound
                       end
    end.

  (** [get_node_without_parse] (node_util.rs:147-157). *)
  Definition get_node_without_parse (h : heap) (root : id) (path : text) : res (option id) :=
    rbind (get_image_node_from_path h root path) (fun o =>
      match o with
      | None => Ok None
      | Some (im, rest) =>
        match h im with
        | Some c => match nd_kind c with
                    | KImage true => Ok (at_path h im rest)
                    | KImage false => Ok (image_lookup im rest)
                    | _ => Ok None
                    end
        | None => Panic
        end
      end).

  (** The loop of [walk_node] over the children (walk.rs:14-16). *)
  Fixpoint walk_loop (rec : heap -> id -> res (heap * list id)) (h : heap) (l : list (text * id))
      : res (heap * list id) :=
    match l with
    | [] => Ok (h, [])
    | (_, j) :: r => rbind (rec h j) (fun a =>
                     rbind (walk_loop rec (fst a) r) (fun b => Ok (fst b, snd a ++ snd b)))
    end.
  (** [walk_node] (walk.rs:6-23): the heap left behind and the nodes [f] was called with, in order.
      [f] itself is assumed not to change the tree.  [rd] are the nodes read-locked by the
      callers; write-locking one of them is a deadlock, written [Panic].  Errors
      of [parse] are ignored, they leave the node as it was. *)
  Fixpoint walk_node (fuel : nat) (force : bool) (rd : list id) (h : heap) (i : id)
      : res (heap * list id) :=
    match fuel with
    | O => OutOfFuel
    | S f =>
      if force && held i rd then Panic
      else
        let parsed := if force then match parse h [] i i with
                                    | Err _ => Ok h
                                    | x => x
                                    end
                      else Ok h in
        rbind parsed (fun h1 =>
          match h1 i with
          | None => Panic
          | Some c =>
            rbind (walk_loop (walk_node f force (i :: rd)) h1 (nd_slots c)) (fun a =>
              let h2 := fst a in
              Ok (match h2 i with
                  | Some c2 => if force && is_image c2 then unparse h2 i else h2
                  | None => h2
                  end, i :: snd a))
          end)
    end.
End External.
