(** util/resolver.rs: putting the packages of an installation together. *)
From Coq Require String Ascii.
From Verif.Model Require Import Base Utf Reader Image.
Import String.StringSyntax.

(** A directory of the file system in the order [read_dir] lists it (resolver.rs:40,144).  Symbolic
    links, names that are not Unicode and i/o errors of existing files are left out. *)
Inductive fent :=
| FFile (name : text) (data : list Z)
| FDir (name : text) (l : list fent).
(** [DirEntry::file_name] (resolver.rs:8,43). *)
Definition ent_name (e : fent) : text := match e with FFile n _ | FDir n _ => n end.

(** The parts of a name at a character (resolver.rs:66). *)
Fixpoint split_at (c : Z) (t : text) : list text :=
  match t with
  | [] => [[]]
  | x :: r => if x =? c then [] :: split_at c r
              else match split_at c r with [] => [[x]] | w :: ws => (x :: w) :: ws end
  end.
(** What stands before and behind the last dot, if there is one (the std's [rsplit_file_at_dot],
    resolver.rs:64,147,149). *)
Fixpoint cut_dot (t : text) : option (text * text) :=
  match t with
  | [] => None
  | x :: r => match cut_dot r with
              | Some (a, b) => Some (x :: a, b)
              | None => if x =? 46 then Some ([], r) else None
              end
  end.
(** [Path::file_stem] of a file name (resolver.rs:64,147; node.rs:101); a name that only starts with a dot is its own stem. *)
Definition stem (t : text) : text :=
  match cut_dot t with Some ([], _) => t | Some (a, _) => a | None => t end.
(** [Path::extension().unwrap_or_default()] (resolver.rs:149). *)
Definition extension (t : text) : text :=
  match cut_dot t with Some ([], _) => [] | Some (_, b) => b | None => [] end.

(** The digits of a number as [u16::from_str] reads them, [None] beyond 65535 (resolver.rs:72). *)
Fixpoint u16_digits (t : text) (acc : Z) : option Z :=
  match t with
  | [] => Some acc
  | c :: r => if (48 <=? c) && (c <=? 57)
              then let v := acc * 10 + (c - 48) in if v <=? 65535 then u16_digits r v else None
              else None
  end.
(** [parse::<u16>()] (resolver.rs:72): a plus sign is allowed, no digits are an error. *)
Definition parse_u16 (t : text) : option Z :=
  let d := match t with 43 :: r => r | _ => t end in
  match d with [] => None | _ => u16_digits d 0 end.
(** Is it "XXX_nnn" (resolver.rs:62-74)? *)
Definition is_piece (name : text) : bool :=
  let parts := split_at 95 (stem name) in
  (2 <=? length parts)%nat &&
  match parse_u16 (last parts []) with Some _ => true | None => false end.

(** What a file is opened with (node.rs:91-96): IV, version and keys. *)
Record opts := mkOpts { o_version : option Z; o_patch : option Z; o_keys : option Z }.
(** Where a file lies: the names that lead to it (resolver.rs:12,63). *)
Definition loc := list text.

(** The nodes that come out (resolver.rs:28-31,79-87): those of files, with their [parent] pointer, the version and keys of
    the file and their children; and the nodes made by parsing a file, [from] where it lies, [what] they are. *)
Inductive rnode :=
| RFile (name : text) (at_ : loc) (up : option loc) (patch keys : Z) (kids : list (text * rnode))
| RKid (from : loc) (what : Z) (up : loc).

(** [children.get] (resolver.rs:45,152). *)
Fixpoint kid_at (m : list (text * rnode)) (k : text) : option rnode :=
  match m with
  | [] => None
  | (k', v) :: r => if text_eqb k' k then Some v else kid_at r k
  end.
(** [children.insert] (resolver.rs:56,94,173). *)
Fixpoint put_kid (m : list (text * rnode)) (k : text) (v : rnode) : list (text * rnode) :=
  match m with
  | [] => [(k, v)]
  | (k', v') :: r => if text_eqb k' k then (k, v) :: r else (k', v') :: put_kid r k v
  end.
(** The children read from the file [from] inserted below [me] (resolver.rs:38,93-95; node.rs:217-222). *)
Definition put_kids (from me : loc) (l : list (text * Z)) (m : list (text * rnode)) : list (text * rnode) :=
  fold_left (fun m kw => put_kid m (fst kw) (RKid from (snd kw) me)) l m.

(** A file in a directory listing ([File::open], file.rs:83). *)
Fixpoint find_file (l : list fent) (name : text) : option (list Z) :=
  match l with
  | [] => None
  | FFile n d :: r => if text_eqb n name then Some d else find_file r name
  | FDir _ _ :: r => find_file r name
  end.
(** A directory in a directory listing (resolver.rs:40,144). *)
Fixpoint find_dir (l : list fent) (name : text) : option (list fent) :=
  match l with
  | [] => None
  | FDir n d :: r => if text_eqb n name then Some d else find_dir r name
  | FFile _ _ :: r => find_dir r name
  end.
(** Following names from the top (resolver.rs:40,144). *)
Fixpoint dir_at (l : list fent) (p : loc) : option (list fent) :=
  match p with
  | [] => Some l
  | n :: r => match find_dir l n with Some l' => dir_at l' r | None => None end
  end.

Section Resolve.
  (** [WzNode::from_wz_file_full] and [parse] of a file with this content (resolver.rs:28-38,79-89;
      modelled in File.v): [None] if the former fails; else what the latter gives, the nodes by name,
      and the file's version and keys after that (resolver.rs:126).  The profile cache (file.rs:235), through which one
      file can influence the next, is left out. *)
  Variable open_file : opts -> list Z -> option (res (list (text * Z)) * (Z * Z)).

  (** resolve_root_wz_file_dir_full (resolver.rs:21-101) for the file [fname] of the
      directory [d] at [dir].  get_root_wz_file_path (resolver.rs:7-18) always gives a
      path, [try_exists] being [Ok] also for a file that does not exist. *)
  Fixpoint resolve_dir (o : opts) (d : fent) (dir : loc) (fname : text) (up : option loc) : res rnode :=
    match d with
    | FFile _ _ => Panic
    | FDir _ l =>
      match find_file l fname with
      | None => Panic
      | Some data =>
        match open_file o data with
        | None => Panic
        | Some (own, (patch, keys)) =>
          let me := dir ++ [fname] in
          match own with
          | Ok kids =>
            rmap (RFile (stem fname) me up patch keys)
              ((fix go (es : list fent) (m : list (text * rnode)) {struct es} : res (list (text * rnode)) :=
                  match es with
                  | [] => Ok m
                  | e :: r =>
                    match e with
                    | FDir n _ =>
                      match kid_at m n with
                      | Some _ => rbind (resolve_dir o e (dir ++ [n]) (n ++ txt ".wz") (Some me))
                                    (fun s => go r (put_kid m n s))
                      | None => go r m
                      end
                    | FFile n piece =>
                      if is_piece n then
                        match open_file o piece with
                        | None => Panic
                        | Some (Ok ks, _) => go r (put_kids (dir ++ [n]) me ks m)
                        | Some (Err _, _) => go r m
                        | Some (Panic, _) => Panic
                        | Some (OutOfFuel, _) => OutOfFuel
                        end
                      else go r m
                    end
                  end) l (put_kids me me kids []))
          | Err _ => Panic
          | Panic => Panic
          | OutOfFuel => OutOfFuel
          end
        end
      end
    end.

  (** A path as given by the user (resolver.rs:113): from the top or from the working directory, which is the
      top of the modelled file system.  The names [.] and [..] are left out; Base.wz in a directory given like that
      panics (resolver.rs:137), having no stem. *)
  Record path := mkPath { p_abs : bool; p_names : loc }.
  (** [read_dir] (resolver.rs:40,144): the empty path, which is what remains above the first name of a relative one, is an error. *)
  Definition read_dir (fs : list fent) (p : path) : option (list fent) :=
    match p_abs p, p_names p with
    | false, [] => None
    | _, _ => dir_at fs (p_names p)
    end.

  (** resolve_root_wz_file_dir_full (resolver.rs:21-101) for a path.  Without a parent
      directory to list, the file is opened and parsed all the same. *)
  Definition resolve_path (o : opts) (fs : list fent) (p : path) (up : option loc) : res rnode :=
    let dir := removelast (p_names p) in
    match p_names p with
    | [] => Panic
    | _ =>
      match dir_at fs dir with
      | None => Panic
      | Some l =>
        match read_dir fs (mkPath (p_abs p) dir) with
        | Some _ => resolve_dir o (FDir [] l) dir (last (p_names p) []) up
        | None => match find_file l (last (p_names p) []) with
                  | None => Panic
                  | Some data => match open_file o data with
                                 | Some (Ok _, _) => Err (EOther 60)
                                 | Some (OutOfFuel, _) => OutOfFuel
                                 | _ => Panic
                                 end
                  end
        end
      end
    end.

  (** The loop of resolve_base (resolver.rs:144-176) over the directory [l] at [root]. *)
  Fixpoint base_loop (o : opts) (l : list fent) (root base : loc) (es : list fent) (m : list (text * rnode))
    : res (list (text * rnode)) :=
    match es with
    | [] => Ok m
    | e :: r =>
      let n := ent_name e in
      match kid_at m (stem n), e with
      | Some _, FDir _ _ =>
        rbind (resolve_dir o e (root ++ [n]) (n ++ txt ".wz") (Some base))
          (fun s => base_loop o l root base r (put_kid m (stem n) s))
      | Some _, FFile _ _ =>
        if text_eqb (extension n) (txt "wz")
        then rbind (resolve_dir o (FDir [] l) root n (Some base))
               (fun s => base_loop o l root base r (put_kid m (stem n) s))
        else base_loop o l root base r m
      | None, _ => base_loop o l root base r m
      end
    end.

  (** resolve_base (resolver.rs:112-180). *)
  Definition resolve_base (version : option Z) (fs : list fent) (p : path) : res rnode :=
    if negb (text_eqb (last (p_names p) []) (txt "Base.wz")) then Err (EOther 61)
    else
      rbind (resolve_path (mkOpts version None None) fs p None) (fun b =>
      match b with
      | RKid _ _ _ => Panic
      | RFile name at_ up patch keys kids =>
        let first := removelast (p_names p) in
        match first with
        | [] => Panic
        | _ =>
          let root := if text_eqb (stem (last first [])) (txt "Base") then removelast first else first in
          match read_dir fs (mkPath (p_abs p) root) with
          | None => Err (EOther 60)
          | Some l =>
            rmap (RFile name at_ up patch keys)
              (base_loop (mkOpts version (Some patch) (Some keys)) l root at_ l kids)
          end
        end
      end).
End Resolve.
