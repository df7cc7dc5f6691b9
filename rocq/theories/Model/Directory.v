(** directory.rs: directory listings and the tree of directories. *)
From Verif.Model Require Import Base Utf Keys Reader WzStr Header Offset VersionPkg1.
Local Open Scope rd_scope.

(** file.rs ErrorGameVerHash (file.rs:199, 332). *)
Definition EGameHash : err := EOther 1.
(** directory.rs:25-26 (UnknownPkgVersion). *)
Definition EPkgVersion : err := EOther 2.

(** directory.rs:31-41 (WzDirectoryType). *)
Inductive dtype := DUnknown | DMeta | DDir | DImage | DNew (b : Z).
(** directory.rs:43-53 ([From<u8>] of WzDirectoryType). *)
Definition dtype_of (b : Z) : dtype :=
  if b =? 1 then DUnknown else if b =? 2 then DMeta else if b =? 3 then DDir
  else if b =? 4 then DImage else DNew b.

(** directory.rs:323-332 (WzDirectoryEntry); the checksum is read and never
    looked at, and the decoded [offset] is computed where it is needed. *)
Record dirent := mkEnt { en_name : smeta; en_type : dtype; en_size : Z; en_pos : Z; en_enc : Z }.

(** directory.rs:55-61 (WzDirectoryVerifyStatus). *)
Inductive dstatus := Init | EntryCreated | Verified.

(** directory.rs:63-81 (WzDirectory).  Reader, hash and profile are the same for
    all directories of a file and are parameters below. *)
Record dir := mkDir { di_off : Z; di_size : Z; di_parsed : bool; di_status : dstatus; di_entries : list dirent }.
(** directory.rs:89-100 (new). *)
Definition dir_new (off size : Z) : dir := mkDir off size false Init [].

(** The nodes a directory creates (directory.rs:451-479): an image, a directory
    with its state and children, or [WzNode::empty()]. *)
Inductive dnode :=
| NImage (off size : Z)
| NDir (d : dir) (kids : list (text * dnode))
| NEmpty.

(** wz_image.rs:225-234 (is_valid_image_header) with 30-50. *)
Definition valid_image_header (b : Z) : bool := (b =? 0x73) || (b =? 0x01) || (b =? 0x23).

Section directory.
  Variable r : rd.
  (** The header of the reader (reader.rs:66-75). *)
  Variable h : header.
  (** [pkg2_keys.is_pkg2()] (directory.rs:381). *)
  Variable p2 : bool.

  (** directory.rs:361-366 (end of read_pkg1_entry). *)
  Definition entry_tail (t : dtype) (nm : smeta) : R dirent :=
    do size <- read_wz_int r;
    do checksum <- read_wz_int r;
    do p <- get_pos;
    do enc <- read_u32 r;
    ret (mkEnt nm t (wrap 64 size) p enc).

  (** directory.rs:335-367 (read_pkg1_entry).  [fstart + str_offset as usize] wraps. *)
  Definition read_pkg1_entry : R dirent :=
    do b <- read_u8 r;
    match dtype_of b with
    | DMeta =>
      do so <- read_i32 r;
      let off := wrap 64 (hd_fstart h + wrap 64 so) in
      do t <- lift (read_u8_at (rd_buf r) off);
      do nm <- read_wz_string_meta_at r (wrap 64 (off + 1));
      entry_tail (dtype_of t) nm
    | DDir | DImage =>
      do nm <- read_wz_string_meta r;
      entry_tail (dtype_of b) nm
    | _ => ret (mkEnt meta_empty (dtype_of b) 0 0 0)
    end.

  (** directory.rs:161-179 (the loop of resolve_entry_pkg1). *)
  Fixpoint entries1 (n : nat) : R (list dirent) :=
    match n with
    | O => ret []
    | S k =>
      do e <- read_pkg1_entry;
      match en_type e with
      | DUnknown => skip 10 ;; entries1 k
      | DNew _ => fail EDirType
      | _ => do es <- entries1 k; ret (e :: es)
      end
    end.

  (** directory.rs:152-182 (resolve_entry_pkg1). *)
  Definition resolve_pkg1 : R (list dirent) :=
    do n <- read_wz_int r;
    if (n <? 0) || (1000000 <? n) then fail EEntryCount else entries1 (Z.to_nat n).

  (** directory.rs:369-412 (read_pkg2_entry); position and stored offset are
      filled in later. *)
  Definition read_pkg2_entry (count : Z) (first : bool) : R dirent :=
    do b <- read_u8 r;
    match dtype_of b with
    | DDir | DImage =>
      do nm <- (if first && p2
                then if is_pkg2_64 h then read_pkg2_u64_dir_meta r else read_pkg2_dir_meta r
                else read_wz_string_meta r);
      do size <- read_wz_int r;
      do checksum <- read_wz_int r;
      ret (mkEnt nm (dtype_of b) (wrap 64 size) 0 0)
    | DNew _ =>
      do p <- get_pos;
      seek (wrap 64 (p - 1)) ;;
      do x <- read_wz_int r;
      if x =? count then seek (wrap 64 (p - 1)) ;; ret (mkEnt meta_empty DUnknown 0 0 0)
      else ret (mkEnt meta_empty (dtype_of b) 0 0 0)
    | _ => fail EWrongVersion
    end.

  (** directory.rs:190-208 (the loop of resolve_entry_pkg2). *)
  Fixpoint entries2 (fuel : nat) (count : Z) (first : bool) : R (list dirent) :=
    match fuel with
    | O => out_of_fuel
    | S k =>
      do e <- read_pkg2_entry count first;
      match en_type e with
      | DUnknown => ret []
      | DNew _ => fail EDirType
      | _ => do es <- entries2 k count false; ret (e :: es)
      end
    end.

  (** directory.rs:217-220 and 256-259: position and stored offset of each entry. *)
  Fixpoint fill_offsets (es : list dirent) : R (list dirent) :=
    match es with
    | [] => ret []
    | e :: t =>
      do p <- get_pos;
      do enc <- read_u32 r;
      do t' <- fill_offsets t;
      ret (mkEnt (en_name e) (en_type e) (en_size e) p enc :: t')
    end.

  (** directory.rs:184-223 (resolve_entry_pkg2). *)
  Definition resolve_pkg2 (fuel : nat) : R (list dirent) :=
    do count <- read_wz_int r;
    do es <- entries2 fuel count true;
    do count2 <- read_wz_int r;
    if negb (count2 =? count) || match es with [] => true | _ => false end then fail EWrongVersion
    else fill_offsets es.

  (** directory.rs:239-254 (the loop of resolve_entry_pkg2_v64). *)
  Fixpoint entries64 (n : nat) (count : Z) (first : bool) : R (list dirent) :=
    match n with
    | O => ret []
    | S k =>
      do e <- read_pkg2_entry count first;
      match en_type e with
      | DDir | DImage => do es <- entries64 k count false; ret (e :: es)
      | DNew _ => fail EDirType
      | _ => fail EWrongVersion
      end
    end.

  (** directory.rs:225-262 (resolve_entry_pkg2_v64). *)
  Definition resolve_pkg2_64 (hash : Z) : R (list dirent) :=
    do enc <- read_wz_int64 r;
    do n <- lift (entry_count_64 (hd_hash1 h) hash enc);
    if 1000000 <? n then fail EEntryCount
    else
      do es <- entries64 (Z.to_nat n) (sext 32 enc) true;
      fill_offsets es.

  (** Offset scheme of the profile and version hash (directory.rs:73-76). *)
  Variable v : offv.
  Variable hash : Z.

  (** directory.rs:264-288 (prepare_entries), the reading part.  For a 64-bit
      package [get_entry_count_calculator] panics unless the scheme is the
      64-bit one (util/offset.rs:28-33). *)
  Definition read_entries (fuel : nat) (off : Z) : res (list dirent) :=
    match hd_ident h with
    | IV1 => fst (resolve_pkg1 off)
    | IV2 =>
      if is_pkg2_64 h then
        match v with OPkg264 => fst (resolve_pkg2_64 hash off) | _ => Panic end
      else fst (resolve_pkg2 fuel off)
    | IUnknown => Err EPkgVersion
    end.

  (** directory.rs:264-288 (prepare_entries). *)
  Definition prepare (fuel : nat) (d : dir) : res unit * dir :=
    match di_status d with
    | Init =>
      match read_entries fuel (di_off d) with
      | Ok es => (Ok tt, mkDir (di_off d) (di_size d) (di_parsed d) EntryCreated es)
      | Err e => (Err e, d)
      | Panic => (Panic, d)
      | OutOfFuel => (OutOfFuel, d)
      end
    | _ => (Ok tt, d)
    end.

  (** The decoded offset of an entry (directory.rs:295-302). *)
  Definition en_off (e : dirent) : Z :=
    off_calc v (hd_fstart h) (hd_hash1 h) hash (en_enc e) (en_pos e).

  (** directory.rs:414-439 (verify). *)
  Definition verify_entry (e : dirent) : res unit :=
    let off := en_off e in
    if zlen (rd_buf r) <? wrap 64 (off + en_size e) then Err EWrongVersion
    else match en_type e with
    | DImage =>
      rbind (read_u8_at (rd_buf r) off) (fun b =>
      if valid_image_header b then Ok tt else Err EWrongVersion)
    | DDir =>
      rbind (if is_pkg2_64 h then fst (read_wz_int64 r off) else fst (read_wz_int r off)) (fun n =>
      if n <? 0 then Err EWrongVersion else Ok tt)
    | _ => Ok tt
    end.

  (** directory.rs:290-310 (calculate_offset_and_verify): every failure becomes
      InvalidWzVersion. *)
  Fixpoint verify_all (es : list dirent) : bool :=
    match es with
    | [] => true
    | e :: t => match verify_entry e with Ok _ => verify_all t | _ => false end
    end.

  (** directory.rs:441-490: the name and node of an entry; a name that cannot be
      resolved panics ([unwrap]). *)
  Definition entry_node (e : dirent) : res (text * dnode) :=
    match get_string r (en_name e) with
    | Ok nm =>
      Ok (nm, match en_type e with
              | DDir => NDir (dir_new (en_off e) (en_size e)) []
              | DImage => NImage (en_off e) (en_size e)
              | _ => NEmpty
              end)
    | _ => Panic
    end.
  (** directory.rs:122-130: the nodes of all entries. *)
  Fixpoint entry_nodes (es : list dirent) : res (list (text * dnode)) :=
    match es with
    | [] => Ok []
    | e :: t => rbind (entry_node e) (fun x => rmap (cons x) (entry_nodes t))
    end.

  (** directory.rs:132-146: directories among the nodes are resolved in order by
      [f]; their children are inserted. *)
  Fixpoint descend (f : dir -> res (list (text * dnode)) * dir) (l : list (text * dnode))
    : res (list (text * dnode)) :=
    match l with
    | [] => Ok []
    | (nm, NDir d kids) :: t =>
      match f d with
      | (Ok sub, d') => rmap (cons (nm, NDir d' (kids ++ sub))) (descend f t)
      | (Err e, _) => Err e
      | (Panic, _) => Panic
      | (OutOfFuel, _) => OutOfFuel
      end
    | x :: t => rmap (cons x) (descend f t)
    end.

  (** directory.rs:113-150 (resolve_children).  One unit of fuel per nesting
      level, and for the entry loop of package 2. *)
  Fixpoint resolve_children (fuel : nat) (d : dir) : res (list (text * dnode)) * dir :=
    match fuel with
    | O => (OutOfFuel, d)
    | S k =>
      if di_size d =? 0 then (Ok [], d)
      else match prepare fuel d with
      | (Ok _, d1) =>
        if verify_all (di_entries d1) then
          match rbind (entry_nodes (di_entries d1)) (descend (resolve_children k)) with
          | Ok l => (Ok l, mkDir (di_off d1) (di_size d1) (di_parsed d1) Verified [])
          | e => (e, d1)
          end
        else (Err EWrongVersion, d1)
      | (Err e, d1) => (Err e, d1)
      | (Panic, d1) => (Panic, d1)
      | (OutOfFuel, d1) => (OutOfFuel, d1)
      end
    end.

  (** A directory node: its directory and children (insertion sequence); node.rs:174-229
      (parse), the directory branch. *)
  Definition parse_dir (fuel : nat) (n : dir * list (text * dnode)) : res unit * (dir * list (text * dnode)) :=
    let (d, kids) := n in
    if di_parsed d then (Ok tt, n)
    else match resolve_children fuel d with
    | (Ok l, d') => (Ok tt, (mkDir (di_off d') (di_size d') true (di_status d') (di_entries d'), kids ++ l))
    | (Err e, d') => (Err e, (d', kids))
    | (Panic, d') => (Panic, (d', kids))
    | (OutOfFuel, d') => (OutOfFuel, (d', kids))
    end.
  (** node.rs:233-248 (unparse), the directory branch. *)
  Definition unparse_dir (n : dir * list (text * dnode)) : dir * list (text * dnode) :=
    let (d, _) := n in (mkDir (di_off d) (di_size d) false (di_status d) (di_entries d), []).

  (** file.rs:336-338: the first image among the children, for the header test. *)
  Definition first_image (l : list (text * dnode)) : option Z :=
    match filter (fun x => match snd x with NImage _ _ => true | _ => false end) l with
    | (_, NImage off _) :: _ => Some off
    | _ => None
    end.
  (** file.rs:324-362 (try_decode_with_wz_version_number).  [version113] is the
      special case of 356-359. *)
  Definition try_decode (fuel : nat) (version113 : bool) (d : dir) : res (list (text * dnode)) * dir :=
    if (hash =? 0) || negb (verify_all (di_entries d)) then (Err EGameHash, d)
    else match resolve_children fuel d with
    | (Ok l, d') =>
      let ok := match first_image l with
                | Some off => match read_u8_at (rd_buf r) off with Ok b => valid_image_header b | _ => false end
                | None => true
                end in
      if ok then if version113 then (Err EGameHash, d') else (Ok l, d')
      else (Err EImageHeader, d')
    | x => x
    end.
End directory.

(** file.rs:181-197: the version loop of a classic package; [first] error kinds
    are not looked at. *)
Fixpoint try_versions (r : rd) (h : header) (p2 : bool) (fuel : nat) (no_encver : bool)
    (cands : list (Z * Z)) (d : dir) : res (Z * Z * list (text * dnode)) :=
  match cands with
  | [] => Err EGameHash
  | (ver, hash) :: t =>
    match try_decode r h p2 OPkg1 hash fuel (no_encver && (ver =? 113)) d with
    | (Ok l, _) => Ok (ver, hash, l)
    | (Err _, d') => try_versions r h p2 fuel no_encver t d'
    | (Panic, _) => Panic
    | (OutOfFuel, _) => OutOfFuel
    end
  end.

(** file.rs:147-213 (parse_pkg1) on a reader with header [h]: version, hash and
    children.  With an explicit version the error of the single attempt is
    returned; its [wz_version_header] is the header's version field (or 770), which
    is what the special case 113 compares. *)
Definition parse_pkg1 (fuel : nat) (r : rd) (h : header) (p2 : bool) (block_size : Z) (patch : Z)
  : res (Z * Z * list (text * dnode)) :=
  let no_encver := match hd_encver h with None => true | _ => false end in
  let e := match hd_encver h with Some x => x | None => V64 end in
  let d := dir_new (hd_data_start h) block_size in
  if patch =? -1 then
    try_versions r h p2 fuel no_encver
      (if no_encver then version_scan e V64 (V64 + 10) else version_scan e 1 2000) d
  else
    let hash := check_version e patch in
    match try_decode r h p2 OPkg1 hash fuel (no_encver && (e =? 113)) d with
    | (Ok l, _) => Ok (patch, hash, l)
    | (Err x, _) => Err x
    | (Panic, _) => Panic
    | (OutOfFuel, _) => OutOfFuel
    end.
