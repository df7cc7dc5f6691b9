(** file.rs: a package file, from its bytes to its tree. *)
From Verif.Model Require Import Base Utf Keys Reader Header Offset VersionPkg1 VersionPkg2 Directory Media Guess.

(** file.rs FailedToVerifyStringDecryptor (file.rs:318). *)
Definition EKeyCheck : err := EOther 3.

(** directory.rs:108-111 (reset_entry_parse). *)
Definition reset_dir (d : dir) : dir := mkDir (di_off d) (di_size d) (di_parsed d) Init [].

(** directory.rs:312-320 (verify_string_decryptor) with 441-449 (resolve_name). *)
Definition verify_string (r : rd) (d : dir) : bool :=
  match di_status d with
  | EntryCreated =>
    match di_entries d with
    | [] => true
    | e :: _ => match get_string r (en_name e) with Ok _ => true | _ => false end
    end
  | _ => false
  end.

(** file.rs:371-382 (update_keys): the decryptor afterwards.  [set_iv] does nothing to an [EcbDecryptor], but it is
    only called on the fresh [Pkg2Decryptor] of an unverified file. *)
Definition profile_key (h : header) (p : prof) (hash : Z) : decr :=
  DPkg2 (pkg2_keys (if prof_64 p then kmst1202_key (hd_hash1 h) hash
                    else kmst1199_key (wrap 32 (hd_hash1 h)) (wrap 32 hash))).

(** util/profile.rs:114-126: the cache of profiles that have worked, with their hashes. *)
Definition pcache := list (prof * Z).

Section file.
  (** Oracle: key streams of the [EcbDecryptor]s (see Model/Guess.v). *)
  Variable stream : list Z -> nat -> Z.
  Variable buf : list Z.

  (** file.rs:87-108: the decryptor taken when a file is opened, if one is verified; [existing] wins over [iv]. *)
  Definition open_decr (iv : option (list Z)) (existing : option decr) : res (option decr) :=
    match (match existing with Some d => Some d | None => option_map DEcb iv end) with
    | None => guess_decr stream buf
    | Some d =>
      match verify_decr stream buf d with
      | Ok _ => Ok (Some d)
      | Err _ => guess_decr stream buf
      | Panic => Panic
      | OutOfFuel => OutOfFuel
      end
    end.

  (** file.rs:73-133 (from_file) on the content of the file: whether a decryptor was verified, and the decryptor that
      decides the keys of the reader (reader.rs:183-216; unverified: general keys and a fresh package-2 decryptor, as
      [with_existing_keys] would make of it). *)
  Definition open_file (iv : option (list Z)) (existing : option decr) : res (bool * decr) :=
    rbind (open_decr iv existing) (fun o =>
    Ok (match o with Some d => (true, d) | None => (false, pkg2_default) end)).

  Variable h : header.
  Variable fuel : nat.

  (** file.rs:305-322 (try_pkg2_profile): children, then decryptor and directory as left behind.  [Err] leaves both
      changed. *)
  Definition try_profile (verified : bool) (p : prof) (hash : Z) (s : decr * dir)
    : res (list (text * dnode)) * (decr * dir) :=
    let (k, d) := s in
    let decode k d := let (x, d') := try_decode (reader_of stream buf k) h (is_pkg2 k) (prof_offset p) hash fuel false d in (x, (k, d')) in
    if verified then decode k d
    else
      let k := profile_key h p hash in
      match prepare (reader_of stream buf k) h (is_pkg2 k) (prof_offset p) hash fuel d with
      | (Ok _, d) => if verify_string (reader_of stream buf k) d then decode k d else (Err EKeyCheck, (k, d))
      | (Err e, d) => (Err e, (k, d))
      | (Panic, d) => (Panic, (k, d))
      | (OutOfFuel, d) => (OutOfFuel, (k, d))
      end.

  (** One round of the loops (file.rs:238-265, 268-297), over pairs of profile and hash; the pairs of the second loop
      are those of all profiles one after the other.  Gives the pair that worked, the children and the decryptor. *)
  Fixpoint try_pairs (verified : bool) (ps : list (prof * Z)) (s : decr * dir)
    : res (option (prof * Z * list (text * dnode) * decr) * (decr * dir)) :=
    match ps with
    | [] => Ok (None, s)
    | (p, hash) :: t =>
      let (k, d) := s in
      match try_profile verified p hash (k, if prof_64 p then reset_dir d else d) with
      | (Ok l, (k', d')) => Ok (Some (p, hash, l, k'), (k', d'))
      | (Err _, s') => try_pairs verified t s'
      | (Panic, _) => Panic
      | (OutOfFuel, _) => OutOfFuel
      end
    end.

  (** file.rs:238-246: the cached profiles that come into question. *)
  Definition cached (cache : pcache) : list (prof * Z) :=
    filter (fun x => Bool.eqb (prof_64 (fst x)) (is_pkg2_64 h) && prof_verify (fst x) (snd x) (hd_hash1 h) (hd_hash2 h)) cache.
  (** file.rs:268-275: all profiles with their hashes. *)
  Definition candidates : list (prof * Z) :=
    flat_map (fun p => map (fun x => (p, x)) (prof_hashes p (hd_hash1 h) (hd_hash2 h)))
      (filter (fun p => Bool.eqb (prof_64 p) (is_pkg2_64 h)) all_profiles).

  (** file.rs:215-303 (parse_pkg2): profile, hash, children and decryptor, and the cache afterwards.  The first
      [prepare_entries] of a 32-bit package runs under the default profile, which it does not look at. *)
  Definition parse_pkg2 (verified : bool) (k : decr) (block_size : Z) (cache : pcache)
    : res (prof * Z * list (text * dnode) * decr * pcache) :=
    let d := dir_new (hd_data_start h) block_size in
    let start :=
      if is_pkg2_64 h then (Ok tt, d) else prepare (reader_of stream buf k) h (is_pkg2 k) OPkg1 0 fuel d in
    match start with
    | (Ok _, d) =>
      rbind (try_pairs verified (cached cache) (k, d)) (fun x =>
      match x with
      | (Some y, _) => Ok (y, cache)
      | (None, s) =>
        rbind (try_pairs verified candidates s) (fun x =>
        match x with
        | (Some y, _) => Ok (y, cache ++ [fst (fst y)])
        | (None, _) => Err EGameHash
        end)
      end)
    | (Err e, _) => Err e
    | (Panic, _) => Panic
    | (OutOfFuel, _) => OutOfFuel
    end.
End file.

(** What a parsed file is: its version (classic) or profile, its hash, its children, the decryptor of its reader, and
    the profile cache afterwards (file.rs:46-72, 187-212, 256-296). *)
Record parsed_file := mkFile {
  pf_version : Z + prof; pf_hash : Z; pf_kids : list (text * dnode); pf_key : decr; pf_cache : pcache }.

(** file.rs:73-145 (from_file, then parse): [patch0] is given to [from_file] (-1 if none), [patch] to [parse]. *)
Definition parse_file (stream : list Z -> nat -> Z) (fuel : nat) (buf : list Z) (iv : option (list Z)) (existing : option decr)
    (patch0 : Z) (patch : option Z) (cache : pcache) : res parsed_file :=
  rbind (open_file stream buf iv existing) (fun o =>
  let (verified, k) := o in
  rbind (header_of buf) (fun h =>
  match hd_ident h with
  | IV1 =>
    rmap (fun x => let '(v, hash, l) := x in mkFile (inl v) hash l k cache)
      (parse_pkg1 fuel (reader_of stream buf k) h (is_pkg2 k) (zlen buf) (match patch with Some v => v | None => patch0 end))
  | IV2 =>
    rmap (fun x => let '(p, hash, l, k, cache) := x in mkFile (inr p) hash l k cache)
      (parse_pkg2 stream buf h fuel verified k (zlen buf) cache)
  | IUnknown => Err EPkgVersion
  end)).
