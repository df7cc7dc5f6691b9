(** reader.rs: readers that share their decryptors, and the decryptors of util/string_decryptor/mod.rs they share. *)
From Verif.Model Require Import Base Utf Keys Reader WzStr Media Guess.

(** A decryptor behind [Arc<RwLock<dyn Decryptor>>] (string_decryptor/mod.rs:12): an [EcbDecryptor]
    (ecb_decryptor.rs:10-18) or a [Pkg2Decryptor] with its IV and eight key bytes (pkg2_decryptor.rs:5-9).  [enc_type]
    is dropped: nothing reads it. *)
Inductive cell := CEcb (d : ecb) | CPkg2 (iv : Z) (keys : list Z).

(** [is_pkg2] (ecb_decryptor.rs:72-74, pkg2_decryptor.rs:55-57). *)
Definition c_is_pkg2 (c : cell) : bool := match c with CPkg2 _ _ => true | _ => false end.
(** [get_iv_hash] (ecb_decryptor.rs:68-70, pkg2_decryptor.rs:67-69). *)
Definition c_iv_hash (c : cell) : Z := match c with CEcb d => le_val (ecb_iv d) | CPkg2 iv _ => iv end.
(** [set_iv] (ecb_decryptor.rs:64-67, pkg2_decryptor.rs:59-62 with 29-52). *)
Definition c_set_iv (c : cell) (key : Z) : cell :=
  match c with CEcb d => CEcb (ecb_set_iv d key) | CPkg2 _ _ => CPkg2 (wrap 32 key) (pkg2_keys key) end.
(** [Pkg2Decryptor::default] (pkg2_decryptor.rs:11-19). *)
Definition c_default : cell := CPkg2 0 (repeat 0 8).
(** [try_at] (ecb_decryptor.rs:93-95, pkg2_decryptor.rs:78-80). *)
Definition c_try_at (c : cell) (i : nat) : option Z :=
  match c with CEcb d => ecb_try_at d i | CPkg2 _ keys => nth_error keys (i mod 8) end.
(** [is_enough] (ecb_decryptor.rs:76-81, pkg2_decryptor.rs:70-72). *)
Definition c_is_enough (c : cell) (n : Z) : bool := match c with CEcb d => ecb_is_enough d n | CPkg2 _ _ => true end.
(** [decrypt_slice] (ecb_decryptor.rs:97-105, pkg2_decryptor.rs:82-86). *)
Definition c_decrypt (c : cell) (data : list Z) : res (list Z) :=
  match c with CEcb d => ecb_decrypt d data | CPkg2 _ keys => Ok (pkg2_decrypt keys 0 data) end.

(** The decryptors in existence, by number, and which one was put into [custom], if any
    (string_decryptor/mod.rs:190-196). *)
Record keyring := mkRing { kr_cells : list cell; kr_custom : option nat }.

(** string_decryptor/mod.rs:232-246 (GLOBAL_STRING_DECRYPTOR): 0 gms, 1 kms, 2 general, 3 kmst1198; [custom] is unset. *)
Definition keyring0 : keyring :=
  mkRing [CEcb (ecb_from_iv WZ_GMSIV); CEcb (ecb_from_iv WZ_MSEAIV); CEcb (ecb_from_iv [0; 0; 0; 0]);
          c_set_iv c_default (key_of_version MKMST1198)] None.

(** [Arc::new(RwLock::new(..))] (string_decryptor/mod.rs:207, 218, 228): a decryptor of one's own. *)
Definition kr_new (k : keyring) (c : cell) : nat * keyring :=
  (length (kr_cells k), mkRing (kr_cells k ++ [c]) (kr_custom k)).
(** Writing to a decryptor through its lock, [write().unwrap()] (reader.rs:934-939, 258-259). *)
Definition kr_put (k : keyring) (i : nat) (c : cell) : keyring :=
  mkRing (firstn i (kr_cells k) ++ c :: skipn (S i) (kr_cells k)) (kr_custom k).

(** string_decryptor/mod.rs:29-39 (DecrypterType). *)
Inductive dkind := KBMS | KKMS | KGMS | KKMST1198 | KKMST1199 | KKMST1202 | KCustom | KUnknown.

(** string_decryptor/mod.rs:199-211 (get_decryptor). *)
Definition get_decryptor (k : keyring) (t : dkind) : res (nat * keyring) :=
  match t with
  | KGMS => Ok (0%nat, k)
  | KKMS => Ok (1%nat, k)
  | KCustom => match kr_custom k with Some i => Ok (i, k) | None => Panic end
  | KKMST1198 => Ok (3%nat, k)
  | KKMST1199 | KKMST1202 => Ok (kr_new k c_default)
  | _ => Ok (2%nat, k)
  end.
(** string_decryptor/mod.rs:212-222 (get_decryptor_by_version). *)
Definition get_decryptor_by_version (k : keyring) (v : mversion) : nat * keyring :=
  match v with
  | MGMS => (0%nat, k)
  | MEMS => (1%nat, k)
  | MKMST1198 => (3%nat, k)
  | MKMST1199 => kr_new k c_default
  | _ => (2%nat, k)
  end.
(** string_decryptor/mod.rs:223-230 (get_decryptor_by_iv). *)
Definition get_decryptor_by_iv (k : keyring) (iv : list Z) : nat * keyring :=
  if list_eq_dec Z.eq_dec iv WZ_GMSIV then (0%nat, k)
  else if list_eq_dec Z.eq_dec iv WZ_MSEAIV then (1%nat, k)
  else if list_eq_dec Z.eq_dec iv [0; 0; 0; 0] then (2%nat, k)
  else kr_new k (CEcb (ecb_from_iv iv)).

(** reader.rs:36-41 (WzBaseReader) and 66-73 (WzSliceReader), as far as strings are concerned: the bytes and which
    decryptors are used for strings and for package-2 names.  The header is left out (Model/Header.v). *)
Record base := mkBase { b_buf : list Z; b_keys : nat; b_pkeys : nat }.

(** reader.rs:181-194 (new), 264-281 (from_buff; an empty buffer becomes one zero byte). *)
Definition base_new (k : keyring) (buf : list Z) : base * keyring :=
  let '(i, k) := kr_new k c_default in (mkBase buf 2 i, k).
(** reader.rs:264-281 (from_buff): an empty buffer becomes one zero byte. *)
Definition base_from_buff (k : keyring) (buf : list Z) : base * keyring :=
  base_new k (match buf with [] => [0] | _ => buf end).
(** reader.rs:195-201 (with_iv). *)
Definition with_iv (k : keyring) (b : base) (iv : list Z) : base * keyring :=
  let '(i, k) := get_decryptor_by_iv k iv in
  let '(j, k) := kr_new k c_default in (mkBase (b_buf b) i j, k).
(** reader.rs:204-216 (with_existing_keys) and 285-300 (WzSliceReader::new).  A number that stands for no decryptor
    cannot occur. *)
Definition with_existing_keys (k : keyring) (b : base) (i : nat) : base :=
  match nth_error (kr_cells k) i with
  | Some c => mkBase (b_buf b) (if c_is_pkg2 c then 2%nat else i) i
  | None => b
  end.
(** reader.rs:241-251 (create_slice_reader): [new] with [keys], then [with_pkg2_keys] (reader.rs:309-314). *)
Definition create_slice_reader (k : keyring) (b : base) : base :=
  mkBase (b_buf b) (b_keys (with_existing_keys k b (b_keys b))) (b_pkeys b).

(** reader.rs:333-339 (is_valid_pos, available); the difference wraps. *)
Definition is_valid_pos (b : base) (pos : Z) : bool := pos <=? zlen (b_buf b).
(** reader.rs:337-339 (available): what is left behind the position. *)
Definition available (b : base) (pos : Z) : Z := wrap 64 (zlen (b_buf b) - pos).

Section shared.
  (** Oracle: AES-256 of one block (see Model/Keys.v). *)
  Variable aes : list Z -> list Z.

  (** [ensure_key_size] (ecb_decryptor.rs:107-156, pkg2_decryptor.rs:88-90). *)
  Definition c_ensure (c : cell) (n : Z) : cell :=
    match c with CEcb d => CEcb (ecb_ensure aes d n) | CPkg2 _ _ => c end.
  (** [at] (ecb_decryptor.rs:85-90, pkg2_decryptor.rs:74-76). *)
  Definition c_at (c : cell) (i : nat) : res Z * cell :=
    match c with
    | CEcb d => let '(r, d) := ecb_at aes d i in (r, CEcb d)
    | CPkg2 _ keys => (match nth_error keys (i mod 8) with Some b => Ok b | None => Panic end, c)
    end.

  (** reader.rs:925-945 (get_decrypt_slice) on a shared decryptor. *)
  Definition ring_decrypt (k : keyring) (i : nat) (data : list Z) : res (list Z) * keyring :=
    match nth_error (kr_cells k) i with
    | None => (Panic, k)
    | Some c =>
      let c := if c_is_enough c (zlen data) then c else c_ensure c (zlen data) in
      (c_decrypt c data, kr_put k i c)
    end.

  (** reader.rs:708-718, 767-777 (get_decrypt_slice and get_pkg2_decrypt_slice of the two readers): the range, then
      [ring_decrypt]. *)
  Definition base_slice (k : keyring) (b : base) (i : nat) (off len : Z) : res (list Z) * keyring :=
    match slice (b_buf b) off (wrap 64 (off + len)) with
    | Some l => ring_decrypt k i l
    | None => (Err EOob, k)
    end.

  (** reader.rs:128-154 (resolve_wz_string_meta) with 100-127. *)
  Definition base_resolve (k : keyring) (b : base) (t : stype) (off len : Z) : res text * keyring :=
    match t with
    | SEmpty => (Ok [], k)
    | SUnicode =>
      let '(r, k) := base_slice k b (b_keys b) off len in
      (rbind r (fun l => rmap utf16_lossy (rmap (mapi_from resolve_unicode_char 0) (chunks_u16 l))), k)
    | SAscii =>
      let '(r, k) := base_slice k b (b_keys b) off len in
      (rmap utf8_lossy (rmap (mapi_from resolve_ascii_char 0) r), k)
    | SPkg2Dir =>
      let '(r, k) := base_slice k b (b_pkeys b) off len in
      (rbind r (fun l => rmap utf16_lossy (chunks_u16 l)), k)
    end.

  (** The key bytes [encrypt_str] sees, [try_at(..).unwrap_or(&0)] (property/string.rs:193-194, 208). *)
  Definition c_key_fn (c : cell) (i : nat) : Z := match c_try_at c i with Some b => b | None => 0 end.

  (** reader.rs:253-260 (encrypt_str) with property/string.rs:177-229. *)
  Definition base_encrypt (k : keyring) (b : base) (t : text) (ty : stype) : res (list Z) * keyring :=
    match ty with
    | SEmpty => (Ok [], k)
    | _ =>
      match nth_error (kr_cells k) (b_keys b) with
      | None => (Panic, k)
      | Some c =>
        match ty with
        | SUnicode =>
          let c := c_ensure c (zlen (utf16_enc t) * 2) in
          (Ok (encrypt_unicode (c_key_fn c) t), kr_put k (b_keys b) c)
        | SAscii =>
          let c := c_ensure c (zlen (utf8_enc t)) in
          (Ok (encrypt_ascii (c_key_fn c) t), kr_put k (b_keys b) c)
        | SPkg2Dir =>
          let data := flat_map (le_bytes 2) (utf16_enc t) in
          let c := c_ensure c (zlen data * 2) in
          (c_decrypt c data, kr_put k (b_keys b) c)
        | SEmpty => (Ok [], k)
        end
      end
    end.
End shared.
