(** property/string.rs: building encrypted strings. *)
From Verif.Model Require Import Base Utf Keys Reader.

(** property/string.rs:177-229, branch Ascii (202-215): XOR with the running
    byte counter and the key byte ([try_at(..).unwrap_or(&0)]). *)
Definition enc_ascii_byte (key : nat -> Z) (b : Z) (i : nat) : Z :=
  Z.lxor b (Z.lxor (wrap 8 (Z.of_nat i + 0xAA)) (key i)).

(** property/string.rs:184-201, branch Unicode, one code unit. *)
Definition enc_unicode_unit (key : nat -> Z) (u : Z) (i : nat) : list Z :=
  le_bytes 2 (Z.lxor u (Z.lxor (Z.lxor (wrap 16 (Z.of_nat i + 0xAAAA)) (key (2 * i)%nat))
                               (wrap 16 (Z.shiftl (key (2 * i + 1)%nat) 8)))).

(** property/string.rs:202-215: all bytes of an ASCII string. *)
Definition encrypt_ascii (key : nat -> Z) (t : text) : list Z :=
  mapi_from (enc_ascii_byte key) 0 (utf8_enc t).
(** property/string.rs:184-201: all code units of a Unicode string. *)
Definition encrypt_unicode (key : nat -> Z) (t : text) : list Z :=
  concat (mapi_from (enc_unicode_unit key) 0 (utf16_enc t)).
(** property/string.rs:216-227, branch Pkg2Dir: plain UTF-16LE through
    [decrypt_slice] of the package-2 keys. *)
Definition encrypt_pkg2_dir (keys : list Z) (t : text) : list Z :=
  pkg2_decrypt keys 0 (flat_map (le_bytes 2) (utf16_enc t)).

Section FromStr.
  Variable aes : list Z -> list Z.

  (** Key bytes seen by property/string.rs:177-229 through [try_at(..).unwrap_or(&0)] after [ensure_key_size]. *)
  Definition ecb_key_fn (d : ecb) : nat -> Z :=
    fun i => match ecb_try_at d i with Some b => b | None => 0 end.

  (** property/string.rs:110-138 (WzString::from_str): the buffer it stores
      (at least one byte, reader.rs:264-270), the metadata, and the decryptor
      kept for resolving. *)
  Definition wzstring_from_str (t : text) (iv : list Z) : list Z * smeta * ecb :=
    let d0 := ecb_from_iv iv in
    let nonempty l := match l with [] => [0] | _ => l end in
    match t with
    | [] => (nonempty [], mkMeta 0 0 SEmpty, d0)
    | _ =>
      if is_ascii t then
        let d := ecb_ensure aes d0 (zlen (utf8_enc t)) in
        (nonempty (encrypt_ascii (ecb_key_fn d) t),
         mkMeta 0 (wrap 32 (zlen (utf8_enc t))) SAscii, d)
      else
        let d := ecb_ensure aes d0 (zlen (utf16_enc t) * 2) in
        (nonempty (encrypt_unicode (ecb_key_fn d) t),
         mkMeta 0 (wrap 32 (zlen t * 2)) SUnicode, d)
    end.

  (** property/string.rs:160-164 on the stored decryptor: grow, decrypt, decode
      (reader.rs:100-154 with reader.rs:925-945 inlined). *)
  Definition wzstring_get (w : list Z * smeta * ecb) : res text :=
    let '(buf, m, d) := w in
    let dec a b :=
      match slice buf a b with
      | Some l => fst (ecb_get_decrypt_slice aes d l)
      | None => Err EOob
      end in
    let e := wrap 64 (sm_off m + sm_len m) in
    match sm_type m with
    | SEmpty => Ok []
    | SUnicode =>
      rmap utf16_lossy
        (rbind (dec (sm_off m) e)
               (fun l => rmap (mapi_from resolve_unicode_char 0) (chunks_u16 l)))
    | SAscii =>
      rmap utf8_lossy (rmap (mapi_from resolve_ascii_char 0) (dec (sm_off m) e))
    | SPkg2Dir => Panic
    end.
End FromStr.

(** property/string.rs:140-156 (from_str_pkg2_dir): fixed key 0x1A2B3C4D. *)
Definition wzstring_from_pkg2_dir (t : text) : list Z * smeta :=
  let b := encrypt_pkg2_dir (pkg2_keys 0x1A2B3C4D) t in
  (match b with [] => [0] | _ => b end, mkMeta 0 (wrap 32 (zlen t * 2)) SPkg2Dir).

(** get_string of the above: reader.rs:120-127, 148-152 with the package-2
    decryptor given to [with_existing_keys] (reader.rs:204-216). *)
Definition wzstring_pkg2_get (w : list Z * smeta) : res text :=
  let '(buf, m) := w in
  match slice buf (sm_off m) (wrap 64 (sm_off m + sm_len m)) with
  | Some l => rmap utf16_lossy (chunks_u16 (pkg2_decrypt (pkg2_keys 0x1A2B3C4D) 0 l))
  | None => Err EOob
  end.
