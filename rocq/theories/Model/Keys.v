(** String / block decryptors: util/string_decryptor/{ecb,pkg2}_decryptor.rs. *)
From Verif.Model Require Import Base.

(** Overwrite [new] at index [i] of [buf]: writing through [split_at_mut] (ecb_decryptor.rs:144). *)
Definition write_at (buf : list Z) (i : nat) (new : list Z) : list Z :=
  firstn i buf ++ new ++ skipn (i + length new) buf.

(** [Vec::resize(n, 0)] (ecb_decryptor.rs:120,138). *)
Definition resize0 (buf : list Z) (n : nat) : list Z :=
  firstn n buf ++ repeat 0 (n - length buf).

Section Ecb.
  (** Oracle: AES-256 encryption of one 16-byte block under the decryptor's
      [aes_key] (crate [aes], ecb_decryptor.rs:128,146). *)
  Variable aes : list Z -> list Z.

  (** ecb_decryptor.rs:10-18.  [enc_type] is dropped (never read by the
      modelled methods); [aes_key] is the oracle. *)
  Record ecb := mkEcb { ecb_iv : list Z; ecb_keys : list Z; ecb_plain : bool }.

  (** ecb_decryptor.rs:21-29, 39-47 (new / from_iv). *)
  Definition ecb_from_iv (iv : list Z) : ecb :=
    mkEcb iv [] (sext 32 (le_val iv) =? 0).

  (** ecb_decryptor.rs:30-38 (new_lua): [WZ_MSEAIV], maple_crypto_constants.rs. *)
  Definition ecb_new_lua : ecb := mkEcb [0xB9; 0x7D; 0x63; 0xE9] [] false.

  (** ecb_decryptor.rs:76-81 (trait is_enough). *)
  Definition ecb_is_enough (d : ecb) (size : Z) : bool :=
    ecb_plain d || (size <=? zlen (ecb_keys d)).

  (** ecb_decryptor.rs:64-67 (set_iv): only the iv field changes. *)
  Definition ecb_set_iv (d : ecb) (iv : Z) : ecb :=
    mkEcb (le_bytes 4 (wrap 32 iv)) (ecb_keys d) (ecb_plain d).

  (** PKCS#7 padding block appended by [encrypt_padded_b2b_mut] to a full block (ecb_decryptor.rs:128,147). *)
  Definition pad_block : list Z := repeat 16 16.

  (** [encrypt_padded_b2b_mut::<Pkcs7>] (ecb_decryptor.rs:128,147) of one 16-byte block into an output of
      at least 32 bytes: the encrypted block, then the encrypted padding block. *)
  Definition ecb_padded (blk : list Z) : list Z := aes blk ++ aes pad_block.

  (** ecb_decryptor.rs:143-149: [for i in (start..size).step_by(16)]; [n] is the
      number of iterations. *)
  Fixpoint ecb_fill (n : nat) (i : nat) (keys : list Z) : list Z :=
    match n with
    | O => keys
    | S k =>
      let blk := firstn 16 (skipn (i - 16) keys) in
      ecb_fill k (i + 16)%nat (write_at keys i (ecb_padded blk))
    end.

  (** ecb_decryptor.rs:107-156 (ensure_key_size).  The f64 computation
      [ceil(size/4096)*4096] is the integer one (exact below 2^53).  The
      encryptor never fails here: its output window is always 32 bytes or more. *)
  Definition ecb_ensure (d : ecb) (size : Z) : ecb :=
    if ecb_is_enough d size then d
    else
      let size := (size + 4095) / 4096 * 4096 in
      let keys :=
        match ecb_keys d with
        | [] => firstn 16 (write_at (repeat 0 32) 0
                  (ecb_padded (ecb_iv d ++ ecb_iv d ++ ecb_iv d ++ ecb_iv d)))
        | k => k
        end in
      let start := zlen keys in
      let keys := if start <? size then resize0 keys (Z.to_nat (size + 16)) else keys in
      let keys := ecb_fill (Z.to_nat ((size - start + 15) / 16)) (Z.to_nat start) keys in
      let keys := if size <? zlen keys then firstn (Z.to_nat size) keys else keys in
      mkEcb (ecb_iv d) keys (ecb_plain d).

  (** ecb_decryptor.rs:93-95 (try_at). *)
  Definition ecb_try_at (d : ecb) (i : nat) : option Z := nth_error (ecb_keys d) i.

  (** ecb_decryptor.rs:85-90 (at): panics when the index is still missing. *)
  Definition ecb_at (d : ecb) (i : nat) : res Z * ecb :=
    let d := if zlen (ecb_keys d) <=? Z.of_nat i then ecb_ensure d (Z.of_nat i + 1) else d in
    (match nth_error (ecb_keys d) i with Some b => Ok b | None => Panic end, d).

  (** XOR of two lists up to the shorter one ([iter_mut().zip], ecb_decryptor.rs:102-104). *)
  Fixpoint xor_zip (a k : list Z) : list Z :=
    match a, k with
    | x :: a', y :: k' => Z.lxor x y :: xor_zip a' k'
    | _, _ => a
    end.

  (** ecb_decryptor.rs:97-105 (decrypt_slice): panics when the key buffer is
      shorter than the data. *)
  Definition ecb_decrypt (d : ecb) (data : list Z) : res (list Z) :=
    if ecb_plain d then Ok data
    else match slice (ecb_keys d) 0 (zlen data) with
         | Some k => Ok (xor_zip data k)
         | None => Panic
         end.

  (** reader.rs:925-945 (get_decrypt_slice) on a decryptor of this family:
      grow if needed, then decrypt; the grown decryptor stays in the shared cell. *)
  Definition ecb_get_decrypt_slice (d : ecb) (data : list Z) : res (list Z) * ecb :=
    let d := if ecb_is_enough d (zlen data) then d else ecb_ensure d (zlen data) in
    (ecb_decrypt d data, d).
End Ecb.

(** pkg2_decryptor.rs:29-52 (calculate_keys) from the 64-bit key. *)
Definition pkg2_keys (key : Z) : list Z :=
  match le_bytes 8 (wrap 64 key) with
  | [k0; k1; k2; k3; k4; _; _; _] => [k0; k1; k1; k2; k2; k3; k3; k4]
  | _ => []
  end.

(** pkg2_decryptor.rs:82-86 (decrypt_slice), [i] is the running index. *)
Fixpoint pkg2_decrypt (keys : list Z) (i : nat) (data : list Z) : list Z :=
  match data with
  | [] => []
  | b :: r => Z.lxor b (nth (i mod 8)%nat keys 0) :: pkg2_decrypt keys (S i) r
  end.

(** pkg2_decryptor.rs:103-109 (mix_kmst1199). *)
Definition mix_kmst1199 (key : Z) : Z :=
  let k1 := Z.lxor key (Z.shiftr key 16) in
  let k2 := wrap 32 (k1 * 0x7FEB352D) in
  let k3 := Z.lxor k2 (Z.shiftr k2 15) in
  let k4 := wrap 32 (k3 * 0x846CA68B) in
  Z.lxor k4 (Z.shiftr k4 16).

(** pkg2_decryptor.rs:93-96. *)
Definition kmst1199_key (hash1 hv : Z) : Z :=
  mix_kmst1199 (Z.lxor (mix_kmst1199 (Z.lxor (Z.lxor hash1 hv) 0x6D4C3B2A)) 0x4F4CB34A).

(** pkg2_decryptor.rs:98-100. *)
Definition kmst1202_key (hash1 hv : Z) : Z :=
  Z.lxor (Z.lxor hash1 hv) 0x66B57FEE317FD3DF.
