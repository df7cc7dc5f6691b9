(** Sounds, raw data, videos and Lua scripts (property/sound.rs, raw_data.rs, video.rs, lua.rs). *)
From Verif.Model Require Import Base Utf Keys Reader Image Png.

(** property/sound.rs:104-107 (get_buffer_range) on [get_slice], a panic outside the file; the sum wraps. *)
Definition snd_data (r : rd) (s : sound) : res (list Z) :=
  range (rd_buf r) (snd_offset s) (wrap 64 (snd_offset s + snd_length s)).
(** property/sound.rs:108-111 (get_header_range) on [get_slice]. *)
Definition snd_header (r : rd) (s : sound) : res (list Z) :=
  range (rd_buf r) (snd_header_offset s) (wrap 64 (snd_header_offset s + snd_header_size s)).

(** property/sound.rs:51-61 (WAV_HEADER). *)
Definition wav_header : list Z :=
  [0x52; 0x49; 0x46; 0x46; 0; 0; 0; 0; 0x57; 0x41; 0x56; 0x45; 0x66; 0x6d; 0x74; 0x20; 0x10; 0; 0; 0;
   0; 0; 0; 0; 0; 0; 0; 0; 0; 0; 0; 0; 0; 0; 0; 0; 0x64; 0x61; 0x74; 0x61; 0; 0; 0; 0].
(** property/sound.rs:112-126 (get_wav_header). *)
Definition get_wav_header (r : rd) (s : sound) : res (list Z) :=
  rbind (snd_header r s) (fun header =>
  let chunk := le_bytes 4 (wrap 32 (snd_length s + 36)) in
  rbind (range header 0x34 (0x34 + 16)) (fun fmt =>
  let chunk2 := le_bytes 4 (snd_length s) in
  Ok (write_at (write_at (write_at wav_header 4 chunk) 20 fmt) 40 chunk2))).
(** property/sound.rs:147-158 (get_buffer). *)
Definition snd_buffer (r : rd) (s : sound) : res (list Z) :=
  rbind (snd_data r s) (fun data =>
  match snd_type s with
  | Wav => rmap (fun h => h ++ data) (get_wav_header r s)
  | _ => Ok data
  end).
(** property/sound.rs:127-145 (write_to): what has been written when it returns, behind [out]; the writer takes
    everything. *)
Definition snd_write_to (r : rd) (s : sound) (out : list Z) : res (list Z) :=
  rbind (snd_data r s) (fun data =>
  match snd_type s with
  | Wav => rbind (get_wav_header r s) (fun h => let out := out ++ h in Ok (out ++ data))
  | _ => Ok (out ++ data)
  end).

(** property/raw_data.rs:20-28 and video.rs:20-28 (get_buffer). *)
Definition raw_buffer (r : rd) (off len : Z) : res (list Z) := range (rd_buf r) off (wrap 64 (off + len)).

(** string_decryptor/mod.rs:190-195: the shared decryptors that scripts use. *)
Record cells := mkCells { c_gms : ecb; c_kms : ecb; c_general : ecb }.
(** util/maple_crypto_constants.rs:13. *)
Definition WZ_GMSIV : list Z := [0x4D; 0x23; 0xC7; 0x2B].
(** util/maple_crypto_constants.rs:14. *)
Definition WZ_MSEAIV : list Z := [0xB9; 0x7D; 0x63; 0xE9].
(** string_decryptor/mod.rs:233-247 (GLOBAL_STRING_DECRYPTOR), before any use. *)
Definition fresh_cells : cells := mkCells (ecb_from_iv WZ_GMSIV) (ecb_from_iv WZ_MSEAIV) (ecb_from_iv [0; 0; 0; 0]).
(** The three IVs tried (property/lua.rs:64), in this order. *)
Inductive lua_iv := Msea | Gms | NoIv.
(** property/lua.rs:64 ([ivs]). *)
Definition lua_ivs : list lua_iv := [Msea; Gms; NoIv].
(** string_decryptor/mod.rs:223-230 (get_decryptor_by_iv) for these. *)
Definition cell_of (cs : cells) (v : lua_iv) : ecb :=
  match v with Msea => c_kms cs | Gms => c_gms cs | NoIv => c_general cs end.
(** The write back through the shared cell (property/lua.rs:51-53,71-75). *)
Definition set_cell (cs : cells) (v : lua_iv) (d : ecb) : cells :=
  match v with
  | Msea => mkCells (c_gms cs) d (c_general cs)
  | Gms => mkCells d (c_kms cs) (c_general cs)
  | NoIv => mkCells (c_gms cs) (c_kms cs) d
  end.

Section Lua.
  (** AES-256 as in Keys.v (ecb_decryptor.rs:128,146). *)
  Variable aes : list Z -> list Z.

  (** property/lua.rs:66-80: the loop over the IVs; the cells are left grown. *)
  Fixpoint lua_guess (ivs : list lua_iv) (cs : cells) (probe : list Z) : res (option lua_iv) * cells :=
    match ivs with
    | [] => (Ok None, cs)
    | v :: rest =>
      let d := ecb_ensure aes (cell_of cs v) (zlen probe) in
      let cs := set_cell cs v d in
      match ecb_decrypt d probe with
      | Ok dec => match utf8_strict dec with Some _ => (Ok (Some v), cs) | None => lua_guess rest cs probe end
      | _ => (Panic, cs)
      end
    end.
  (** property/lua.rs:36-57 (extract_lua), with 59-63 (the first 64 bytes). *)
  Definition extract_lua (cs : cells) (r : rd) (off len : Z) : res text * cells :=
    match range (rd_buf r) off (wrap 64 (len + off)), range (rd_buf r) off (wrap 64 (off + Z.min 64 len)) with
    | Ok data, Ok probe =>
      match lua_guess lua_ivs cs probe with
      | (Ok (Some v), cs) =>
        let d := ecb_ensure aes (cell_of cs v) (zlen data) in
        let cs := set_cell cs v d in
        match ecb_decrypt d data with
        | Ok dec => match utf8_strict dec with Some t => (Ok t, cs) | None => (Err (EOther 31), cs) end
        | _ => (Panic, cs)
        end
      | (Ok None, cs) => (Err (EOther 30), cs)
      | (_, cs) => (Panic, cs)
      end
    | _, _ => (Panic, cs)
    end.
End Lua.
