(** util/offset.rs: decoding of stored directory offsets. *)
From Verif.Model Require Import Base Keys Header.

(** util/offset.rs:6. *)
Definition WZ_OFFSET : Z := 0x581C3F6D.

(** util/offset.rs:56-71 (read_wz_offset): usize (64-bit) arithmetic with
    32-bit masks.  [header_size * 2] cannot overflow, fstart is a u32. *)
Definition off_pkg1 (fstart hash1 hash enc pos : Z) : Z :=
  let hash := wrap 32 hash in
  let o := Z.lxor (wrap 64 (pos - fstart)) 0xFFFFFFFF in
  let o := wrap 32 (wrap 64 (o * hash)) in
  let o := wrap 64 (o - WZ_OFFSET) in
  let o := wrap 32 (sext 32 (rotl32 (wrap 32 o) (Z.land (wrap 32 o) 0x1F))) in
  let o := wrap 32 (Z.lxor o enc) in
  wrap 32 (wrap 64 (o + wrap 64 (fstart * 2))).

(** util/offset.rs:76-94 (read_wz_offset_pkg2). *)
Definition off_pkg2_v1 (fstart hash1 hash enc pos : Z) : Z :=
  let hash := wrap 32 hash in
  let hash1 := wrap 32 hash1 in
  let dist := Z.land (Z.lxor hash hash1) 0x1F in
  let o := wrap 32 (wrap 32 pos - wrap 32 fstart) in
  let o := not32 o in
  let o := wrap 32 (o * hash) in
  let o := wrap 32 (o - WZ_OFFSET) in
  let o := Z.lxor o (wrap 32 (hash1 * 0x01010101)) in
  let o := rotl32 o dist in
  let o := Z.lxor o enc in
  wrap 32 (o + wrap 32 fstart).

(** util/offset.rs:100-119 (read_wz_offset_pkg2_v2). *)
Definition off_pkg2_v2 (fstart hash1 hash enc pos : Z) : Z :=
  let hash := wrap 32 hash in
  let hash1 := wrap 32 hash1 in
  let dist := Z.land (Z.lxor hash hash1) 0x1F in
  let o := wrap 32 (wrap 32 pos - wrap 32 fstart) in
  let o := not32 o in
  let o := wrap 32 (o * Z.lxor hash hash1) in
  let o := wrap 32 (o - WZ_OFFSET) in
  let o := Z.lxor o (wrap 32 (hash1 * 0x01010101)) in
  let o := rotl32 o dist in
  let o := Z.lxor o (not32 enc) in
  wrap 32 (o + wrap 32 fstart).

(** util/offset.rs:124-147 (read_wz_offset_pkg2_v3). *)
Definition off_pkg2_v3 (fstart hash1 hash enc pos : Z) : Z :=
  let hash := wrap 32 hash in
  let hash1 := wrap 32 hash1 in
  let pre := Z.lxor hash1 hash in
  let mixed := Z.lxor (mix_kmst1199 (Z.lxor pre 0x6D4C3B2A)) 0x91E10DA5 in
  let dist := Z.land (Z.lxor pre mixed) 0x1F in
  let o := wrap 32 (wrap 32 pos - wrap 32 fstart) in
  let o := not32 o in
  let o := wrap 32 (o * wrap 32 (pre + Z.lxor mixed 0xA7E3C093)) in
  let o := wrap 32 (o - WZ_OFFSET) in
  let o := Z.lxor o (wrap 32 (hash1 * 0x01010101)) in
  let o := Z.lxor o (wrap 32 (mixed * 0x9E3779B9)) in
  let o := rotl32 o dist in
  let o := Z.lxor o (not32 enc) in
  wrap 32 (o + wrap 32 fstart).

(** util/offset.rs:151-168 (read_wz_offset_pkg2_64_v1). *)
Definition off_pkg2_64 (fstart hash1 hash enc pos : Z) : Z :=
  let hash := wrap 32 hash in
  let hash1 := wrap 32 hash1 in
  let pre := Z.lxor hash1 hash in
  let mixed := Z.lxor pre 0x33BBBB33 in
  let o := wrap 32 (wrap 32 pos - wrap 32 fstart) in
  let o := not32 o in
  let o := wrap 32 (o * wrap 32 (pre + Z.lxor mixed 0xA7E3C093)) in
  let o := wrap 32 (o - WZ_OFFSET) in
  let o := Z.lxor o (wrap 32 (hash1 * 0x01010101)) in
  let o := Z.lxor o (wrap 32 (mixed * 0x9E3779B9)) in
  let o := rotl32 o 19 in
  let o := Z.lxor o (not32 enc) in
  wrap 32 (o + wrap 32 fstart).

(** util/offset.rs:8-16 (WzOffsetVersion). *)
Inductive offv := OPkg1 | OPkg2V1 | OPkg2V2 | OPkg2V3 | OPkg264.

(** util/offset.rs:19-27 (get_calculator).  No calculator ever fails. *)
Definition off_calc (v : offv) : Z -> Z -> Z -> Z -> Z -> Z :=
  match v with
  | OPkg1 => off_pkg1
  | OPkg2V1 => off_pkg2_v1
  | OPkg2V2 => off_pkg2_v2
  | OPkg2V3 => off_pkg2_v3
  | OPkg264 => off_pkg2_64
  end.

(** util/offset.rs:171-182 (decrypt_pkg2_entry_count_64_v1): i64 xor and
    arithmetic shift; a negative result is cast to usize. *)
Definition entry_count_64 (hash1 hash enc : Z) : res Z :=
  let c := Z.shiftr (sext 64 (Z.lxor (Z.lxor (Z.lxor (wrap 64 enc) (wrap 64 hash1)) (wrap 64 hash))
                                     0x550EC4DD02C468EC)) 16 in
  if 2 ^ 31 - 1 <? c then Err EEntryCount else Ok (wrap 64 c).
