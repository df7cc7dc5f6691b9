(** header.rs: the package header. *)
From Verif.Model Require Import Base Reader.

(** version/mod.rs:50-66 (PKGVersion). *)
Inductive ident := IV1 | IV2 | IUnknown.

(** header.rs:7-24 (WzHeaderFlag): only these three values are ever stored. *)
Inductive hflags := FNone | FRandom32 | FRandom64.

(** header.rs:26-42. *)
Record header := mkHeader {
  hd_ident : ident; hd_fsize : Z; hd_fstart : Z; hd_data_start : Z;
  hd_encver : option Z; hd_hash1 : Z; hd_hash2 : Z; hd_flags : hflags }.

(** header.rs:52-56 (hash1_u32). *)
Definition hash1_u32 (h : header) : Z := wrap 32 (hd_hash1 h).

(** header.rs:63-66 (is_pkg2_64). *)
Definition is_pkg2_64 (h : header) : bool :=
  match hd_flags h with FRandom64 => true | _ => false end.

(** header.rs:73-83 with version/mod.rs:58-66.  scroll's [pread::<&str>] reads
    up to a NUL byte and an invalid UTF-8 text gives [Unknown], so the outcome
    depends only on whether the four bytes are "PKG1" / "PKG2". *)
Definition get_ident (buf : list Z) : res ident :=
  match slice buf 0 4 with
  | None => Err ERead
  | Some [0x50; 0x4B; 0x47; 0x31] => Ok IV1
  | Some [0x50; 0x4B; 0x47; 0x32] => Ok IV2
  | Some _ => Ok IUnknown
  end.

(** header.rs:92-109 (get_encrypted_version). *)
Definition get_encrypted_version (buf : list Z) (fsize fstart : Z) : option Z :=
  match read_u16_at buf fstart with
  | Ok e =>
    if (fsize <? 2) || (0xff <? e) then None
    else if e =? 0x80 then
      match read_i32_at buf (fstart + 2) with
      | Ok c => if (0 <? c) && (Z.land c 0xff =? 0) && (c <=? 0xffff) then None else Some e
      | _ => None
      end
    else Some e
  | _ => None
  end.

(** [buf[i]] for a list of indexes; a missing one panics (header.rs:196-214). *)
Fixpoint pick (buf : list Z) (ix : list nat) : res (list Z) :=
  match ix with
  | [] => Ok []
  | i :: r => match nth_error buf i with
              | Some b => rmap (cons b) (pick buf r)
              | None => Panic
              end
  end.

(** header.rs:196-202 (read_kmst1201_random_header). *)
Definition read_kmst1201 (buf : list Z) : res (Z * Z * Z) :=
  rbind (pick buf [67; 26; 48; 16]%nat) (fun a =>
  rbind (pick buf [45; 7; 63; 46]%nat) (fun b =>
  rbind (pick buf [21; 25; 57; 65]%nat) (fun c =>
  Ok (le_val a, le_val b, le_val c)))).

(** header.rs:204-214 (read_kmst1202_random_header). *)
Definition read_kmst1202 (buf : list Z) : res (Z * Z * Z) :=
  rbind (pick buf [72; 36; 15; 49; 70; 71; 99; 103]%nat) (fun a =>
  rbind (pick buf [142; 140; 147; 14; 100; 123; 46; 77]%nat) (fun b =>
  rbind (pick buf [18; 9; 2; 149]%nat) (fun c =>
  Ok (le_val a, le_val b, le_val c)))).

(** header.rs:157-188 (read_pkg2_random_header_from_buf). *)
Definition read_random_header (buf : list Z) (size : Z)
    (f : list Z -> res (Z * Z * Z)) (fl : hflags) : res (header * Z) :=
  if zlen buf <? size then Err EHeader
  else
    rbind (f buf) (fun x =>
      let '(h1, h2, fs) := x in
      if fs =? zlen buf - size
      then Ok (mkHeader IV2 fs size size None h1 h2 fl, size)
      else Err EHeader).

(** header.rs:110-155 (read_from_buf); the lengths 150 and 68 are
    header.rs:191-192. *)
Definition read_header (buf : list Z) : res (header * Z) :=
  rbind (get_ident buf) (fun id =>
  match id with
  | IUnknown =>
    match read_random_header buf 150 read_kmst1202 FRandom64 with
    | Ok x => Ok x
    | Err _ => read_random_header buf 68 read_kmst1201 FRandom32
    | Panic => Panic
    | OutOfFuel => OutOfFuel
    end
  | _ =>
    rbind (read_u64_at buf 4) (fun fsize =>
    rbind (read_u32_at buf 12) (fun fstart =>
    match id with
    | IV1 =>
      let e := get_encrypted_version buf fsize fstart in
      let ds := match e with Some _ => fstart + 2 | None => fstart end in
      Ok (mkHeader IV1 fsize fstart ds e 0 0 FNone, fstart)
    | _ =>
      rbind (read_u32_at buf fstart) (fun h1 =>
      rbind (read_u32_at buf (fstart + 4)) (fun h2 =>
      Ok (mkHeader IV2 fsize fstart (fstart + 8) None h1 h2 FNone, fstart)))
    end))
  end).
