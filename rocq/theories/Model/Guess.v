(** Finding the string key of a file: util/string_decryptor/mod.rs, util/version/mod.rs and the opening of
    single images (wz_image.rs). *)
From Coq Require String Ascii.
From Verif.Model Require Import Base Utf Keys Reader WzStr Header Offset VersionPkg1 VersionPkg2 Image Directory Media.
Import String.StringSyntax.
Local Open Scope rd_scope.

(** util/version/mod.rs:25-51 (WzMapleVersion); the versions that behave alike everywhere are one. *)
Inductive mversion := MGMS | MEMS | MBMS | MKMST1198 | MKMST1199 | MOther.
(** util/version/mod.rs:9-15 (get_iv_by_maple_version). *)
Definition iv_of_version (v : mversion) : list Z :=
  match v with MGMS => WZ_GMSIV | MEMS => WZ_MSEAIV | _ => [0; 0; 0; 0] end.
(** util/version/mod.rs:17-23 (get_key_by_maple_version). *)
Definition key_of_version (v : mversion) : Z :=
  match v with MKMST1198 => 0xDEADBEEF | MKMST1199 => 0x6D4C3B2A | _ => 0 end.

(** A decryptor by what decides its key stream: an [EcbDecryptor] by its IV, a [Pkg2Decryptor] by its eight
    key bytes (string_decryptor/mod.rs:16-26, pkg2_decryptor.rs:5-9). *)
Inductive decr := DEcb (iv : list Z) | DPkg2 (keys : list Z).
(** [is_pkg2] (ecb_decryptor.rs:72-74, pkg2_decryptor.rs:55-57). *)
Definition is_pkg2 (d : decr) : bool := match d with DPkg2 _ => true | _ => false end.
(** [Pkg2Decryptor::default] (pkg2_decryptor.rs:11-19). *)
Definition pkg2_default : decr := DPkg2 (repeat 0 8).
(** string_decryptor/mod.rs:212-222 (get_decryptor_by_version). *)
Definition decr_of_version (v : mversion) : decr :=
  match v with
  | MGMS => DEcb (iv_of_version MGMS)
  | MEMS => DEcb (iv_of_version MEMS)
  | MKMST1198 => DPkg2 (pkg2_keys (key_of_version MKMST1198))
  | MKMST1199 => pkg2_default
  | _ => DEcb [0; 0; 0; 0]
  end.

(** [unwrap_or(WzHeader::default())] around reading the header (reader.rs:184-187, 302, header.rs:26-42). *)
Definition header_of (buf : list Z) : res header :=
  match read_header buf with
  | Ok (h, _) => Ok h
  | Err _ => Ok (mkHeader IUnknown 0 0 0 None 0 0 FNone)
  | Panic => Panic
  | OutOfFuel => OutOfFuel
  end.

(** A reader whose decryptor leaves the bytes alone: [EcbDecryptor::from_iv([0; 4])]
    (string_decryptor/mod.rs:48-49, 96-97). *)
Definition plain_rd (buf : list Z) : rd := mkRd buf (fun _ => 0) (fun _ => 0).

(** string_decryptor/mod.rs:47-91 (try_get_first_wz_name_meta).  [data_start + str_offset as usize] and
    [offset + 1] wrap. *)
Definition first_meta (buf : list Z) : res smeta :=
  let r := plain_rd buf in
  rbind (header_of buf) (fun h =>
  fst ((do n <- read_wz_int r;
        do n <- match hd_ident h with
                | IV1 => if (n <? 0) || (1000000 <? n) then fail EDecrypt else ret n
                | IV2 =>
                  do p <- get_pos;
                  do t <- lift (read_u8_at buf p);
                  match dtype_of t with DDir | DImage => ret 1 | _ => fail EDecrypt end
                | IUnknown => ret n
                end;
        if n =? 0 then fail EDecrypt
        else
          do b <- read_u8 r;
          match dtype_of b with
          | DMeta =>
            do so <- read_i32 r;
            let off := wrap 64 (hd_data_start h + wrap 64 so) in
            read_wz_string_meta_at r (wrap 64 (off + 1))
          | DDir | DImage => read_wz_string_meta r
          | _ => fail EDecrypt
          end) (hd_data_start h))).

(** string_decryptor/mod.rs:93-121 (try_get_first_wz_name_pkg2_meta_from_wz_file). *)
Definition first_pkg2_meta (buf : list Z) : res smeta :=
  let r := plain_rd buf in
  rbind (header_of buf) (fun h =>
  match hd_ident h with
  | IV2 =>
    fst ((do n <- read_wz_int r;
          do t <- read_u8 r;
          if t =? 128 then
            do p <- get_pos;
            seek (wrap 64 (p - 1)) ;;
            do x <- read_wz_int r;
            if x =? n then ret meta_empty else fail EDecrypt
          else read_pkg2_dir_meta r) (hd_data_start h))
  | _ => Err EDecrypt
  end).

Section guess.
  (** Oracle: the key stream of [EcbDecryptor::from_iv(iv)] (ecb_decryptor.rs:39-47, 97-156).  The decryptors are
      shared and grow, but yield one stream per IV, nothing for the zero IV (Props/P_Keys.v). *)
  Variable stream : list Z -> nat -> Z.

  (** The reader [WzSliceReader::new] makes of a decryptor (reader.rs:285-300) and [WzReader] with
      [with_existing_keys] (reader.rs:204-216). *)
  Definition reader_of (buf : list Z) (d : decr) : rd :=
    match d with
    | DEcb iv => mkRd buf (stream iv) (stream iv)
    | DPkg2 keys => mkRd buf (stream [0; 0; 0; 0]) (fun i => nth (i mod 8) keys 0)
    end.

  (** string_decryptor/mod.rs:123-140 (verify_decryptor_from_wz_file_with_meta); the header of this reader is not
      looked at. *)
  Definition verify_with_meta (buf : list Z) (d : decr) (m : smeta) : res unit :=
    rbind (header_of buf) (fun _ =>
    rbind (try_resolve_meta (reader_of buf d) (sm_type m) (sm_off m) (sm_len m)) (fun name =>
    if is_ascii name then Ok tt else Err EDecrypt)).
  (** string_decryptor/mod.rs:142-148 (verify_decryptor_from_wz_file). *)
  Definition verify_decr (buf : list Z) (d : decr) : res unit :=
    rbind (first_meta buf) (verify_with_meta buf d).

  (** The first decryptor that can be verified (string_decryptor/mod.rs:161-169, 178-184). *)
  Fixpoint first_verified (buf : list Z) (m : smeta) (ds : list decr) : res (option decr) :=
    match ds with
    | [] => Ok None
    | d :: t =>
      match verify_with_meta buf d m with
      | Ok _ => Ok (Some d)
      | Err _ => first_verified buf m t
      | Panic => Panic
      | OutOfFuel => OutOfFuel
      end
    end.
  (** [.ok().or(Some(WzStringMeta::empty()))] and the test for an empty name (string_decryptor/mod.rs:157-161,
      173-177). *)
  Definition try_all (buf : list Z) (m : res smeta) (ds : list decr) : res (option decr) :=
    match m with
    | Ok m => match sm_type m with SEmpty => Ok None | _ => first_verified buf m ds end
    | Err _ => Ok None
    | Panic => Panic
    | OutOfFuel => OutOfFuel
    end.
  (** string_decryptor/mod.rs:150-188 (guess_decryptor_from_wz_file). *)
  Definition guess_decr (buf : list Z) : res (option decr) :=
    rbind (try_all buf (first_meta buf) (map decr_of_version [MBMS; MGMS; MEMS])) (fun o =>
    match o with
    | Some d => Ok (Some d)
    | None => try_all buf (first_pkg2_meta buf) (map decr_of_version [MKMST1198])
    end).

  (** util/version/mod.rs:71-79 (verify_iv_from_wz_img); an error while reading is the empty name. *)
  Definition verify_img (buf iv : list Z) : res bool :=
    match fst (read_wz_string (mkRd buf (stream iv) (stream iv)) 1) with
    | Ok t => Ok (text_eqb t (txt "Property"))
    | Err _ => Ok (text_eqb [] (txt "Property"))
    | Panic => Panic
    | OutOfFuel => OutOfFuel
    end.
  (** util/version/mod.rs:94-101 (the loop of guess_iv_from_wz_img). *)
  Fixpoint first_img_iv (buf : list Z) (ivs : list (list Z)) : res (option (list Z)) :=
    match ivs with
    | [] => Ok None
    | iv :: t => rbind (verify_img buf iv) (fun b => if b then Ok (Some iv) else first_img_iv buf t)
    end.
  (** util/version/mod.rs:81-102 (guess_iv_from_wz_img): [buf[0]] panics on an empty buffer. *)
  Definition guess_img (buf : list Z) : res (option (list Z)) :=
    match buf with
    | [] => Panic
    | b :: _ =>
      if negb (b =? 0x73) then Ok None
      else first_img_iv buf (map iv_of_version [MGMS; MEMS; MBMS])
    end.
  (** wz_image.rs:83-116 (WzImage::from_file) on the content of the file: the IV of its reader. *)
  Definition image_open (buf : list Z) (iv : option (list Z)) : res (list Z) :=
    match iv with
    | Some iv => rbind (verify_img buf iv) (fun b => if b then Ok iv else Err EWrongVersion)
    | None => rbind (guess_img buf) (fun o => match o with Some iv => Ok iv | None => Err (EOther 40) end)
    end.

  (** util/version/mod.rs:106-169 (verify_iv_from_wz_file): reads the same name as [first_meta] (the code is repeated
      there) but takes texts that are not ASCII. *)
  Definition verify_iv_file (buf iv : list Z) : res unit :=
    rbind (first_meta buf) (fun m =>
    rbind (try_resolve_meta (reader_of buf (DEcb iv)) (sm_type m) (sm_off m) (sm_len m)) (fun _ => Ok tt)).
  (** util/version/mod.rs:178-183 (the loop of guess_iv_from_wz_file). *)
  Fixpoint first_file_iv (buf : list Z) (ivs : list (list Z)) : res (option (list Z)) :=
    match ivs with
    | [] => Ok None
    | iv :: t =>
      match verify_iv_file buf iv with
      | Ok _ => Ok (Some iv)
      | Err _ => first_file_iv buf t
      | Panic => Panic
      | OutOfFuel => OutOfFuel
      end
    end.
  (** util/version/mod.rs:171-186 (guess_iv_from_wz_file). *)
  Definition guess_iv_file (buf : list Z) : res (option (list Z)) :=
    first_file_iv buf (map iv_of_version [MBMS; MGMS; MEMS]).
End guess.
