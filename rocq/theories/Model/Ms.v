(** Model of the .ms archives (ms/snow2_reader.rs, chacha20_reader.rs, header.rs, file.rs, ms_image.rs). *)
From Coq Require Import ZArith List Bool.
From Verif.Model Require Import Base Utf Reader Png Snow2.
Import ListNotations.
Open Scope Z_scope.

(** [Snow2Reader] (ms/snow2_reader.rs:9-15); [sr_blen] is [buffer_len]. *)
Record sreader : Type := mkSr {
  sr_data : list Z; sr_off : Z; sr_dec : snow2; sr_buf : list Z; sr_blen : nat }.
(** [Snow2Reader::new] and setting [offset] (ms/snow2_reader.rs:18-26, ms/file.rs:95). *)
Definition sr_new (data key : list Z) (off : Z) : sreader := mkSr data off (snow2_new key) [0; 0; 0; 0] 0.
(** [self.data.pread_with::<u32>(self.offset, LE)?] with [decrypt_block], [to_le_bytes] and the advance by
    four (ms/snow2_reader.rs:47-52, 108-115). *)
Definition sr_block (s : sreader) : res (list Z * sreader) :=
  match slice (sr_data s) (sr_off s) (sr_off s + 4) with
  | None => Err ERead
  | Some w =>
    let (x, d) := decrypt_block (sr_dec s) (le_val w) in
    Ok (le_bytes 4 x, mkSr (sr_data s) (sr_off s + 4) d (sr_buf s) (sr_blen s))
  end.
(** [read_i32] (ms/snow2_reader.rs:46-68). *)
Definition sr_i32 (s : sreader) : res (Z * sreader) :=
  rbind (sr_block s) (fun p =>
  let (b, s1) := p in
  let n := sr_blen s1 in
  if (0 <? n)%nat
  then Ok (sext 32 (le_val (firstn n (sr_buf s1) ++ firstn (4 - n) b)),
           mkSr (sr_data s1) (sr_off s1) (sr_dec s1) (skipn n b ++ skipn (4 - n) (sr_buf s1)) n)
  else Ok (sext 32 (le_val b), s1)).
(** Copying [src] into [dst] at index [at_] (ms/snow2_reader.rs:90, 101-102, 115, 122). *)
Definition blit (dst : list Z) (at_ : nat) (src : list Z) : list Z :=
  firstn at_ dst ++ src ++ skipn (at_ + length src) dst.
(** The loop of [write_bytes_to] (ms/snow2_reader.rs:108-126). *)
Fixpoint sr_loop (fuel : nat) (s : sreader) (dest : list Z) (len rem : Z) : res (list Z * sreader) :=
  match fuel with
  | O => OutOfFuel
  | S f =>
    if 0 <? rem then
      rbind (sr_block s) (fun p =>
      let (b, s1) := p in
      let start := wrap 64 (len - rem) in
      let dlen := Z.to_nat (Z.min (start + 4) len - start) in
      let dest1 := blit dest (Z.to_nat start) (firstn dlen b) in
      let rem1 := rem - 4 in
      let s2 := if rem1 <? 0
                then let rest := skipn dlen b in
                     mkSr (sr_data s1) (sr_off s1) (sr_dec s1) (blit (sr_buf s1) 0 rest) (length rest)
                else s1 in
      sr_loop f s2 dest1 len rem1)
    else Ok (dest, s)
  end.
(** [write_bytes_to] (ms/snow2_reader.rs:85-129) with a destination of [len] bytes, as in both calls.  The
    copy of [buffer[len..]] into four bytes (line 96) is a panic unless [len] is 0.  Every round of the loop
    consumes four bytes of the data, hence its fuel. *)
Definition sr_write (s : sreader) (dest : list Z) (len : Z) : res (list Z * sreader) :=
  let rem := sext 32 len in
  let fuel := S (length (sr_data s)) in
  let n := sr_blen s in
  if (0 <? n)%nat then
    if len <? Z.of_nat n then if len =? 0 then Ok (dest, s) else Panic
    else sr_loop fuel (mkSr (sr_data s) (sr_off s) (sr_dec s) (sr_buf s) 0)
           (blit dest 0 (firstn n (sr_buf s))) len (sext 32 (rem - Z.of_nat n))
  else sr_loop fuel s dest len rem.
(** [read_bytes] (ms/snow2_reader.rs:78-84); a vector of more than [isize::MAX] bytes is a panic. *)
Definition sr_bytes (s : sreader) (len : Z) : res (list Z * sreader) :=
  if 2 ^ 63 <=? len then Panic else sr_write s (repeat 0 (Z.to_nat len)) len.
(** [chunks_exact(2)] and [from_le_bytes] (ms/snow2_reader.rs:71-74). *)
Fixpoint units_of (l : list Z) : list Z :=
  match l with
  | a :: b :: r => (a + 256 * b) :: units_of r
  | _ => []
  end.
(** [String::from_utf16] of these units (ms/snow2_reader.rs:76, ms/chacha20_reader.rs:61). *)
Definition text_of_units (l : list Z) : res text :=
  match utf16_strict (units_of l) with Some t => Ok t | None => Err EUtf16 end.
(** [read_utf16_string] (ms/snow2_reader.rs:69-77). *)
Definition sr_text (s : sreader) (len : Z) : res (text * sreader) :=
  rbind (sr_bytes s len) (fun p => rmap (fun t => (t, snd p)) (text_of_units (fst p))).

(** [sum_str] (ms/utils.rs:2-5): of the UTF-8 bytes. *)
Definition sum_str (t : text) : Z := fold_right Z.add 0 (utf8_enc t).
(** [str::to_ascii_lowercase] (ms/utils.rs:8-13). *)
Definition ascii_lower (t : text) : text := map (fun c => if (65 <=? c) && (c <=? 90) then c + 32 else c) t.
(** Byte [i % len] of a text (ms/header.rs:90-92, 176-177): remainder by zero for the empty text. *)
Definition cyc (t : list Z) (i : Z) : res Z :=
  if zlen t =? 0 then Panic else idx t (i mod zlen t).

(** [MsHeader] (ms/header.rs:31-46). *)
Record ms_header : Type := mkMsHeader {
  mh_salt : text; mh_name : text; mh_hash : Z; mh_version : Z; mh_count : Z;
  mh_hstart : Z; mh_estart : Z; mh_ms : Z }.

(** [MsHeader::from_ms_file] (ms/header.rs:49-132); [file] is the file name ([get_ascii_file_name] panics on
    paths without a Unicode file name). *)
Definition from_ms_file (file : text) (buf : list Z) : res ms_header :=
  let name := ascii_lower file in
  let rn := sum_str name mod 312 + 30 in
  rbind (range buf 0 rn) (fun rand =>
  rbind (read_u8_at buf rn) (fun hsl =>
  rbind (read_i32_at buf rn) (fun hsl32 =>
  rbind (idx rand 0) (fun r0 =>
  let salt_len := Z.lxor hsl r0 in
  let salt_bytes := wrap 8 (salt_len * 2) in
  let o := rn + 4 in
  rbind (range buf o (o + salt_bytes)) (fun salt =>
  rbind (traverse (fun i => rbind (idx rand i) (fun a => rbind (idx salt (i * 2)) (fun b => Ok (Z.lxor a b))))
                  (upto salt_len)) (fun salt_text =>
  let full := name ++ salt_text in
  rbind (traverse (fun i => rmap (fun b => wrap 8 (b + i)) (cyc (utf8_enc full) i)) (upto 16)) (fun key =>
  let h := o + salt_bytes in
  rbind (range buf h (h + 12)) (fun enc =>
  let dec := fst (fst (decrypt_slice (snow2_new key) enc)) in
  let hash := sext 32 (le_val (firstn 4 dec)) in
  let version := nth 4 dec 0 in
  let count := sext 32 (le_val (firstn 4 (skipn 5 dec))) in
  if negb (version =? 2) then Err (EOther 30)
  else
    let total := fold_left (fun a x => sext 32 (a + x)) (units_of salt) 0 in
    if negb (hash =? sext 32 (hsl32 + version + count + total)) then Err (EOther 31)
    else Ok (mkMsHeader salt_text full hash version count h (h + 9 + (sum_str name * 3) mod 212 + 33) 1))))))))).

(** [MsEntryMeta] with the [offset] and [block_size] of its [MsImage] (ms/ms_image.rs:12-39). *)
Record ms_entry : Type := mkEntry {
  me_salt : text; me_name : text; me_sum : Z; me_flags : Z; me_start : Z; me_size : Z; me_aligned : Z;
  me_unk1 : Z; me_unk2 : Z; me_key : list Z; me_unk3 : Z; me_unk4 : Z; me_version : Z;
  me_off : Z; me_block : Z }.
(** [MsImage::new] (ms/ms_image.rs:42-49): [as usize] sign-extends. *)
Definition ms_image (salt name : text) (sum flags start size aligned unk1 unk2 : Z) (key : list Z) (unk3 unk4 version : Z) : ms_entry :=
  mkEntry salt name sum flags start size aligned unk1 unk2 key unk3 unk4 version (wrap 64 start) (wrap 64 aligned).

(** One entry of [parse_v1] (ms/file.rs:100-129); [entry_name_len as usize * 2] wraps. *)
Definition entry_v1 (h : ms_header) (s : sreader) : res (ms_entry * sreader) :=
  rbind (sr_i32 s) (fun p => let (n, s) := p in
  rbind (sr_text s (wrap 64 (wrap 64 n * 2))) (fun p => let (name, s) := p in
  rbind (sr_i32 s) (fun p => let (sum, s) := p in
  rbind (sr_i32 s) (fun p => let (flags, s) := p in
  rbind (sr_i32 s) (fun p => let (start, s) := p in
  rbind (sr_i32 s) (fun p => let (size, s) := p in
  rbind (sr_i32 s) (fun p => let (aligned, s) := p in
  rbind (sr_i32 s) (fun p => let (unk1, s) := p in
  rbind (sr_i32 s) (fun p => let (unk2, s) := p in
  rbind (sr_write s (repeat 0 16) 16) (fun p => let (key, s) := p in
  Ok (ms_image (mh_salt h) name sum flags start size aligned unk1 unk2 key 0 0 (mh_ms h), s))))))))))).
(** The loop over the entries (ms/file.rs:99-130, 179-214); [step] reads one. *)
Fixpoint entries {S A} (step : S -> res (A * S)) (n : nat) (s : S) : res (list A * S) :=
  match n with
  | O => Ok ([], s)
  | Datatypes.S k => rbind (step s) (fun p => rmap (fun q => (fst p :: fst q, snd q)) (entries step k (snd p)))
  end.
(** Aligning the data start to 1024 bytes (ms/file.rs:132-136, 216-220). *)
Definition align1024 (o : Z) : Z :=
  let low := Z.land o 0x3FF in if negb (low =? 0) then o - low + 0x400 else o.
(** Placing an image (ms/file.rs:138-142, 222-226). *)
Definition place (data_start : Z) (e : ms_entry) : ms_entry :=
  let a := wrap 64 (data_start + wrap 64 (me_off e * 1024)) in
  mkEntry (me_salt e) (me_name e) (me_sum e) (me_flags e) (sext 32 a) (me_size e) (me_aligned e)
    (me_unk1 e) (me_unk2 e) (me_key e) (me_unk3 e) (me_unk4 e) (me_version e) a (me_block e).
(** The key of the entry table (ms/file.rs:84-89, 160-164): byte [i] from the end of the name. *)
Definition table_byte (bs : list Z) (i : Z) : res Z :=
  if zlen bs =? 0 then Panic
  else rmap (fun b => wrap 8 (i + wrap 8 ((i mod 3 + 2) * b))) (idx bs (zlen bs - 1 - i mod zlen bs)).
(** [parse_v1] (ms/file.rs:80-151) up to the making of nodes; [Vec::with_capacity] of a negative count is a
    panic. *)
Definition parse_v1 (h : ms_header) (buf : list Z) : res (list ms_entry) :=
  rbind (traverse (table_byte (utf8_enc (mh_name h))) (upto 16)) (fun key =>
  if mh_count h <? 0 then Panic
  else rbind (entries (entry_v1 h) (Z.to_nat (mh_count h)) (sr_new buf key (mh_estart h))) (fun p =>
       Ok (map (place (align1024 (sr_off (snd p)))) (fst p)))).

(** The FNV hash of the salt (ms/ms_image.rs:62-66, 118-123): over the characters. *)
Definition salt_hash (t : text) : Z :=
  fold_left (fun h c => wrap 32 (Z.lxor h c * 0x1000193)) t 0x811C9DC5.
(** [to_string] of a [u32] as digits (ms/ms_image.rs:69, 128); at most ten of them. *)
Fixpoint digits (fuel : nat) (n : Z) : list Z :=
  match fuel with
  | O => []
  | S f => if n <? 10 then [n] else digits f (n / 10) ++ [n mod 10]
  end.
(** The digits of a hash (ms/ms_image.rs:69, 128). *)
Definition hash_digits (t : text) : list Z := digits 10 (salt_hash t).
(** Byte [i] of an image key (ms/ms_image.rs:75-86, 142-155); [ch] is the byte of the name. *)
Definition img_key_byte (ds ekey : list Z) (i ch : Z) : res Z :=
  rbind (cyc ds i) (fun d0 => rbind (cyc ds (i + 1)) (fun d1 => rbind (cyc ds (i + 2)) (fun d2 =>
  rbind (idx ekey ((d2 + i) mod 16)) (fun ek =>
  Ok (wrap 8 (i + wrap 8 (ch * wrap 8 (d0 mod 2 + ek + (d1 + i) mod 5)))))))).
(** [to_wz_image_v1] (ms/ms_image.rs:60-115): the bytes of the new reader, which are [block_size] many. *)
Definition to_wz_image_v1 (buf : list Z) (e : ms_entry) : res (list Z) :=
  let bs := utf8_enc (me_name e) in
  rbind (traverse (fun i => rbind (cyc bs i) (img_key_byte (hash_digits (me_salt e)) (me_key e) i)) (upto 16)) (fun key =>
  rbind (range buf (me_off e) (wrap 64 (me_off e + me_block e))) (fun data =>
  let n := Nat.min 1024 (length data) in
  let once := fst (fst (decrypt_slice (snow2_new key) (firstn n data))) ++ skipn n data in
  let twice := fst (fst (decrypt_slice (snow2_new key) once)) in
  range twice 0 (wrap 64 (me_size e)))).

(** [MS_CHACHA20_KEY_BASE] (ms/chacha20_reader.rs:11-14). *)
Definition key_base : list Z :=
  [0x7B; 0x2F; 0x35; 0x48; 0x43; 0x95; 0x02; 0xB9; 0xAE; 0x91; 0xA6; 0xE1; 0xD8; 0xD6; 0x24; 0xB4;
   0x33; 0x10; 0x1D; 0x3D; 0xC1; 0xBB; 0xC6; 0xF4; 0xA5; 0xFE; 0xB3; 0x69; 0x6B; 0x56; 0xE4; 0x75].

Section chacha.
  (** c2_chacha's [Ietf] (used by ms/chacha20_reader.rs:34, ms/ms_image.rs:182): key, nonce and block
      counter give the 64 bytes of a key stream block.  [set_stream_param(0, n)] sets the counter. *)
  Variable block : list Z -> list Z -> Z -> list Z.

  (** [ChaCha20Reader] (ms/chacha20_reader.rs:18-24); [cr_ctr] is the counter inside [decryptor]. *)
  Record creader : Type := mkCr {
    cr_data : list Z; cr_key : list Z; cr_nonce : list Z; cr_off : Z; cr_ctr : Z; cr_boff : nat; cr_buf : list Z }.
  (** [ChaCha20Reader::new] and setting [offset] (ms/chacha20_reader.rs:27-39, ms/file.rs:174). *)
  Definition cr_new (data key nonce : list Z) (off : Z) : creader :=
    mkCr data key nonce off 0 64 (repeat 0 64).
  (** Filling the buffer (ms/chacha20_reader.rs:82-88). *)
  Definition cr_fill (c : creader) : res creader :=
    rmap (fun l => mkCr (cr_data c) (cr_key c) (cr_nonce c) (cr_off c + 64) (cr_ctr c + 1) 0
                     (map (fun p => Z.lxor (fst p) (snd p)) (combine l (block (cr_key c) (cr_nonce c) (cr_ctr c)))))
         (range (cr_data c) (cr_off c) (cr_off c + 64)).
  (** The loop of [apply_keystream] (ms/chacha20_reader.rs:81-98), giving the bytes put into [data]. *)
  Fixpoint cr_loop (fuel : nat) (c : creader) (remain : nat) : res (list Z * creader) :=
    match fuel with
    | O => OutOfFuel
    | S f =>
      if (0 <? remain)%nat then
        rbind (if (64 <=? cr_boff c)%nat then cr_fill c else Ok c) (fun c =>
        let n := Nat.min remain (64 - cr_boff c) in
        let got := firstn n (skipn (cr_boff c) (cr_buf c)) in
        rmap (fun p => (got ++ fst p, snd p))
             (cr_loop f (mkCr (cr_data c) (cr_key c) (cr_nonce c) (cr_off c) (cr_ctr c) (cr_boff c + n) (cr_buf c)) (remain - n)))
      else Ok ([], c)
    end.
  (** [apply_keystream] (ms/chacha20_reader.rs:78-103): at the end of a buffer the counter starts again. *)
  Definition cr_apply (c : creader) (len : nat) : res (list Z * creader) :=
    rmap (fun p => let c := snd p in
            (fst p, if (64 <=? cr_boff c)%nat
                    then mkCr (cr_data c) (cr_key c) (cr_nonce c) (cr_off c) 0 (cr_boff c) (cr_buf c) else c))
         (cr_loop (S len) c len).
  (** [read_bytes], [write_bytes_to] with a destination of [len] bytes (ms/chacha20_reader.rs:63-77): a slice
      from the offset must exist, though its bytes are not used. *)
  Definition cr_bytes (c : creader) (len : Z) : res (list Z * creader) :=
    rbind (range (cr_data c) (cr_off c) (wrap 64 (cr_off c + len))) (fun _ => cr_apply c (Z.to_nat len)).
  (** [read_i32] (ms/chacha20_reader.rs:47-53). *)
  Definition cr_i32 (c : creader) : res (Z * creader) :=
    rmap (fun p => (sext 32 (le_val (fst p)), snd p)) (cr_bytes c 4).
  (** [read_utf16_string] (ms/chacha20_reader.rs:54-62). *)
  Definition cr_text (c : creader) (len : Z) : res (text * creader) :=
    rbind (cr_bytes c len) (fun p => rmap (fun t => (t, snd p)) (text_of_units (fst p))).

  (** [MsHeader::from_ms_file_v2] (ms/header.rs:134-212). *)
  Definition from_ms_file_v2 (file : text) (buf : list Z) : res ms_header :=
    let name := ascii_lower file in
    let rn := sum_str name mod 312 + 30 in
    rbind (rmap (map (fun b => wrap 8 (Z.shiftr (sext 8 b) 1))) (range buf 0 rn)) (fun rand =>
    rbind (read_u8_at buf rn) (fun v =>
    rbind (idx rand 0) (fun r0 =>
    let version := Z.lxor v r0 in
    if negb (version =? 4) then Err (EOther 32) else
    rbind (read_u8_at buf (rn + 1)) (fun hsl =>
    rbind (read_i32_at buf (rn + 1)) (fun _ =>
    let salt_len := Z.lxor hsl r0 in
    let o := rn + 5 in
    rbind (range buf o (o + salt_len * 2)) (fun salt =>
    rbind (traverse (fun i => rbind (idx rand i) (fun a => rbind (idx salt (i * 2)) (fun b =>
             let a := Z.lxor a b in
             Ok (wrap 8 (wrap 8 (wrap 8 (Z.shiftl (Z.lor a 0x4B) 1) - a) - 75)))))
                    (upto salt_len)) (fun salt_text =>
    let full := name ++ salt_text in
    let h := o + salt_len * 2 in
    rbind (traverse (fun i => rbind (cyc (utf8_enc full) i) (fun b =>
             rmap (fun k => Z.lxor (wrap 8 (b + i)) k) (idx key_base i))) (upto 32)) (fun key =>
    rbind (range buf h (h + 128)) (fun data =>
    rbind (cr_i32 (cr_new data key (repeat 0 12) 0)) (fun p =>
    rbind (cr_i32 (snd p)) (fun q =>
    Ok (mkMsHeader salt_text full (fst p) version (fst q) h (h + 8 + (sum_str name * 3) mod 212 + 64) 2)))))))))))).

  (** One entry of [parse_v2] (ms/file.rs:180-213). *)
  Definition entry_v2 (h : ms_header) (c : creader) : res (ms_entry * creader) :=
    rbind (cr_i32 c) (fun p => let (n, c) := p in
    rbind (cr_text c (wrap 64 (wrap 64 n * 2))) (fun p => let (name, c) := p in
    rbind (cr_i32 c) (fun p => let (sum, c) := p in
    rbind (cr_i32 c) (fun p => let (flags, c) := p in
    rbind (cr_i32 c) (fun p => let (start, c) := p in
    rbind (cr_i32 c) (fun p => let (size, c) := p in
    rbind (cr_i32 c) (fun p => let (aligned, c) := p in
    rbind (cr_i32 c) (fun p => let (unk1, c) := p in
    rbind (cr_i32 c) (fun p => let (unk2, c) := p in
    rbind (cr_bytes c 16) (fun p => let (key, c) := p in
    rbind (cr_i32 c) (fun p => let (unk3, c) := p in
    rbind (cr_i32 c) (fun p => let (unk4, c) := p in
    Ok (ms_image (mh_salt h) name sum flags start size aligned unk1 unk2 key unk3 unk4 (mh_ms h), c))))))))))))).
  (** [parse_v2] (ms/file.rs:153-233) up to the making of nodes. *)
  Definition parse_v2 (h : ms_header) (buf : list Z) : res (list ms_entry) :=
    if mh_count h =? 0 then Ok [] else
    rbind (traverse (fun i => rbind (table_byte (utf8_enc (mh_name h)) i) (fun b =>
             rmap (fun k => Z.lxor k b) (idx key_base i))) (upto 32)) (fun key =>
    if mh_count h <? 0 then Panic
    else rbind (entries (entry_v2 h) (Z.to_nat (mh_count h)) (cr_new buf key (repeat 0 12) (mh_estart h))) (fun p =>
         Ok (map (place (align1024 (cr_off (snd p)))) (fst p)))).

  (** The mixing of the hash data (ms/ms_image.rs:163-172): byte [i] is XORed with this. *)
  Definition mix_byte (i : Z) : Z :=
    wrap 8 (- i + 11 * (i / 11) + Z.lxor (90 + 43 * i) (Z.shiftr i 2) + Z.lxor (8 * i) (17 * i)).
  (** Character [i % len] where [len] counts bytes (ms/ms_image.rs:135-140): a panic when there is none. *)
  Definition name_char (t : text) (i : Z) : res Z :=
    if zlen (utf8_enc t) =? 0 then Panic else rmap (wrap 8) (idx t (i mod zlen (utf8_enc t))).
  (** [to_wz_image_v2] (ms/ms_image.rs:117-197); [apply_keystream] XORs byte [j] with byte [j % 64] of the
      block [j / 64] after the first. *)
  Definition to_wz_image_v2 (buf : list Z) (e : ms_entry) : res (list Z) :=
    let kh := salt_hash (me_salt e) in
    let kh2 := Z.shiftr kh 1 in
    let kh3 := Z.lxor kh2 0x6C in
    rbind (traverse (fun i => rbind (name_char (me_name e) i) (fun ch =>
             rbind (img_key_byte (hash_digits (me_salt e)) (me_key e) i ch) (fun b =>
             rmap (Z.lxor b) (idx key_base i)))) (upto 32)) (fun key =>
    let mixed := map (fun p => Z.lxor (fst p) (mix_byte (snd p)))
                     (combine (le_bytes 4 kh ++ le_bytes 4 kh2 ++ le_bytes 4 kh3) (upto 12)) in
    let nonce := [0; 0; 0; 0] ++ firstn 8 mixed in
    let ctr := le_val (skipn 8 mixed) in
    rbind (range buf (me_off e) (wrap 64 (me_off e + me_block e))) (fun data =>
    let n := Nat.min 1024 (length data) in
    let clear := map (fun p => Z.lxor (snd p) (nth (fst p mod 64) (block key nonce (ctr + Z.of_nat (fst p / 64))) 0))
                     (combine (seq 0 n) (firstn n data)) ++ skipn n data in
    range clear 0 (wrap 64 (me_size e)))).

  (** [MsFile::from_file] (ms/file.rs:46-72) on the bytes of the file. *)
  Definition ms_open (file : text) (buf : list Z) : res ms_header :=
    match from_ms_file file buf with
    | Err _ => match from_ms_file_v2 file buf with Err _ => Err (EOther 33) | r => r end
    | r => r
    end.
  (** [MsFile::parse] (ms/file.rs:73-79). *)
  Definition ms_parse (h : ms_header) (buf : list Z) : res (list ms_entry) :=
    if mh_ms h =? 1 then parse_v1 h buf else if mh_ms h =? 2 then parse_v2 h buf else Err (EOther 33).
  (** [MsImage::to_wz_image] (ms/ms_image.rs:52-58). *)
  Definition to_wz_image (buf : list Z) (e : ms_entry) : res (list Z) :=
    if me_version e =? 1 then to_wz_image_v1 buf e else if me_version e =? 2 then to_wz_image_v2 buf e else Panic.
End chacha.
