(** reader.rs: random access reads, the cursor reader, strings. *)
From Verif.Model Require Import Base Utf Keys.
Local Open Scope rd_scope.

(** A reader over a buffer (reader.rs:35-40, 66-75).  The shared mutable
    decryptors are represented by the key streams they produce ([rd_ks] for
    [keys], [rd_pks] for [pkg2_keys]); Props/Keys.v proves that the stateful
    decryptors behave like these streams whatever their history. *)
Record rd := mkRd { rd_buf : list Z; rd_ks : nat -> Z; rd_pks : nat -> Z }.

(** Data XORed with a key stream starting at key index [i]: what
    [get_decrypt_slice] returns (reader.rs:925-945). *)
Fixpoint xor_ks (ks : nat -> Z) (i : nat) (l : list Z) : list Z :=
  match l with [] => [] | b :: r => Z.lxor b (ks i) :: xor_ks ks (S i) r end.

(** reader.rs:633-701 and 721-765, scroll [pread_with]: error unless all [n]
    bytes are inside the buffer. *)
Definition read_at (n : Z) (buf : list Z) (pos : Z) : res Z :=
  match slice buf pos (pos + n) with Some l => Ok (le_val l) | None => Err ERead end.
(** reader.rs:635-640, 727-729, 781-783. *)
Definition read_u8_at := read_at 1.
(** reader.rs:642-647, 731-733, 785-787. *)
Definition read_u16_at := read_at 2.
(** reader.rs:649-654, 735-737, 789-791. *)
Definition read_u32_at := read_at 4.
(** reader.rs:656-661, 739-741, 793-795. *)
Definition read_u64_at := read_at 8.
(** [Result::map] (reader.rs:128-182). *)
Definition rmap {A B} (f : A -> B) (r : res A) : res B := rbind r (fun a => Ok (f a)).
(** reader.rs:663-668, 743-745, 797-799. *)
Definition read_i8_at buf pos := rmap (sext 8) (read_at 1 buf pos).
(** reader.rs:670-675, 747-749, 801-803. *)
Definition read_i16_at buf pos := rmap (sext 16) (read_at 2 buf pos).
(** reader.rs:677-682, 751-753, 805-807. *)
Definition read_i32_at buf pos := rmap (sext 32) (read_at 4 buf pos).
(** reader.rs:684-689, 755-757, 809-811. *)
Definition read_i64_at buf pos := rmap (sext 64) (read_at 8 buf pos).

(** reader.rs:356-425: read at the cursor, then advance by the width even if
    the read failed. *)
Definition cur_read {A} (n : Z) (f : list Z -> Z -> res A) (r : rd) : R A :=
  fun p => (f (rd_buf r) p, wrap 64 (p + n)).
(** reader.rs:357-362. *)
Definition read_u8 := cur_read 1 read_u8_at.
(** reader.rs:364-369. *)
Definition read_u16 := cur_read 2 read_u16_at.
(** reader.rs:371-376. *)
Definition read_u32 := cur_read 4 read_u32_at.
(** reader.rs:378-383. *)
Definition read_u64 := cur_read 8 read_u64_at.
(** reader.rs:385-390. *)
Definition read_i8 := cur_read 1 read_i8_at.
(** reader.rs:392-397. *)
Definition read_i16 := cur_read 2 read_i16_at.
(** reader.rs:399-404. *)
Definition read_i32 := cur_read 4 read_i32_at.
(** reader.rs:406-411. *)
Definition read_i64 := cur_read 8 read_i64_at.
(** reader.rs:413-418: floats are kept as their bit patterns. *)
Definition read_float := read_u32.
(** reader.rs:420-425: kept as the bit pattern. *)
Definition read_double := read_u64.

(** reader.rs:341-343. *)
Definition seek (pos : Z) : R unit := fun _ => (Ok tt, pos).
(** reader.rs:345-347. *)
Definition skip (n : Z) : R unit := fun p => (Ok tt, wrap 64 (p + n)).

(** reader.rs:608-616. *)
Definition read_wz_int (r : rd) : R Z :=
  do s <- read_i8 r;
  if s =? -128 then read_i32 r else ret s.
(** reader.rs:618-630. *)
Definition read_wz_int64 (r : rd) : R Z :=
  do s <- read_i8 r;
  if s =? -128 then read_i64 r else ret s.

(** property/string.rs:23-29. *)
Inductive stype := SAscii | SUnicode | SPkg2Dir | SEmpty.

(** property/string.rs:39-45. *)
Record smeta := mkMeta { sm_off : Z; sm_len : Z; sm_type : stype }.
(** property/string.rs:48-98 (WzStringMeta::empty). *)
Definition meta_empty := mkMeta 0 0 SEmpty.

(** reader.rs:917-919: [i as u8] wraps, [wrapping_add(0xAA)]. *)
Definition resolve_ascii_char (c : Z) (i : nat) : Z :=
  Z.lxor c (wrap 8 (wrap 8 (Z.of_nat i) + 0xAA)).
(** reader.rs:921-923. *)
Definition resolve_unicode_char (c : Z) (i : nat) : Z :=
  Z.lxor c (wrap 16 (wrap 16 (Z.of_nat i) + 0xAAAA)).

(** [iter().enumerate().map(..)] (reader.rs:104-109, 113-118). *)
Fixpoint mapi_from {A B} (f : A -> nat -> B) (i : nat) (l : list A) : list B :=
  match l with [] => [] | x :: r => f x i :: mapi_from f (S i) r end.

(** [chunks(2)] read as little-endian u16; an odd tail panics ([chunk[1]]),
    reader.rs:104-107, 122-125. *)
Fixpoint chunks_u16 (l : list Z) : res (list Z) :=
  match l with
  | [] => Ok []
  | [_] => Panic
  | a :: b :: r => rmap (cons (a + 256 * b)) (chunks_u16 r)
  end.

(** reader.rs:708-712, 767-771 (get_decrypt_slice). *)
Definition get_decrypt_slice (r : rd) (a b : Z) : res (list Z) :=
  match slice (rd_buf r) a b with
  | Some l => Ok (xor_ks (rd_ks r) 0 l)
  | None => Err EOob
  end.
(** reader.rs:714-718, 773-777 (get_pkg2_decrypt_slice). *)
Definition get_pkg2_decrypt_slice (r : rd) (a b : Z) : res (list Z) :=
  match slice (rd_buf r) a b with
  | Some l => Ok (xor_ks (rd_pks r) 0 l)
  | None => Err EOob
  end.

(** reader.rs:100-110. *)
Definition resolve_unicode_raw (r : rd) (off len : Z) : res (list Z) :=
  rbind (get_decrypt_slice r off (wrap 64 (off + len)))
        (fun d => rmap (mapi_from resolve_unicode_char 0) (chunks_u16 d)).
(** reader.rs:111-119. *)
Definition resolve_ascii_raw (r : rd) (off len : Z) : res (list Z) :=
  rmap (mapi_from resolve_ascii_char 0) (get_decrypt_slice r off (wrap 64 (off + len))).
(** reader.rs:120-127. *)
Definition resolve_pkg2_dir_raw (r : rd) (off len : Z) : res (list Z) :=
  rbind (get_pkg2_decrypt_slice r off (wrap 64 (off + len))) chunks_u16.

(** reader.rs:128-154 (resolve_wz_string_meta). *)
Definition resolve_meta (r : rd) (t : stype) (off len : Z) : res text :=
  match t with
  | SEmpty => Ok []
  | SUnicode => rmap utf16_lossy (resolve_unicode_raw r off len)
  | SAscii => rmap utf8_lossy (resolve_ascii_raw r off len)
  | SPkg2Dir => rmap utf16_lossy (resolve_pkg2_dir_raw r off len)
  end.

(** reader.rs:155-182 (try_resolve_wz_string_meta). *)
Definition try_resolve_meta (r : rd) (t : stype) (off len : Z) : res text :=
  match t with
  | SEmpty => Ok []
  | SUnicode => rbind (resolve_unicode_raw r off len)
                  (fun l => match utf16_strict l with Some s => Ok s | None => Err EUtf16 end)
  | SAscii => rbind (resolve_ascii_raw r off len)
                  (fun l => match utf8_strict l with Some s => Ok s | None => Err EUtf8 end)
  | SPkg2Dir => rbind (resolve_pkg2_dir_raw r off len)
                  (fun l => match utf16_strict l with Some s => Ok s | None => Err EUtf16 end)
  end.

(** reader.rs:92-99. *)
Definition string_type (t : Z) : stype :=
  if t =? 0 then SEmpty else if 0 <? t then SUnicode else SAscii.

(** reader.rs:427-433. *)
Definition unicode_str_len (r : rd) (sl : Z) : R Z :=
  if sl =? 127 then read_i32 r else ret sl.
(** reader.rs:435-441; negating -127..-1 cannot overflow. *)
Definition ascii_str_len (r : rd) (sl : Z) : R Z :=
  if sl =? -128 then read_i32 r else ret (- sl).

(** reader.rs:442-457: [len * 2] wraps in i32, then is cast to usize. *)
Definition read_unicode_string (r : rd) (sl : Z) : R text :=
  do len <- unicode_str_len r sl;
  if len =? 0 then ret []
  else
    let n := wrap 64 (sext 32 (len * 2)) in
    do p <- get_pos;
    do s <- lift (resolve_meta r SUnicode p n);
    skip n ;; ret s.

(** reader.rs:458-469. *)
Definition read_ascii_string (r : rd) (sl : Z) : R text :=
  do len <- ascii_str_len r sl;
  let n := wrap 64 len in
  if n =? 0 then ret []
  else
    do p <- get_pos;
    do s <- lift (resolve_meta r SAscii p n);
    skip n ;; ret s.

(** reader.rs:544-555. *)
Definition read_wz_string (r : rd) : R text :=
  do sl <- read_i8 r;
  match string_type sl with
  | SEmpty => ret []
  | SUnicode => read_unicode_string r sl
  | _ => read_ascii_string r sl
  end.

(** reader.rs:480-518: [as u32 * 2] wraps in u32; the ASCII long form skips
    [length as usize] of a signed length. *)
Definition read_wz_string_meta (r : rd) : R smeta :=
  do sl <- read_i8 r;
  match string_type sl with
  | SEmpty => ret meta_empty
  | SUnicode =>
    if sl =? 127 then
      do n <- read_i32 r;
      let len := wrap 32 (wrap 32 n * 2) in
      do p <- get_pos;
      skip len ;; ret (mkMeta p len SUnicode)
    else
      let len := sl * 2 in
      do p <- get_pos;
      skip len ;; ret (mkMeta p len SUnicode)
  | _ =>
    if sl =? -128 then
      do n <- read_i32 r;
      do p <- get_pos;
      skip (wrap 64 n) ;; ret (mkMeta p (wrap 32 n) SAscii)
    else
      let len := - sl in
      do p <- get_pos;
      skip len ;; ret (mkMeta p len SAscii)
  end.

(** reader.rs:520-530: [(-len) as usize] on i8, so -128 (negating to itself in
    release builds) becomes a huge usize; times 2 wraps. *)
Definition read_pkg2_dir_meta (r : rd) : R smeta :=
  do len <- read_i8 r;
  if 0 <=? len then ret meta_empty
  else
    let n := wrap 64 (wrap 64 (sext 8 (- len)) * 2) in
    do p <- get_pos;
    skip n ;; ret (mkMeta p (wrap 32 n) SPkg2Dir).
(** reader.rs:532-542. *)
Definition read_pkg2_u64_dir_meta (r : rd) : R smeta :=
  do len <- read_i16 r;
  if 0 <=? len then ret meta_empty
  else
    let n := wrap 64 (wrap 64 (sext 16 (- len)) * 2) in
    do p <- get_pos;
    skip n ;; ret (mkMeta p (wrap 32 n) SPkg2Dir).
(** reader.rs:557-570. *)
Definition read_wz_string_pkg2_dir (r : rd) : R text :=
  do len <- read_i8 r;
  if 0 <=? len then ret []
  else
    let n := wrap 64 (wrap 64 (sext 8 (- len)) * 2) in
    do p <- get_pos;
    do l <- lift (resolve_pkg2_dir_raw r p n);
    skip n ;; ret (utf16_lossy l).

(** save_pos / restore_pos around a read elsewhere (reader.rs:348-355); the
    single save slot is never nested, so it is the caller's position. *)
Definition at_offset {A} (off : Z) (m : R A) : R A := fun p => (fst (m off), p).

(** reader.rs:572-580. *)
Definition read_wz_string_at_offset (r : rd) (off : Z) : R text := at_offset off (read_wz_string r).
(** reader.rs:471-478. *)
Definition read_wz_string_meta_at (r : rd) (off : Z) : R smeta := at_offset off (read_wz_string_meta r).

(** reader.rs:582-593. *)
Definition read_wz_string_block (r : rd) (offset : Z) : R text :=
  do t <- read_u8 r;
  if (t =? 0) || (t =? 0x73) then read_wz_string r
  else if (t =? 1) || (t =? 0x1B) then
    do a <- read_i32 r;
    read_wz_string_at_offset r (wrap 64 (offset + wrap 64 a))
  else ret [].

(** reader.rs:595-606. *)
Definition read_wz_string_block_meta (r : rd) (offset : Z) : R smeta :=
  do t <- read_u8 r;
  if (t =? 0) || (t =? 0x73) then read_wz_string_meta r
  else if (t =? 1) || (t =? 0x1B) then
    do a <- read_i32 r;
    read_wz_string_meta_at r (wrap 64 (offset + wrap 64 a))
  else ret meta_empty.

(** property/string.rs:160-164 (get_string). *)
Definition get_string (r : rd) (m : smeta) : res text :=
  resolve_meta r (sm_type m) (sm_off m) (sm_len m).
