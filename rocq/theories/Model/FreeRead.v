(** reader.rs: the free functions that read from a byte slice, without keys. *)
From Verif.Model Require Import Base Utf Keys Reader.

(** read_wz_int (reader.rs:846-855). *)
Definition free_int (buf : list Z) (offset : Z) : res Z :=
  rbind (read_i8_at buf offset) (fun s => if s =? -128 then read_i32_at buf (wrap 64 (offset + 1)) else Ok s).
(** read_wz_int64, read_wz_long (reader.rs:857-870). *)
Definition free_int64 (buf : list Z) (offset : Z) : res Z :=
  rbind (read_i8_at buf offset) (fun s => if s =? -128 then read_i64_at buf (wrap 64 (offset + 1)) else Ok s).
(** read_string_by_len (reader.rs:813-818): every byte is indexed. *)
Definition free_string_by_len (buf : list Z) (len offset : Z) : res text :=
  if len =? 0 then Ok []
  else match slice buf offset (offset + len) with Some l => Ok (utf8_lossy l) | None => Panic end.

(** The loop of read_unicode_string (reader.rs:887-889) from character [i]: the position is computed in i32; [unwrap] of
    a failed read panics. *)
Fixpoint free_units (n : nat) (i off : Z) (buf : list Z) : res (list Z) :=
  match n with
  | O => Ok []
  | S n' => match read_u16_at buf (wrap 64 (sext 32 (i * 2 + off))) with
            | Ok u => rmap (cons (resolve_unicode_char u (Z.to_nat i))) (free_units n' (i + 1) off buf)
            | _ => Panic
            end
  end.
(** read_unicode_string (reader.rs:872-892); the range [0..len] is empty for a negative length. *)
Definition free_unicode (buf : list Z) (sl : Z) : res text :=
  rbind (if sl =? 127 then rmap (fun n => (n, 4)) (read_i32_at buf 0) else Ok (sl, 0)) (fun q =>
  let (len, off) := q in
  if len =? 0 then Ok [] else rmap utf16_lossy (free_units (Z.to_nat len) 0 off buf)).
(** The loop of read_ascii_string (reader.rs:909-911) from character [i]. *)
Fixpoint free_bytes (n : nat) (i off : Z) (buf : list Z) : res (list Z) :=
  match n with
  | O => Ok []
  | S n' => match read_u8_at buf (wrap 64 (sext 32 (i + off))) with
            | Ok u => rmap (cons (resolve_ascii_char u (Z.to_nat i))) (free_bytes n' (i + 1) off buf)
            | _ => Panic
            end
  end.
(** read_ascii_string (reader.rs:894-914). *)
Definition free_ascii (buf : list Z) (sl : Z) : res text :=
  rbind (if sl =? -128 then rmap (fun n => (n, 4)) (read_i32_at buf 0) else Ok (- sl, 0)) (fun q =>
  let (len, off) := q in
  if len =? 0 then Ok [] else rmap utf8_lossy (free_bytes (Z.to_nat len) 0 off buf)).
(** read_wz_string (reader.rs:820-831). *)
Definition free_string (buf : list Z) : res text :=
  rbind (read_i8_at buf 0) (fun s =>
  if s =? 0 then Ok []
  else if 0 <? s then free_unicode (tl buf) s else free_ascii (tl buf) s).
(** read_wz_string_block (reader.rs:833-844): slicing behind the end panics. *)
Definition free_string_block (buf : list Z) (offset : Z) : res text :=
  rbind (read_u8_at buf 0) (fun t =>
  if (t =? 0) || (t =? 0x73) then free_string (tl buf)
  else if (t =? 1) || (t =? 0x1B) then
    rbind (read_i32_at buf 1) (fun a =>
    let p := wrap 64 (wrap 64 a + offset) in
    match slice buf p (zlen buf) with Some l => free_string l | None => Panic end)
  else Ok []).
