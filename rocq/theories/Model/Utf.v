(** Rust's string codecs, as used by the crate through [String::from_utf8(_lossy)],
    [String::from_utf16(_lossy)], [str::bytes], [str::encode_utf16]
    (reader.rs:139-180, property/string.rs:177-229, property/lua.rs).
    These are standard library functions, modelled from their documentation
    (WHATWG/Unicode "maximal subpart" replacement for UTF-8, one U+FFFD per
    unpaired surrogate for UTF-16). *)
From Verif.Model Require Import Base.

(** U+FFFD, [char::REPLACEMENT_CHARACTER] (Rust std; used by reader.rs:139-151). *)
Definition replacement : Z := 65533.

(** Unicode scalar value: what a Rust [char] can hold (Rust std). *)
Definition is_scalar (c : Z) : bool :=
  ((0 <=? c) && (c <? 55296)) || ((57344 <=? c) && (c <=? 1114111)).

(** Byte range pattern [lo..=hi] (Rust std UTF-8 decoder, for reader.rs:144). *)
Definition inr_ (lo hi x : Z) : bool := (lo <=? x) && (x <=? hi).
(** UTF-8 continuation byte (Rust std UTF-8 decoder, for reader.rs:144). *)
Definition is_cont (b : Z) : bool := inr_ 128 191 b.

(** One decoding step of UTF-8 (Rust std, for reader.rs:144,170): [Some (Some c, rest)] a scalar, [Some (None, rest)]
    one invalid maximal subpart, [None] at the end. *)
Definition utf8_step (l : list Z) : option (option Z * list Z) :=
  match l with
  | [] => None
  | b0 :: r0 =>
    if b0 <? 128 then Some (Some b0, r0)
    else if inr_ 194 223 b0 then
      match r0 with
      | b1 :: r1 => if is_cont b1 then Some (Some ((b0 - 192) * 64 + (b1 - 128)), r1)
                    else Some (None, r0)
      | [] => Some (None, r0)
      end
    else if inr_ 224 239 b0 then
      match r0 with
      | b1 :: r1 =>
        let ok := if b0 =? 224 then inr_ 160 191 b1
                  else if b0 =? 237 then inr_ 128 159 b1
                  else is_cont b1 in
        if ok then
          match r1 with
          | b2 :: r2 => if is_cont b2
                        then Some (Some ((b0 - 224) * 4096 + (b1 - 128) * 64 + (b2 - 128)), r2)
                        else Some (None, r1)
          | [] => Some (None, r1)
          end
        else Some (None, r0)
      | [] => Some (None, r0)
      end
    else if inr_ 240 244 b0 then
      match r0 with
      | b1 :: r1 =>
        let ok := if b0 =? 240 then inr_ 144 191 b1
                  else if b0 =? 244 then inr_ 128 143 b1
                  else is_cont b1 in
        if ok then
          match r1 with
          | b2 :: r2 =>
            if is_cont b2 then
              match r2 with
              | b3 :: r3 => if is_cont b3
                            then Some (Some ((b0 - 240) * 262144 + (b1 - 128) * 4096
                                             + (b2 - 128) * 64 + (b3 - 128)), r3)
                            else Some (None, r2)
              | [] => Some (None, r2)
              end
            else Some (None, r1)
          | [] => Some (None, r1)
          end
        else Some (None, r0)
      | [] => Some (None, r0)
      end
    else Some (None, r0)
  end.

(** Iterated decoding (Rust std, for reader.rs:144,170). *)
Fixpoint utf8_go (fuel : nat) (l : list Z) : list (option Z) :=
  match fuel with
  | O => []
  | S k => match utf8_step l with
           | None => []
           | Some (c, r) => c :: utf8_go k r
           end
  end.

(** Decoded items of a byte list (Rust std, for reader.rs:144,170); every step consumes a byte, so [length l]
    steps always suffice. *)
Definition utf8_items (l : list Z) : list (option Z) := utf8_go (length l) l.

(** Lossy replacement of one item (Rust std). *)
Definition or_repl (o : option Z) : Z := match o with Some c => c | None => replacement end.

(** [String::from_utf8_lossy] (Rust std; reader.rs:144). *)
Definition utf8_lossy (l : list Z) : text := map or_repl (utf8_items l).

(** First error aborts: collecting [Result]s (Rust std). *)
Fixpoint all_some {A} (l : list (option A)) : option (list A) :=
  match l with
  | [] => Some []
  | None :: _ => None
  | Some a :: r => match all_some r with Some t => Some (a :: t) | None => None end
  end.

(** [String::from_utf8] (Rust std; reader.rs:155-182, property/lua.rs). *)
Definition utf8_strict (l : list Z) : option text := all_some (utf8_items l).

(** [char::encode_utf8] (Rust std; property/string.rs:203). *)
Definition utf8_enc_char (c : Z) : list Z :=
  if c <? 128 then [c]
  else if c <? 2048 then [192 + c / 64; 128 + c mod 64]
  else if c <? 65536 then [224 + c / 4096; 128 + (c / 64) mod 64; 128 + c mod 64]
  else [240 + c / 262144; 128 + (c / 4096) mod 64; 128 + (c / 64) mod 64; 128 + c mod 64].
(** [str::bytes] (Rust std; property/string.rs:203). *)
Definition utf8_enc (t : text) : list Z := flat_map utf8_enc_char t.

(** High surrogate (Rust std [decode_utf16]). *)
Definition is_high (u : Z) : bool := inr_ 55296 56319 u.
(** Low surrogate (Rust std [decode_utf16]). *)
Definition is_low (u : Z) : bool := inr_ 56320 57343 u.

(** [char::decode_utf16] (Rust std): an unpaired surrogate is one error; the unit after a
    lone high surrogate is decoded again. *)
Fixpoint utf16_items (l : list Z) : list (option Z) :=
  match l with
  | [] => []
  | u :: r =>
    if is_low u then None :: utf16_items r
    else if is_high u then
      match r with
      | [] => [None]
      | v :: r' => if is_low v
                   then Some ((u - 55296) * 1024 + (v - 56320) + 65536) :: utf16_items r'
                   else None :: utf16_items r
      end
    else Some u :: utf16_items r
  end.

(** [String::from_utf16_lossy] (Rust std; reader.rs:139). *)
Definition utf16_lossy (l : list Z) : text := map or_repl (utf16_items l).
(** [String::from_utf16] (Rust std; reader.rs:155-182). *)
Definition utf16_strict (l : list Z) : option text := all_some (utf16_items l).

(** One [char] of [str::encode_utf16] (Rust std; property/string.rs:185). *)
Definition utf16_enc_char (c : Z) : list Z :=
  if c <? 65536 then [c]
  else [55296 + (c - 65536) / 1024; 56320 + (c - 65536) mod 1024].
(** [str::encode_utf16] (Rust std; property/string.rs:185,218). *)
Definition utf16_enc (t : text) : list Z := flat_map utf16_enc_char t.

(** [str::is_ascii] (Rust std; property/string.rs:118). *)
Definition is_ascii (t : text) : bool := forallb (fun c => c <? 128) t.

(** [==] on strings (Rust std; e.g. wz_image.rs:132). *)
Fixpoint text_eqb (a b : text) : bool :=
  match a, b with
  | [], [] => true
  | x :: a', y :: b' => (x =? y) && text_eqb a' b'
  | _, _ => false
  end.
