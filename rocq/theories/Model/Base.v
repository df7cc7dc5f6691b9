(** Machine integers, buffers and results shared by every model file. *)
From Coq Require Export ZArith List Bool.
Export ListNotations.
Open Scope Z_scope.

(** Unsigned machine integers of [n] bits: Rust's [as uN] and (release profile)
    wrapping arithmetic.  Used for every [wrapping_*] call and every unchecked
    [+], [-], [*] of /repo (the crate is modelled with overflow checks off). *)
Definition wrap (n x : Z) : Z := x mod 2 ^ n.

(** Two's complement reading of the low [n] bits: Rust's [as iN]. *)
Definition sext (n x : Z) : Z :=
  let y := wrap n x in if y <? 2 ^ (n - 1) then y else y - 2 ^ n.

(** [u32::rotate_left] (util/offset.rs:68,91,116,142,165; version/pkg2.rs);
    [x] is a 32-bit value. *)
Definition rotl32 (x k : Z) : Z :=
  let s := k mod 32 in
  Z.lor (wrap 32 (Z.shiftl x s)) (Z.shiftr x (32 - s)).

(** Bitwise not of a 32-bit value ([!x] in util/offset.rs:87 ...). *)
Definition not32 (x : Z) : Z := 2 ^ 32 - 1 - x.

(** [Vec::len] / slice [len()] as used throughout reader.rs (e.g. reader.rs:704-706). *)
Definition zlen {A} (l : list A) : Z := Z.of_nat (length l).

(** [buf.get(a..b)] as used by reader.rs:233-239 and 321-326: [None] when the
    range is reversed or ends behind the buffer. *)
Definition slice {A} (buf : list A) (a b : Z) : option (list A) :=
  if (0 <=? a) && (a <=? b) && (b <=? zlen buf)
  then Some (firstn (Z.to_nat (b - a)) (skipn (Z.to_nat a) buf))
  else None.

(** Little-endian value of a byte list (scroll's [LE] reads, reader.rs:634-714). *)
Fixpoint le_val (l : list Z) : Z :=
  match l with [] => 0 | b :: r => b + 256 * le_val r end.

(** Little-endian bytes, [to_le_bytes] (property/string.rs:197, ecb_decryptor.rs:66). *)
Fixpoint le_bytes (n : nat) (x : Z) : list Z :=
  match n with O => [] | S k => x mod 256 :: le_bytes k (x / 256) end.

(** Text: a Rust [String]/[&str] as its list of Unicode scalar values. *)
Definition text := list Z.

(** One flat error type for the crate's error enums (reader.rs:13-31, parse_property.rs:12-25,
    wz_image.rs:8-28, directory.rs, file.rs, node.rs; the [#[from]] conversions
    only re-wrap).  Payloads that no modelled code inspects are dropped. *)
Inductive err : Type :=
| EDecrypt                 (* reader.rs:15  DecryptError *)
| ERead                    (* reader.rs:17  ReadError (scroll) *)
| EUtf8                    (* reader.rs:19 *)
| EUtf16                   (* reader.rs:21 *)
| EHeader                  (* reader.rs:25 *)
| EOob                     (* reader.rs:27  OutOfBounds *)
| EUnknownProp             (* parse_property.rs UnknownPropertyType *)
| EUnknownExt (name : text) (* parse_property.rs UnknownExtendedPropertyType *)
| ENotFound                (* parse_property.rs NodeNotFound / node.rs NodeNotFound *)
| EImageHeader             (* wz_image.rs:17 *)
| EWrongVersion            (* wz_image.rs:19 *)
| ELua                     (* wz_image.rs:13 *)
| EParse                   (* wz_image.rs:15 *)
| EEntryCount              (* directory.rs InvalidEntryCount *)
| EDirType                 (* directory.rs UnknownWzDirectoryType *)
| EWrongName               (* directory.rs InvalidWzName *)
| EVerify                  (* directory.rs errors raised while verifying offsets *)
| EOther (code : Z).

(** Outcome of a modelled call: Rust [Result] plus explicit panic and explicit
    exhaustion of the model's recursion fuel. *)
Inductive res (A : Type) : Type :=
| Ok (a : A)
| Err (e : err)
| Panic
| OutOfFuel.
Arguments Ok {A} _.
Arguments Err {A} _.
Arguments Panic {A}.
Arguments OutOfFuel {A}.

(** The [?] operator on [Result] (reader.rs, everywhere). *)
Definition rbind {A B} (m : res A) (f : A -> res B) : res B :=
  match m with
  | Ok a => f a
  | Err e => Err e
  | Panic => Panic
  | OutOfFuel => OutOfFuel
  end.

(** Cursor computation: the position survives errors, because the Rust cursor
    methods set [pos] before [?] returns (reader.rs:356-425). *)
Definition R (A : Type) := Z -> res A * Z.

(** [Ok(a)] of a cursor method (reader.rs:356-630). *)
Definition ret {A} (a : A) : R A := fun p => (Ok a, p).
(** [Err(e)] of a cursor method (reader.rs:356-630). *)
Definition fail {A} (e : err) : R A := fun p => (Err e, p).
(** A Rust panic inside a cursor method (reader.rs:317-330 slice indexing). *)
Definition panic {A} : R A := fun p => (Panic, p).
(** Exhausted model fuel; no counterpart in the .rs code, proved unreachable where it matters. *)
Definition out_of_fuel {A} : R A := fun p => (OutOfFuel, p).
(** Sequencing with [?] (reader.rs:356-630): the cursor keeps the position reached when the error occurred. *)
Definition bind {A B} (m : R A) (f : A -> R B) : R B :=
  fun p => match m p with
           | (Ok a, q) => f a q
           | (Err e, q) => (Err e, q)
           | (Panic, q) => (Panic, q)
           | (OutOfFuel, q) => (OutOfFuel, q)
           end.
(** A random-access call made from cursor code (reader.rs:442-469). *)
Definition lift {A} (r : res A) : R A := fun p => (r, p).
(** [self.pos.get()] (reader.rs:277-283). *)
Definition get_pos : R Z := fun p => (Ok p, p).

Declare Scope rd_scope.
Delimit Scope rd_scope with rd.
Notation "'do' x <- m ; k" := (bind m (fun x => k))
  (at level 200, x name, m at level 100, k at level 200) : rd_scope.
Notation "m ;; k" := (bind m (fun _ => k))
  (at level 100, right associativity) : rd_scope.
