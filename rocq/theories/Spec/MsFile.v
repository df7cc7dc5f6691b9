(** The layout of .ms archives: header, entry table, images. *)
From Coq Require Import ZArith List Bool.
From Verif.Spec Require Import Wire Stream StrWire PropWire Media Snow2 Ms.
Import ListNotations.
Open Scope Z_scope.

Definition len {A} (l : list A) : Z := Z.of_nat (length l).
(** ASCII capitals made small. *)
Definition small (c : Z) : Z := if (65 <=? c) && (c <=? 90) then c + 32 else c.
Definition total (bs : list Z) : Z := fold_right Z.add 0 bs.
(** Element [i] of a list repeated for ever. *)
Definition around (bs : list Z) (i : nat) : Z := nth (i mod length bs) bs 0.
(** The sum of the little-endian 16-bit words. *)
Fixpoint sum16 (l : list Z) : Z :=
  match l with
  | a :: b :: r => a + 256 * b + sum16 r
  | _ => 0
  end.

(** Version 1.  [nb], [fb]: the UTF-8 of the small file name without and with the salt.  The header key: *)
Definition head_key (fb : list Z) : list Z := map (fun i => (around fb i + Z.of_nat i) mod 256) (seq 0 16).
(** Random bytes, the salt length and the salt hidden with them, then twelve bytes under the header key.
    [sum] is what the hash is checked against, less version and count. *)
Definition head1 (buf file salt : list Z) (hash version count sum table : Z) : Prop :=
  exists nb fb rand n0 n1 n2 n3 hidden pad enc,
    let name := map small file in
    let p := total nb mod 312 + 30 in
    let q := p + 4 + 2 * len salt in
    utf8 name nb /\ utf8 (name ++ salt) fb /\ name <> [] /\
    Forall (fun c => 0 <= c < 256) salt /\ len salt < 128 /\ len salt <= p /\
    at_ buf 0 p rand /\
    at_ buf p (p + 4) [n0; n1; n2; n3] /\ n0 = Z.lxor (len salt) (nth 0 rand 0) /\
    at_ buf (p + 4) q hidden /\
    (forall i, (i < length salt)%nat -> nth (2 * i) hidden 0 = Z.lxor (nth i salt 0) (nth i rand 0)) /\
    i32 hash /\ 0 <= version < 256 /\ i32 count /\ length pad = 3%nat /\
    added (ms_stream (head_key fb)) 0 (enc_le 4 hash ++ [version] ++ enc_le 4 count ++ pad) enc /\
    at_ buf q (q + 12) enc /\
    sum = n0 + 2 ^ 8 * n1 + 2 ^ 16 * n2 + 2 ^ 24 * n3 + sum16 hidden /\
    table = q + 9 + (3 * total nb) mod 212 + 33.
Definition hash_fits (hash version count sum : Z) : Prop := (hash - (sum + version + count)) mod 2 ^ 32 = 0.

(** An entry of the table. *)
Record meta : Type := Meta {
  m_name : list Z; m_sum : Z; m_flags : Z; m_start : Z; m_size : Z; m_aligned : Z;
  m_u1 : Z; m_u2 : Z; m_key : list Z; m_u3 : Z; m_u4 : Z }.
Definition meta_ok (m : meta) : Prop :=
  unicode (m_name m) /\ m_name m <> [] /\ len (units16 (m_name m)) < 2 ^ 30 /\
  i32 (m_sum m) /\ i32 (m_flags m) /\ 0 <= m_start m < 2 ^ 31 /\ 0 <= m_size m <= m_aligned m /\ m_aligned m < 2 ^ 31 /\
  i32 (m_u1 m) /\ i32 (m_u2 m) /\ length (m_key m) = 16%nat /\ Forall (fun b => 0 <= b < 256) (m_key m) /\
  i32 (m_u3 m) /\ i32 (m_u4 m).
Definition pieces1 (m : meta) : list piece :=
  [Number (len (units16 (m_name m))); Words (m_name m); Number (m_sum m); Number (m_flags m); Number (m_start m);
   Number (m_size m); Number (m_aligned m); Number (m_u1 m); Number (m_u2 m); Raw (m_key m)].
(** The key of the table runs from the end of the name. *)
Definition table_key (fb : list Z) (n : nat) : list Z :=
  map (fun i => (Z.of_nat i + (Z.of_nat i mod 3 + 2) * nth (length fb - 1 - i mod length fb) fb 0) mod 256) (seq 0 n).
(** The table from [table] to [stop], filled up to whole words. *)
Definition table1 (buf fb : list Z) (table stop : Z) (ms : list meta) : Prop :=
  exists rest stored,
    added (ms_stream (table_key fb 16)) 0 (stream (flat_map pieces1 ms) ++ rest) stored /\
    (length rest < 4)%nat /\ (length (stream (flat_map pieces1 ms) ++ rest) mod 4 = 0)%nat /\
    at_ buf table stop stored.
(** The first multiple of 1024 from [stop] on. *)
Definition data_from (stop from : Z) : Prop := from mod 1024 = 0 /\ stop <= from < stop + 1024.

(** FNV-1a over the characters of the salt, and its decimal digits. *)
Definition fnv (t : list Z) : Z := fold_left (fun h c => (Z.lxor h c * 16777619) mod 2 ^ 32) t 2166136261.
Definition decimal (ds : list Z) (n : Z) : Prop :=
  Forall (fun d => 0 <= d < 10) ds /\ fold_left (fun a d => 10 * a + d) ds 0 = n /\
  (ds = [0] \/ exists d r, ds = d :: r /\ d <> 0).
(** Byte [i] of the key of an image, from the digits, the key in the entry and byte [i] of the name. *)
Definition image_key_byte (ds ekey : list Z) (c : Z) (i : nat) : Z :=
  let d j := around ds (i + j) in
  let j := Z.of_nat i in
  (j + c * (d 0%nat mod 2 + nth (Z.to_nat ((d 2%nat + j) mod 16)) ekey 0 + (d 1%nat + j) mod 5)) mod 256.
Definition image_key1 (ds ekey name : list Z) : list Z :=
  map (fun i => image_key_byte ds ekey (around name i) i) (seq 0 16).
(** An image: hidden, then its first 1024 bytes hidden again. *)
Definition image1 (key plain stored : list Z) : Prop :=
  exists once head,
    added (ms_stream key) 0 plain once /\ added (ms_stream key) 0 (firstn 1024 once) head /\
    stored = head ++ skipn 1024 once.

(** An archive with these images. *)
Definition image_at (buf salt : list Z) (from : Z) (m : meta) (image : list Z) : Prop :=
  exists ds name filler stored,
    decimal ds (fnv salt) /\ utf8 (m_name m) name /\ len image = m_size m /\ len (image ++ filler) = m_aligned m /\
    Forall (fun b => 0 <= b < 256) (image ++ filler) /\
    image1 (image_key1 ds (m_key m) name) (image ++ filler) stored /\
    at_ buf (from + 1024 * m_start m) (from + 1024 * m_start m + m_aligned m) stored.
Definition archive1 (buf file : list Z) (images : list (meta * list Z)) (from : Z) : Prop :=
  exists salt fb hash sum table stop,
    head1 buf file salt hash 2 (len images) sum table /\ hash_fits hash 2 (len images) sum /\
    utf8 (map small file ++ salt) fb /\
    Forall meta_ok (map fst images) /\ table1 buf fb table stop (map fst images) /\
    data_from stop from /\ Forall (fun p => image_at buf salt from (fst p) (snd p)) images.
