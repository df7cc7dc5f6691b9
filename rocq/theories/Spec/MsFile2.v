(** The layout of .ms archives of version 2: as version 1, with ChaCha20 instead of Snow2. *)
From Coq Require Import ZArith List Bool.
From Verif.Spec Require Import Wire Stream StrWire PropWire Media Snow2 Ms MsFile.
Import ListNotations.
Open Scope Z_scope.

(** Blocks of 64 bytes for keys of 32 and nonces of 12 bytes. *)
Definition block64 (block : list Z -> list Z -> Z -> list Z) : Prop :=
  forall k n c, length k = 32%nat -> length n = 12%nat -> length (block k n c) = 64%nat.

Section cipher.
  (** The ChaCha20 block function: key, nonce, counter. *)
  Variable block : list Z -> list Z -> Z -> list Z.

  (** A stream of pieces is XORed with key stream blocks; the counter starts again at zero after a piece
      that ends on a block boundary. *)
  Fixpoint ends (p : nat) (ps : list piece) : list nat :=
    match ps with
    | [] => []
    | x :: r => let q := (p + length (piece_bytes x))%nat in q :: ends q r
    end.
  Fixpoint counter (es : list nat) (k : nat) : Z :=
    match k with
    | O => 0
    | S j => if existsb (Nat.eqb (64 * S j)) es then 0 else counter es j + 1
    end.
  Definition masked (ks : nat -> Z) (plain : list Z) : list Z :=
    map (fun j => Z.lxor (nth j plain 0) (ks j)) (seq 0 (length plain)).
  Definition mask (key nonce : list Z) (ctr : nat -> Z) (j : nat) : Z := nth (j mod 64) (block key nonce (ctr (j / 64)%nat)) 0.
  Definition sealed2 (key : list Z) (ps : list piece) (rest stored : list Z) : Prop :=
    stored = masked (mask key (repeat 0 12) (counter (ends 0 ps))) (stream ps ++ rest).

  Definition base_key : list Z :=
    [0x7B; 0x2F; 0x35; 0x48; 0x43; 0x95; 0x02; 0xB9; 0xAE; 0x91; 0xA6; 0xE1; 0xD8; 0xD6; 0x24; 0xB4;
     0x33; 0x10; 0x1D; 0x3D; 0xC1; 0xBB; 0xC6; 0xF4; 0xA5; 0xFE; 0xB3; 0x69; 0x6B; 0x56; 0xE4; 0x75].
  Definition on_base (f : nat -> Z) : list Z := map (fun i => Z.lxor (f i) (nth i base_key 0)) (seq 0 32).
  (** Halving a byte, keeping its top bit. *)
  Definition half (b : Z) : Z := b / 2 + (if b <? 128 then 0 else 128).
  Definition head_key2 (fb : list Z) : list Z := on_base (fun i => (around fb i + Z.of_nat i) mod 256).
  Definition table_key2 (fb : list Z) : list Z := on_base (fun i => nth i (table_key fb 32) 0).

  (** The header: random bytes, the version, the salt length and the salt hidden with the halves of them and
      0x4B, then 128 bytes whose first eight hold hash and count. *)
  Definition head2 (buf file salt : list Z) (hash version count table : Z) : Prop :=
    exists nb fb rand n0 n1 n2 n3 hidden more enc,
      let name := map small file in
      let p := total nb mod 312 + 30 in
      let q := p + 5 + 2 * len salt in
      utf8 name nb /\ utf8 (name ++ salt) fb /\ name <> [] /\
      Forall (fun c => 0 <= c < 256) salt /\ len salt < 256 /\ len salt <= p /\
      at_ buf 0 p rand /\
      at_ buf p (p + 1) [Z.lxor version (half (nth 0 rand 0))] /\
      at_ buf (p + 1) (p + 5) [n0; n1; n2; n3] /\ n0 = Z.lxor (len salt) (half (nth 0 rand 0)) /\
      at_ buf (p + 5) q hidden /\
      (forall i, (i < length salt)%nat ->
         nth (2 * i) hidden 0 = Z.lxor (Z.lxor (nth i salt 0) 0x4B) (half (nth i rand 0))) /\
      i32 hash /\ 0 <= version < 256 /\ i32 count /\
      length more = 56%nat /\ sealed2 (head_key2 fb) [Number hash; Number count] more enc /\
      at_ buf q (q + 64) enc /\ q + 128 <= len buf /\
      table = q + 8 + (3 * total nb) mod 212 + 64.

  Definition pieces2 (m : meta) : list piece := pieces1 m ++ [Number (m_u3 m); Number (m_u4 m)].
  (** The table, filled up to whole blocks.  Behind it the file must be as long as its longest piece. *)
  Definition table2 (buf fb : list Z) (table stop : Z) (ms : list meta) : Prop :=
    exists rest stored,
      sealed2 (table_key2 fb) (flat_map pieces2 ms) rest stored /\
      (length rest < 64)%nat /\ (length (stream (flat_map pieces2 ms) ++ rest) mod 64 = 0)%nat /\
      at_ buf table stop stored /\
      Forall (fun p => stop + len (piece_bytes p) <= len buf) (flat_map pieces2 ms).

  (** Nonce and first counter of the images: three words made of the hash of the salt, each byte hidden. *)
  Definition hide_byte (i : Z) : Z := (Z.lxor (43 * i + 90) (i / 4) + Z.lxor (8 * i) (17 * i) - i mod 11) mod 256.
  Definition hash_bytes (salt : list Z) : list Z :=
    let h := fnv salt in enc_le 4 h ++ enc_le 4 (h / 2) ++ enc_le 4 (Z.lxor (h / 2) 108).
  Definition hidden_byte (salt : list Z) (i : nat) : Z := Z.lxor (nth i (hash_bytes salt) 0) (hide_byte (Z.of_nat i)).
  Definition image_nonce (salt : list Z) : list Z := repeat 0 4 ++ map (hidden_byte salt) (seq 0 8).
  Definition image_counter (salt : list Z) : Z :=
    hidden_byte salt 8 + 2 ^ 8 * hidden_byte salt 9 + 2 ^ 16 * hidden_byte salt 10 + 2 ^ 24 * hidden_byte salt 11.
  Definition image_key2 (ds ekey name : list Z) : list Z := on_base (fun i => image_key_byte ds ekey (around name i) i).
  (** Only the first 1024 bytes of an image are hidden. *)
  Definition image2 (key salt plain stored : list Z) : Prop :=
    stored = masked (mask key (image_nonce salt) (fun k => image_counter salt + Z.of_nat k)) (firstn 1024 plain) ++ skipn 1024 plain.
  Definition image_at2 (buf salt : list Z) (from : Z) (m : meta) (image : list Z) : Prop :=
    exists ds filler stored,
      decimal ds (fnv salt) /\ Forall (fun c => 0 <= c < 128) (m_name m) /\ len image = m_size m /\
      len (image ++ filler) = m_aligned m /\
      image2 (image_key2 ds (m_key m) (m_name m)) salt (image ++ filler) stored /\
      at_ buf (from + 1024 * m_start m) (from + 1024 * m_start m + m_aligned m) stored.
  Definition archive2 (buf file : list Z) (images : list (meta * list Z)) (from : Z) : Prop :=
    exists salt fb hash table stop,
      head2 buf file salt hash 4 (len images) table /\
      utf8 (map small file ++ salt) fb /\
      Forall meta_ok (map fst images) /\ table2 buf fb table stop (map fst images) /\
      data_from stop from /\ Forall (fun p => image_at2 buf salt from (fst p) (snd p)) images.
End cipher.
