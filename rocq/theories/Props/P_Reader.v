(** C01-C04: integers, fixed-width reads and strings of the cursor reader. *)
From Coq Require Import ZArith List Bool Lia ZifyBool ZifyNat.
From Verif.Model Require Import Base Utf Keys Reader.
From Verif.Spec Require Import Wire Stream.
From Verif.Proofs Require Import BaseL WireL KeysL StringL ReaderL.

(** C01: compressed integers. *)
Theorem C01_wz_int_roundtrip :
  forall r pre post v,
    - 2 ^ 31 <= v < 2 ^ 31 ->
    zlen (rd_buf r) < 2 ^ 63 ->
    rd_buf r = pre ++ enc_wzint 4 v ++ post ->
    read_wz_int r (zlen pre) = (Ok v, zlen pre + zlen (enc_wzint 4 v)).
Proof. intros. apply (wz_int_gen 4 read_i32_at r pre post v); auto. Qed.
Print Assumptions C01_wz_int_roundtrip.

Theorem C01_wz_int64_roundtrip :
  forall r pre post v,
    - 2 ^ 63 <= v < 2 ^ 63 ->
    zlen (rd_buf r) < 2 ^ 63 ->
    rd_buf r = pre ++ enc_wzint 8 v ++ post ->
    read_wz_int64 r (zlen pre) = (Ok v, zlen pre + zlen (enc_wzint 8 v)).
Proof. intros. apply (wz_int_gen 8 read_i64_at r pre post v); auto. Qed.
Print Assumptions C01_wz_int64_roundtrip.

(** -128 does not fit the one-byte form (its byte is the marker) and 5 bytes are used. *)
Example C01_ex :
  let r := mkRd ([7; 7] ++ enc_wzint 4 (-128) ++ [9]) (fun _ => 0) (fun _ => 0) in
  enc_wzint 4 (-128) = [128; 128; 255; 255; 255] /\
  read_wz_int r 2 = (Ok (-128), 7) /\
  read_wz_int (mkRd (enc_wzint 4 (-127)) (fun _ => 0) (fun _ => 0)) 0 = (Ok (-127), 1).
Proof. vm_compute. repeat split. Qed.

(** C02: unsigned fixed-width reads. *)
Theorem C02_read_unsigned :
  forall (n : nat) buf pos, bytes buf -> 0 <= pos ->
    (pos + Z.of_nat n <= zlen buf ->
       exists v, read_at (Z.of_nat n) buf pos = Ok v /\ stored_at buf pos n v /\
                 forall w, stored_at buf pos n w -> w = v) /\
    (zlen buf < pos + Z.of_nat n -> read_at (Z.of_nat n) buf pos = Err ERead).
Proof.
  intros n buf pos Hb Hp. split.
  - intro H. destruct (read_at_total n buf pos Hp H) as [v E]. exists v.
    split; [exact E|]. destruct (read_at_sound n buf pos v Hb E) as (_ & _ & S).
    split; [exact S|]. intros w Hw. apply (stored_at_unique buf pos n); assumption.
  - intro H. apply read_at_oob. lia.
Qed.
Print Assumptions C02_read_unsigned.

(** C02: signed reads are the two's complement reading of the same bytes. *)
Theorem C02_read_signed :
  forall buf pos, bytes buf ->
    Forall (fun x : nat * (list Z -> Z -> res Z) =>
      let '(n, f) := x in
      (forall e, f buf pos = Err e <-> read_at (Z.of_nat n) buf pos = Err e) /\
      forall v, f buf pos = Ok v ->
        - 2 ^ (8 * Z.of_nat n - 1) <= v < 2 ^ (8 * Z.of_nat n - 1) /\
        stored_at buf pos n (v mod 2 ^ (8 * Z.of_nat n)))
      [(1%nat, read_i8_at); (2%nat, read_i16_at); (4%nat, read_i32_at); (8%nat, read_i64_at)].
Proof.
  intros buf pos Hb.
  assert (G : forall n : nat, (1 <= n)%nat ->
    let f := fun buf pos => rmap (sext (8 * Z.of_nat n)) (read_at (Z.of_nat n) buf pos) in
    (forall e, f buf pos = Err e <-> read_at (Z.of_nat n) buf pos = Err e) /\
      forall v, f buf pos = Ok v ->
        - 2 ^ (8 * Z.of_nat n - 1) <= v < 2 ^ (8 * Z.of_nat n - 1) /\
        stored_at buf pos n (v mod 2 ^ (8 * Z.of_nat n))).
  { intros n Hn f. subst f. cbn beta. destruct (read_at (Z.of_nat n) buf pos) as [u|e| |] eqn:E; unfold rmap, rbind.
    - split; [intros; split; discriminate|]. intros v H. assert (Hv : v = sext (8 * Z.of_nat n) u) by congruence. rewrite Hv.
      split; [apply sext_range; lia|].
      pose proof (wrap_sext (8 * Z.of_nat n) u ltac:(lia)) as W. unfold wrap in W. rewrite W.
      destruct (read_at_sound n buf pos u Hb E) as (_ & _ & S). pose proof S as [S1 _].
      rewrite Z.mod_small by lia. exact S.
    - split; [intros; split; congruence|discriminate].
    - split; [intros; split; discriminate|discriminate].
    - split; [intros; split; discriminate|discriminate]. }
  repeat apply Forall_cons; try apply Forall_nil.
  - apply (G 1%nat); lia.
  - apply (G 2%nat); lia.
  - apply (G 4%nat); lia.
  - apply (G 8%nat); lia.
Qed.
Print Assumptions C02_read_signed.

(** C02: the cursor form returns the random-access value at the cursor and
    always advances by the width. *)
Theorem C02_cursor :
  forall r p, 0 <= p -> p + 8 < 2 ^ 64 ->
    read_u8 r p = (read_u8_at (rd_buf r) p, p + 1) /\
    read_u16 r p = (read_u16_at (rd_buf r) p, p + 2) /\
    read_u32 r p = (read_u32_at (rd_buf r) p, p + 4) /\
    read_u64 r p = (read_u64_at (rd_buf r) p, p + 8) /\
    read_i8 r p = (read_i8_at (rd_buf r) p, p + 1) /\
    read_i16 r p = (read_i16_at (rd_buf r) p, p + 2) /\
    read_i32 r p = (read_i32_at (rd_buf r) p, p + 4) /\
    read_i64 r p = (read_i64_at (rd_buf r) p, p + 8).
Proof.
  intros. repeat split; apply cur_read_ok; auto; lia.
Qed.
Print Assumptions C02_cursor.

Example C02_ex :
  read_u16_at [1; 2; 3] 1 = Ok 770 /\ read_u16_at [1; 2; 3] 2 = Err ERead /\
  read_i8_at [255] 0 = Ok (-1) /\ stored_at [1; 2; 3] 1 2 770 /\ bytes [1; 2; 3].
Proof.
  split; [reflexivity|]. split; [reflexivity|]. split; [reflexivity|].
  split; [|repeat constructor; lia]. split; [lia|].
  intros [|[|i]] H; [reflexivity|reflexivity|lia].
Qed.

(** C03: reading a string that lives elsewhere moves the cursor by five bytes
    and nothing else. *)
Theorem C03_offset_string_cursor :
  forall r base p tag,
    read_u8_at (rd_buf r) p = Ok tag -> tag = 0x01 \/ tag = 0x1B ->
    0 <= p -> p + 5 < 2 ^ 64 ->
    snd (read_wz_string_block r base p) = p + 5 /\
    snd (read_wz_string_block_meta r base p) = p + 5 /\
    forall a, read_i32_at (rd_buf r) (p + 1) = Ok a ->
      fst (read_wz_string_block r base p) = fst (read_wz_string r ((base + a) mod 2 ^ 64)) /\
      fst (read_wz_string_block_meta r base p) = fst (read_wz_string_meta r ((base + a) mod 2 ^ 64)).
Proof.
  intros r base p tag H1 H2 H3 H4.
  destruct (block_offset_pos r base p tag H1 H2 H3 H4) as [A B].
  split; [exact A|]. split; [exact B|].
  intros a Ha. exact (block_offset_result r base p tag a H1 H2 H3 H4 Ha).
Qed.
Print Assumptions C03_offset_string_cursor.

(** Offset 3 from base 1: the string "a" stored at position 4, key stream zero;
    and an offset outside the buffer is an error that still leaves the cursor at 5+. *)
Example C03_ex :
  let ks := fun _ : nat => 0 in
  let r := mkRd [0x1B; 6; 0; 0; 0; 99; 0; 255; 0xCB] ks ks in
  read_wz_string_block r 1 0 = (Ok [97], 5) /\
  read_wz_string_block r 1000 0 = (Err ERead, 5).
Proof. vm_compute. repeat split. Qed.

(** C04: the deferred form of a string resolves to exactly the eager form. *)
Theorem C04_lazy_string :
  forall r p s q, zlen (rd_buf r) < 2 ^ 31 ->
    (read_wz_string r p = (Ok s, q) <->
     exists m, read_wz_string_meta r p = (Ok m, q) /\ get_string r m = Ok s).
Proof. intros; apply lazy_eager_string; assumption. Qed.
Print Assumptions C04_lazy_string.

Theorem C04_lazy_string_block :
  forall r base p s q, zlen (rd_buf r) < 2 ^ 31 ->
    (read_wz_string_block r base p = (Ok s, q) <->
     exists m, read_wz_string_block_meta r base p = (Ok m, q) /\ get_string r m = Ok s).
Proof. intros; apply lazy_eager_block; assumption. Qed.
Print Assumptions C04_lazy_string_block.

Example C04_ex :
  let ks := fun _ : nat => 0 in
  let r := mkRd [0xFE; 0xC2; 0xC2; 5] ks ks in
  read_wz_string r 0 = (Ok [104; 105], 3) /\
  read_wz_string_meta r 0 = (Ok (mkMeta 1 2 SAscii), 3) /\
  get_string r (mkMeta 1 2 SAscii) = Ok [104; 105].
Proof. vm_compute. repeat split. Qed.
