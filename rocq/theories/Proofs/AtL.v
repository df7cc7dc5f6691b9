(** Reading fields known to stand at a position. *)
From Coq Require Import ZArith List Bool Lia ZifyBool ZifyNat.
From Verif.Model Require Import Base Utf Keys Reader WzStr Image.
From Verif.Spec Require Import Wire Stream StrWire PropWire.
From Verif.Proofs Require Import BaseL WireL KeysL StringL ReaderL StrWireL.

Ltac dlia := Z.div_mod_to_equations; lia.
Ltac pows := change (2 ^ 64) with 18446744073709551616 in *; change (2 ^ 63) with 9223372036854775808 in *;
  change (2 ^ 32) with 4294967296 in *; change (2 ^ 31) with 2147483648 in *;
  change (2 ^ 16) with 65536 in *; change (2 ^ 15) with 32768 in *; change (2 ^ 8) with 256 in *.

Lemma at_range buf p q l : at_ buf p q l -> 0 <= p /\ q = p + zlen l /\ q <= zlen buf.
Proof. intros (pre & post & -> & -> & ->). unfold zlen. rewrite !app_length. lia. Qed.

Lemma at_split buf p q a b : at_ buf p q (a ++ b) <->
  at_ buf p (p + zlen a) a /\ at_ buf (p + zlen a) q b.
Proof.
  split.
  - intros (pre & post & E & -> & ->). rewrite <- app_assoc in E. split.
    + exists pre, (b ++ post). auto.
    + exists (pre ++ a), post. rewrite app_assoc in E. split; [exact E|].
      unfold zlen. rewrite !app_length. lia.
  - intros [(pre & post & E & -> & Hq) (pre' & post' & E' & Hp' & ->)].
    exists pre, post'. unfold zlen in *. rewrite app_length. split; [|lia].
    assert (L : length (pre ++ a) = length pre') by (rewrite app_length; lia).
    rewrite E, app_assoc in E'.
    assert (pre' = pre ++ a).
    { apply (f_equal (firstn (length (pre ++ a)))) in E'.
      rewrite firstn_app, Nat.sub_diag, firstn_all, firstn_O, app_nil_r in E'.
      rewrite L, firstn_app, Nat.sub_diag, firstn_all, firstn_O, app_nil_r in E'. auto. }
    subst pre'. rewrite E, (app_assoc pre a post), E', <- !app_assoc. reflexivity.
Qed.

Lemma at_cons buf p q x l : at_ buf p q (x :: l) <-> at_ buf p (p + 1) [x] /\ at_ buf (p + 1) q l.
Proof. change (x :: l) with ([x] ++ l). rewrite at_split. reflexivity. Qed.

Section at_reads.
  Variable r : rd.
  Hypothesis Hs : zlen (rd_buf r) < 2 ^ 31.

  Lemma at_read_n (n : nat) v p q : at_ (rd_buf r) p q (enc_le n v) ->
    read_at (Z.of_nat n) (rd_buf r) p = Ok (wrap (8 * Z.of_nat n) v) /\ q = p + Z.of_nat n.
  Proof.
    intros (pre & post & E & -> & ->). rewrite E, enc_le_length. split; [|reflexivity].
    apply read_at_enc.
  Qed.

  Lemma at_u8 p q b : 0 <= b < 256 -> at_ (rd_buf r) p q [b] -> read_u8 r p = (Ok b, q) /\ q = p + 1.
  Proof.
    intros Hb H. destruct (at_range _ _ _ _ H) as (A & B & C). rewrite zlen_cons, zlen_nil in B.
    assert (E : [b] = enc_le 1 b).
    { unfold enc_le. cbn [seq map]. change (2 ^ (8 * Z.of_nat 0)) with 1. rewrite Z.div_1_r, Z.mod_small by lia. reflexivity. }
    rewrite E in H. destruct (at_read_n 1 b p q H) as [R Q].
    split; [|lia]. rewrite B. unfold read_u8. apply cur_read_ok; [|pows; lia].
    unfold read_u8_at. change (Z.of_nat 1) with 1 in R. rewrite R, wrap_small; [reflexivity|].
    change (2 ^ (8 * 1)) with 256. lia.
  Qed.

  Lemma at_i8 p q v : -128 <= v < 128 -> at_ (rd_buf r) p q [v mod 256] -> read_i8 r p = (Ok v, q) /\ q = p + 1.
  Proof.
    intros Hb H. destruct (at_range _ _ _ _ H) as (A & B & C). rewrite zlen_cons, zlen_nil in B.
    destruct H as (pre & post & E & -> & ->). cbn [length]. split; [|reflexivity].
    change (Z.of_nat (length pre)) with (zlen pre).
    rewrite (read_i8_byte r pre post (v mod 256)); [|unfold byte; dlia|pows; lia|exact E].
    f_equal. f_equal. destruct (v mod 256 <? 128) eqn:K; dlia.
  Qed.

  Lemma at_gen (n : nat) (f : list Z -> Z -> res Z) (g : Z -> Z) v p q :
    (n <= 8)%nat -> f = (fun buf pos => rmap g (read_at (Z.of_nat n) buf pos)) ->
    at_ (rd_buf r) p q (enc_le n v) ->
    cur_read (Z.of_nat n) f r p = (Ok (g (wrap (8 * Z.of_nat n) v)), q) /\ q = p + Z.of_nat n.
  Proof.
    intros Hn -> H. destruct (at_range _ _ _ _ H) as (A & B & C).
    destruct (at_read_n n v p q H) as [R Q]. split; [|exact Q]. rewrite Q.
    apply cur_read_ok; [|pows; lia]. rewrite R. reflexivity.
  Qed.

  Lemma at_i16 p q v : - 2 ^ 15 <= v < 2 ^ 15 -> at_ (rd_buf r) p q (enc_le 2 v) -> read_i16 r p = (Ok v, q) /\ q = p + 2.
  Proof.
    intros Hv H. destruct (at_gen 2 read_i16_at (sext 16) v p q ltac:(lia) eq_refl H) as [A B].
    split; [|exact B]. etransitivity; [exact A|]. do 2 f_equal.
    change (8 * Z.of_nat 2) with 16. apply sext_wrap; lia.
  Qed.
  Lemma at_i32 p q v : - 2 ^ 31 <= v < 2 ^ 31 -> at_ (rd_buf r) p q (enc_le 4 v) -> read_i32 r p = (Ok v, q) /\ q = p + 4.
  Proof.
    intros Hv H. destruct (at_gen 4 read_i32_at (sext 32) v p q ltac:(lia) eq_refl H) as [A B].
    split; [|exact B]. etransitivity; [exact A|]. do 2 f_equal.
    change (8 * Z.of_nat 4) with 32. apply sext_wrap; lia.
  Qed.
  Lemma at_ugen (n : nat) v p q : (n <= 8)%nat -> 0 <= v < 2 ^ (8 * Z.of_nat n) -> at_ (rd_buf r) p q (enc_le n v) ->
    cur_read (Z.of_nat n) (read_at (Z.of_nat n)) r p = (Ok v, q) /\ q = p + Z.of_nat n.
  Proof.
    intros Hn Hv H. destruct (at_range _ _ _ _ H) as (A & B & C).
    destruct (at_read_n n v p q H) as [R Q]. split; [|exact Q]. rewrite Q.
    apply cur_read_ok; [|pows; lia]. rewrite R, wrap_small by exact Hv. reflexivity.
  Qed.
  Lemma at_u16 p q v : 0 <= v < 2 ^ 16 -> at_ (rd_buf r) p q (enc_le 2 v) -> read_u16 r p = (Ok v, q) /\ q = p + 2.
  Proof. intros. exact (at_ugen 2 v p q ltac:(lia) H H0). Qed.
  Lemma at_u32 p q v : 0 <= v < 2 ^ 32 -> at_ (rd_buf r) p q (enc_le 4 v) -> read_u32 r p = (Ok v, q) /\ q = p + 4.
  Proof. intros. exact (at_ugen 4 v p q ltac:(lia) H H0). Qed.
  Lemma at_u64 p q v : 0 <= v < 2 ^ 64 -> at_ (rd_buf r) p q (enc_le 8 v) -> read_u64 r p = (Ok v, q) /\ q = p + 8.
  Proof. intros. exact (at_ugen 8 v p q ltac:(lia) H H0). Qed.

  Lemma at_wzint p q v : int_at (rd_buf r) p q v -> read_wz_int r p = (Ok v, q).
  Proof.
    intros [Hv H]. destruct H as (pre & post & E & -> & ->).
    change (Z.of_nat (length pre)) with (zlen pre).
    apply (wz_int_gen 4 read_i32_at r pre post v); auto. unfold fits. pows; lia.
  Qed.
  Lemma at_wzint64 p q v : - 2 ^ 63 <= v < 2 ^ 63 -> at_ (rd_buf r) p q (enc_wzint 8 v) -> read_wz_int64 r p = (Ok v, q).
  Proof.
    intros Hv H. destruct H as (pre & post & E & -> & ->).
    change (Z.of_nat (length pre)) with (zlen pre).
    apply (wz_int_gen 8 read_i64_at r pre post v); auto. unfold fits. pows; lia.
  Qed.

  Hypothesis Hk : forall j, byte (rd_ks r j).

  Lemma at_string p q t : unicode t -> at_ (rd_buf r) p q (enc_str (rd_ks r) t) ->
    read_wz_string r p = (Ok t, q) /\ exists m, read_wz_string_meta r p = (Ok m, q) /\ get_string r m = Ok t.
  Proof.
    intros Ht (pre & post & E & -> & ->). split.
    - apply (read_enc_str_eager r pre post t Ht Hk Hs E).
    - apply (read_enc_str r pre post t Ht Hk Hs E).
  Qed.

  Lemma block_range origin p q t : block_at (rd_buf r) (rd_ks r) origin p q t -> 0 <= p < q /\ q <= zlen (rd_buf r).
  Proof.
    intros [tag Htag Ht H1 H2 | tag a e Htag Ht Ha H1 H2 H3];
      apply at_range in H1; apply at_range in H2.
    - pose proof (zlen_nonneg (enc_str (rd_ks r) t)). lia.
    - rewrite zlen_enc_le in H2. lia.
  Qed.

  Lemma at_block origin p q t : block_at (rd_buf r) (rd_ks r) origin p q t ->
    read_wz_string_block r origin p = (Ok t, q) /\
    exists m, read_wz_string_block_meta r origin p = (Ok m, q) /\ get_string r m = Ok t.
  Proof.
    intros [tag Htag Ht H1 H2 | tag a e Htag Ht Ha H1 H2 H3];
      destruct (at_u8 _ _ tag ltac:(lia) H1) as [R1 _];
      unfold read_wz_string_block, read_wz_string_block_meta; rewrite !(bind_ok _ _ _ _ _ R1).
    - replace ((tag =? 0) || (tag =? 0x73)) with true by lia. apply at_string; assumption.
    - replace ((tag =? 0) || (tag =? 0x73)) with false by lia.
      replace ((tag =? 1) || (tag =? 0x1B)) with true by lia.
      destruct (at_i32 _ _ a Ha H2) as [R2 _]. rewrite !(bind_ok _ _ _ _ _ R2).
      destruct (at_string _ _ _ Ht H3) as (E & m & M & G).
      apply at_range in H3. pose proof (zlen_nonneg (enc_str (rd_ks r) t)).
      assert (W : wrap 64 (origin + wrap 64 a) = origin + a).
      { rewrite wrap_add_r by lia. apply wrap_small. pows; lia. }
      rewrite W. unfold read_wz_string_at_offset, read_wz_string_meta_at, at_offset. rewrite E, M. cbn [fst]. split; [reflexivity|]. exists m. split; [reflexivity|exact G].
  Qed.
End at_reads.
