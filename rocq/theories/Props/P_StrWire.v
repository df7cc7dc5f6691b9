(** C58, C59: stored strings are read as the format says. *)
From Coq Require Import ZArith List Bool Lia ZifyBool ZifyNat.
From Verif.Model Require Import Base Utf Keys Reader WzStr.
From Verif.Spec Require Import Wire Stream StrWire.
From Verif.Proofs Require Import BaseL WireL KeysL StringL ReaderL StrWireL.

(** C58: any Unicode text (also beyond U+FFFF), stored at any place under any key
    stream, in the short or the long form, is read back; the cursor stops right
    behind it.  Deferred and eager form. *)
Theorem C58_stored_string_read :
  forall r pre post t, unicode t -> (forall j, byte (rd_ks r j)) -> zlen (rd_buf r) < 2 ^ 31 ->
    rd_buf r = pre ++ enc_str (rd_ks r) t ++ post ->
    read_wz_string r (zlen pre) = (Ok t, zlen pre + zlen (enc_str (rd_ks r) t)) /\
    exists m, read_wz_string_meta r (zlen pre) = (Ok m, zlen pre + zlen (enc_str (rd_ks r) t)) /\
              get_string r m = Ok t.
Proof. intros. split; [eapply read_enc_str_eager|eapply read_enc_str]; eassumption. Qed.
Print Assumptions C58_stored_string_read.

(** C58: inline string blocks (tag 0x00 or 0x73). *)
Theorem C58_inline_block_read :
  forall r pre post t tag base, unicode t -> (forall j, byte (rd_ks r j)) -> zlen (rd_buf r) < 2 ^ 31 ->
    tag = 0 \/ tag = 0x73 ->
    rd_buf r = pre ++ tag :: enc_str (rd_ks r) t ++ post ->
    read_wz_string_block r base (zlen pre) = (Ok t, zlen pre + 1 + zlen (enc_str (rd_ks r) t)).
Proof.
  intros r pre post t tag base Ht Hk Hs Htag Hb.
  assert (R : read_u8 r (zlen pre) = (Ok tag, zlen pre + 1)).
  { unfold read_u8. apply cur_read_ok.
    - unfold read_u8_at. rewrite Hb. change (tag :: enc_str (rd_ks r) t ++ post) with ([tag] ++ enc_str (rd_ks r) t ++ post).
      rewrite read_at_app by reflexivity. cbn [le_val]. f_equal. lia.
    - rewrite Hb, !zlen_app, zlen_cons in Hs. pose proof (zlen_nonneg pre). pose proof (zlen_nonneg (enc_str (rd_ks r) t ++ post)).
      change (2 ^ 64) with 18446744073709551616. change (2 ^ 31) with 2147483648 in Hs. lia. }
  unfold read_wz_string_block. erewrite bind_ok; [|exact R].
  replace ((tag =? 0) || (tag =? 115)) with true by lia.
  rewrite app_cons_assoc in Hb. rewrite <- zlen_snoc with (x := tag).
  apply read_enc_str_eager with (post := post); assumption.
Qed.
Print Assumptions C58_inline_block_read.

(** C58: a string shared by offset (tag 0x01 or 0x1B): the text stored at
    [base + a] is returned and the cursor stands behind the offset. *)
Theorem C58_offset_block_read :
  forall r pre post t tag base a p,
    unicode t -> (forall j, byte (rd_ks r j)) -> zlen (rd_buf r) < 2 ^ 31 ->
    rd_buf r = pre ++ enc_str (rd_ks r) t ++ post ->
    read_u8_at (rd_buf r) p = Ok tag -> tag = 0x01 \/ tag = 0x1B -> 0 <= p -> p + 5 <= zlen (rd_buf r) ->
    read_i32_at (rd_buf r) (p + 1) = Ok a -> zlen pre = base + a ->
    read_wz_string_block r base p = (Ok t, p + 5).
Proof.
  intros r pre post t tag base a p Ht Hk Hs Hb Htag Htg Hp Hp5 Ha Hpre.
  assert (H64 : p + 5 < 2 ^ 64) by (change (2 ^ 64) with 18446744073709551616; change (2 ^ 31) with 2147483648 in Hs; lia).
  destruct (block_offset_pos r base p tag Htag Htg Hp H64) as [P _].
  destruct (block_offset_result r base p tag a Htag Htg Hp H64 Ha) as [F _].
  rewrite <- Hpre in F. rewrite wrap_small in F.
  2:{ rewrite Hb, zlen_app in Hs. pose proof (zlen_nonneg pre). pose proof (zlen_nonneg (enc_str (rd_ks r) t ++ post)).
      change (2 ^ 64) with 18446744073709551616; change (2 ^ 31) with 2147483648 in Hs; lia. }
  rewrite (read_enc_str_eager r pre post t Ht Hk Hs Hb) in F. cbn [fst] in F.
  rewrite (surjective_pairing (read_wz_string_block r base p)), F, P. reflexivity.
Qed.
Print Assumptions C58_offset_block_read.

(** C58: package-2 directory names of 1..127 UTF-16 units. *)
Theorem C58_pkg2_name_read :
  forall r pre post t, unicode t -> (forall j, byte (rd_pks r j)) ->
    1 <= zlen (units16 t) <= 127 -> zlen (rd_buf r) < 2 ^ 63 ->
    rd_buf r = pre ++ enc_pkg2_name (rd_pks r) t ++ post ->
    read_wz_string_pkg2_dir r (zlen pre) = (Ok t, zlen pre + zlen (enc_pkg2_name (rd_pks r) t)) /\
    exists m, read_pkg2_dir_meta r (zlen pre) = (Ok m, zlen pre + zlen (enc_pkg2_name (rd_pks r) t)) /\
              get_string r m = Ok t.
Proof.
  intros r pre post t Ht Hk Hn Hs Hb. destruct (read_pkg2_name r pre post t Ht Hk Hn Hs Hb) as (A & B & C). eauto.
Qed.
Print Assumptions C58_pkg2_name_read.

Example C58_ex :
  let ks := fun i : nat => Z.of_nat (i * 7) mod 256 in
  let r := mkRd ([1; 2] ++ enc_str ks [0x1F600; 97; 0x4E00] ++ [5]) ks ks in
  let q := mkRd ([9] ++ enc_pkg2_name ks [104; 105] ++ [5]) ks ks in
  unicode [0x1F600; 97; 0x4E00] /\
  read_wz_string r 2 = (Ok [0x1F600; 97; 0x4E00], 11) /\
  zlen (enc_str ks (repeat 97 200)) = 205 /\
  read_wz_string_pkg2_dir q 1 = (Ok [104; 105], 6).
Proof. split; [repeat constructor; lia|]. vm_compute. repeat split. Qed.

(** C59: what a string object built from text stores is the body the format
    prescribes, under the key stream of its IV (all-zero for the zero IV). *)
Theorem C59_built_string_bytes :
  forall aes iv t, block_cipher aes -> length iv = 4%nat -> bytes iv ->
    unicode t -> t <> [] ->
    let key := if le_val iv =? 0 then fun _ => 0 else key_byte aes iv in
    fst (fst (wzstring_from_str aes t iv)) =
      (if forallb (fun c => c <? 128) t then body_ascii key t else body_unicode key (units16 t)).
Proof.
  intros aes iv t Ha Hl Hb Ht Hne key.
  assert (HK : forall n, 0 <= n -> forall j, Z.of_nat j < n -> ecb_key_fn (ecb_ensure aes (ecb_from_iv iv) n) j = key j).
  { intros n Hn j Hj.
    assert (Z0 : sext 32 (le_val iv) = 0 <-> le_val iv = 0).
    { pose proof (le_val_range iv Hb) as R. unfold zlen in R. rewrite Hl in R. change (2 ^ (8 * Z.of_nat 4)) with 4294967296 in R.
      unfold sext. rewrite (wrap_small 32) by (change (2 ^ 32) with 4294967296; lia). change (2 ^ (32 - 1)) with 2147483648. change (2 ^ 32) with 4294967296.
      destruct (le_val iv <? 2147483648) eqn:E; lia. }
    subst key. destruct (Z.eqb_spec (le_val iv) 0) as [e|e].
    - unfold ecb_ensure, ecb_is_enough, ecb_from_iv. cbn [ecb_plain ecb_keys]. rewrite (proj2 Z0 e).
      cbn [Z.eqb orb]. unfold ecb_key_fn, ecb_try_at. cbn [ecb_keys]. rewrite (proj2 (nth_error_None _ _)); [reflexivity|cbn; lia].
    - assert (K : kinv aes iv (ecb_from_iv iv)) by (apply kinv_init; tauto).
      destruct (kinv_ensure aes Ha iv Hl Hb _ n K Hn) as (K1 & K2 & _).
      unfold ecb_key_fn. rewrite (kinv_has aes Ha iv Hl Hb _ j K1) by lia. reflexivity. }
  assert (Hkb : forall j, byte (key j)).
  { intro j. subst key. destruct (le_val iv =? 0); [unfold byte; lia|].
    unfold key_byte. destruct (key_block_ok aes Ha iv Hl Hb (j / 16)) as [L B].
    apply (proj1 (Forall_forall _ _) B). apply nth_In. rewrite L. apply Nat.mod_upper_bound. lia. }
  unfold wzstring_from_str. destruct t as [|c0 t0]; [congruence|]. set (t := c0 :: t0) in *.
  change (is_ascii t) with (forallb (fun c => c <? 128) t).
  destruct (forallb (fun c => c <? 128) t) eqn:E; cbn [fst].
  - rewrite (utf8_enc_ascii t E). unfold encrypt_ascii. rewrite (utf8_enc_ascii t E), body_ascii_eq.
    rewrite (mapi_from_ext _ (enc_ascii_byte key)).
    + rewrite nonempty_id; [reflexivity|]. subst t. discriminate.
    + intros x j Hj. unfold enc_ascii_byte. rewrite HK; [reflexivity|apply zlen_nonneg|unfold zlen; lia].
  - change (units16 t) with (utf16_enc t). pose proof (utf16_enc_units t (unicode_scalars t Ht)) as Hu.
    rewrite body_unicode_eq by assumption. unfold encrypt_unicode.
    rewrite (mapi_from_ext _ (enc_unicode_unit key)).
    + rewrite nonempty_id; [reflexivity|]. subst t. unfold utf16_enc. cbn [flat_map]. unfold utf16_enc_char.
      destruct (c0 <? 65536); discriminate.
    + intros x j Hj. unfold enc_unicode_unit. pose proof (zlen_nonneg (utf16_enc t)).
      rewrite !HK; [reflexivity| | | |]; unfold zlen in *; lia.
Qed.
Print Assumptions C59_built_string_bytes.

Example C59_ex :
  fst (fst (wzstring_from_str (fun b => b) [104; 105] [0; 0; 0; 0])) = [0xC2; 0xC2] /\
  fst (fst (wzstring_from_str (fun b => b) [0x4E00] [1; 2; 3; 4])) = [0xAB; 0xE6].
Proof. vm_compute. split; reflexivity. Qed.
