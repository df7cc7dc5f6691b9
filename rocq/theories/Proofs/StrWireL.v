(** Reading stored strings. *)
From Coq Require Import ZArith List Bool Lia ZifyBool ZifyNat.
From Verif.Model Require Import Base Utf Keys Reader WzStr.
From Verif.Spec Require Import Wire Stream StrWire.
From Verif.Proofs Require Import BaseL WireL KeysL StringL ReaderL.
Ltac Zify.zify_post_hook ::= Z.div_mod_to_equations.

Lemma unicode_scalars t : unicode t -> scalars t.
Proof. apply Forall_impl. unfold is_scalar. intros; lia. Qed.

Lemma mapi_from_seq {B} (f : Z -> nat -> B) l : forall i,
  mapi_from f i l = map (fun j => f (nth j l 0) (i + j)%nat) (seq 0 (length l)).
Proof.
  induction l as [|x l IH]; intro i; [reflexivity|]. cbn [mapi_from length seq map nth].
  rewrite Nat.add_0_r. f_equal. rewrite IH, <- seq_shift, map_map. apply map_ext. intro j.
  f_equal. lia.
Qed.

Lemma body_ascii_eq ks t : body_ascii ks t = mapi_from (enc_ascii_byte ks) 0 t.
Proof.
  rewrite mapi_from_seq. unfold body_ascii. apply map_ext. intro j. unfold enc_ascii_byte, wrap.
  rewrite Nat.add_0_l, Z.lxor_assoc. change (2 ^ 8) with 256. do 3 f_equal. lia.
Qed.

Lemma units16_eq t : units16 t = utf16_enc t.
Proof. reflexivity. Qed.

Lemma lxor16_split x k1 k2 : 0 <= x < 65536 -> 0 <= k1 < 256 -> 0 <= k2 < 256 ->
  [Z.lxor (x mod 256) k1; Z.lxor (x / 256) k2] = le_bytes 2 (Z.lxor x (Z.lxor k1 (Z.shiftl k2 8))).
Proof.
  intros Hx H1 H2. rewrite <- xor16 by assumption. cbn [le_bytes].
  assert (A : 0 <= Z.lxor (x mod 256) k1 < 2 ^ 8) by (apply lxor_range; lia).
  assert (B : 0 <= Z.lxor (x / 256 mod 256) k2 < 2 ^ 8) by (apply lxor_range; lia).
  change (2 ^ 8) with 256 in *. replace (x / 256 mod 256) with (x / 256) in * by lia.
  f_equal; [lia|]. f_equal. lia.
Qed.

Lemma body_unicode_eq ks us : (forall j, byte (ks j)) -> Forall (fun u => 0 <= u < 65536) us ->
  body_unicode ks us = concat (mapi_from (enc_unicode_unit ks) 0 us).
Proof.
  intros Hk Hu. rewrite mapi_from_seq. unfold body_unicode. rewrite flat_map_concat_map. f_equal.
  apply map_ext_in. intros j Hj. apply in_seq in Hj.
  unfold enc_unicode_unit. rewrite Nat.add_0_l.
  assert (Hj' : 0 <= nth j us 0 < 65536).
  { apply (proj1 (Forall_forall _ _) Hu). apply nth_In. lia. }
  cbv zeta. rewrite lxor16_split.
  - f_equal. unfold wrap. change (2 ^ 16) with 65536. rewrite (Z.add_comm (Z.of_nat j)).
    rewrite (Z.mod_small (Z.shiftl _ _)).
    2:{ pose proof (Hk (2 * j + 1)%nat). unfold byte in H. rewrite Z.shiftl_mul_pow2 by lia. lia. }
    rewrite !Z.lxor_assoc. reflexivity.
  - apply (lxor_range 16); [lia|lia|]. change (2 ^ 16) with 65536. lia.
  - apply Hk.
  - apply Hk.
Qed.

Lemma body_ascii_length ks t : length (body_ascii ks t) = length t.
Proof. unfold body_ascii. rewrite map_length, seq_length. reflexivity. Qed.
Lemma flat2_length {A} (f : nat -> list A) : (forall i, length (f i) = 2%nat) ->
  forall n s, length (flat_map f (seq s n)) = (2 * n)%nat.
Proof. intro H. induction n; intro s; cbn [seq flat_map]; [reflexivity|]. rewrite app_length, H, IHn. lia. Qed.
Lemma body_unicode_length ks us : length (body_unicode ks us) = (2 * length us)%nat.
Proof. unfold body_unicode. apply flat2_length. reflexivity. Qed.
Lemma body_pkg2_length ks us : length (body_pkg2 ks us) = (2 * length us)%nat.
Proof. unfold body_pkg2. apply flat2_length. reflexivity. Qed.

Lemma slice_mid (pre m post : list Z) : slice (pre ++ m ++ post) (zlen pre) (zlen pre + zlen m) = Some m.
Proof. apply slice_app; lia. Qed.

Lemma resolve_ascii_body r pre post t : is_ascii t = true ->
  Forall (fun c => 0 <= c) t ->
  zlen (rd_buf r) < 2 ^ 63 -> rd_buf r = pre ++ body_ascii (rd_ks r) t ++ post ->
  resolve_meta r SAscii (zlen pre) (zlen t) = Ok t.
Proof.
  intros Ha Hnn Hs Hb. cbn [resolve_meta]. unfold resolve_ascii_raw, get_decrypt_slice.
  pose proof (zlen_nonneg pre); pose proof (zlen_nonneg t).
  assert (L : zlen (body_ascii (rd_ks r) t) = zlen t) by (unfold zlen; rewrite body_ascii_length; reflexivity).
  assert (zlen pre + zlen t <= zlen (rd_buf r)).
  { rewrite Hb, !zlen_app, L. pose proof (zlen_nonneg post). lia. }
  rewrite (wrap_small 64) by lia. rewrite <- L, Hb, slice_mid. unfold rmap, rbind.
  rewrite body_ascii_eq, ascii_cipher_inv. f_equal.
  rewrite <- (utf8_enc_ascii t Ha) at 1. apply utf8_roundtrip.
  unfold is_ascii in Ha. rewrite forallb_forall in Ha. unfold scalars.
  apply Forall_forall. intros c Hc. specialize (Ha c Hc). rewrite Forall_forall in Hnn. specialize (Hnn c Hc).
  unfold is_scalar. lia.
Qed.

Lemma resolve_unicode_body r pre post t : scalars t -> (forall j, byte (rd_ks r j)) ->
  zlen (rd_buf r) < 2 ^ 63 -> rd_buf r = pre ++ body_unicode (rd_ks r) (utf16_enc t) ++ post ->
  resolve_meta r SUnicode (zlen pre) (2 * zlen (utf16_enc t)) = Ok t.
Proof.
  intros Ht Hk Hs Hb. cbn [resolve_meta]. unfold resolve_unicode_raw, get_decrypt_slice.
  pose proof (zlen_nonneg pre); pose proof (zlen_nonneg (utf16_enc t)).
  assert (L : zlen (body_unicode (rd_ks r) (utf16_enc t)) = 2 * zlen (utf16_enc t)) by (unfold zlen; rewrite body_unicode_length; lia).
  assert (zlen pre + 2 * zlen (utf16_enc t) <= zlen (rd_buf r)).
  { rewrite Hb, !zlen_app, L. pose proof (zlen_nonneg post). lia. }
  rewrite (wrap_small 64) by lia. rewrite <- L, Hb, slice_mid.
  pose proof (utf16_enc_units t Ht) as Hu.
  rewrite body_unicode_eq by assumption.
  pose proof (unicode_cipher_inv (rd_ks r) 0 (utf16_enc t) Hk Hu) as U. change (2 * 0)%nat with 0%nat in U.
  cbn [rbind]. rewrite U. unfold rmap, rbind. rewrite utf16_roundtrip; auto.
Qed.

Lemma read_i8_byte r pre post b : byte b -> zlen (rd_buf r) < 2 ^ 63 -> rd_buf r = pre ++ b :: post ->
  read_i8 r (zlen pre) = (Ok (if b <? 128 then b else b - 256), zlen pre + 1).
Proof.
  intros Hb Hs E. unfold read_i8. apply cur_read_ok.
  - unfold read_i8_at. rewrite E. change (b :: post) with ([b] ++ post). rewrite read_at_app by reflexivity.
    unfold rmap, rbind, sext, le_val. unfold byte in Hb. replace (b + 256 * 0) with b by lia.
    rewrite wrap_small by (change (2 ^ 8) with 256; lia). reflexivity.
  - rewrite E, zlen_app, zlen_cons in Hs. pose proof (zlen_nonneg pre). pose proof (zlen_nonneg post). lia.
Qed.

Lemma read_i32_enc r pre post v : - 2 ^ 31 <= v < 2 ^ 31 -> zlen (rd_buf r) < 2 ^ 63 ->
  rd_buf r = pre ++ enc_le 4 v ++ post -> read_i32 r (zlen pre) = (Ok v, zlen pre + 4).
Proof.
  intros Hv Hs E. unfold read_i32. apply cur_read_ok.
  - unfold read_i32_at. rewrite E. rewrite (read_at_enc 4). unfold rmap, rbind. rewrite sext_wrap by lia. reflexivity.
  - rewrite E, !zlen_app, zlen_enc_le in Hs. pose proof (zlen_nonneg pre). pose proof (zlen_nonneg post). lia.
Qed.

Lemma app_cons_assoc {A} (a : list A) x b : a ++ x :: b = (a ++ [x]) ++ b.
Proof. rewrite <- app_assoc. reflexivity. Qed.

Lemma zlen_snoc {A} (a : list A) x : zlen (a ++ [x]) = zlen a + 1.
Proof. rewrite zlen_app, zlen_cons, zlen_nil. lia. Qed.

(** metadata and text of a stored string, both forms, any position *)
Lemma read_enc_str r pre post t : unicode t -> (forall j, byte (rd_ks r j)) ->
  zlen (rd_buf r) < 2 ^ 31 -> rd_buf r = pre ++ enc_str (rd_ks r) t ++ post ->
  exists m, read_wz_string_meta r (zlen pre) = (Ok m, zlen pre + zlen (enc_str (rd_ks r) t)) /\
            get_string r m = Ok t.
Proof.
  intros Ht Hk Hs Hb. pose proof (zlen_nonneg pre) as Hp0. pose proof (zlen_nonneg post) as Hq0.
  assert (Hs63 : zlen (rd_buf r) < 2 ^ 63) by (change (2 ^ 63) with 9223372036854775808; change (2 ^ 31) with 2147483648 in Hs; lia).
  pose proof (f_equal zlen Hb) as HL. rewrite !zlen_app in HL.
  destruct t as [|c0 t0].
  { exists meta_empty. split; [|reflexivity]. cbn [enc_str app] in *. unfold read_wz_string_meta.
    erewrite bind_ok; [|apply (read_i8_byte r pre post 0); [unfold byte; lia|assumption|assumption]].
    reflexivity. }
  set (t := c0 :: t0) in *. unfold enc_str in Hb, HL |- *. cbv iota in Hb, HL |- *.
  change (match t with [] => [0] | _ :: _ => if forallb (fun c => c <? 128) t then len_ascii (Z.of_nat (length t)) ++ body_ascii (rd_ks r) t else len_unicode (Z.of_nat (length (units16 t))) ++ body_unicode (rd_ks r) (units16 t) end)
    with (if forallb (fun c => c <? 128) t then len_ascii (Z.of_nat (length t)) ++ body_ascii (rd_ks r) t else len_unicode (Z.of_nat (length (units16 t))) ++ body_unicode (rd_ks r) (units16 t)) in *.
  assert (Hne : 1 <= zlen t) by (subst t; rewrite zlen_cons; pose proof (zlen_nonneg t0); lia).
  fold (zlen t) in *. fold (zlen (units16 t)) in *. rewrite units16_eq in *.
  destruct (forallb (fun c => c <? 128) t) eqn:Ha.
  - assert (Hnn : Forall (fun c => 0 <= c) t) by (eapply Forall_impl; [|exact Ht]; cbv beta; lia).
    assert (L : zlen (body_ascii (rd_ks r) t) = zlen t) by (unfold zlen; rewrite body_ascii_length; reflexivity).
    rewrite !zlen_app, L in *. unfold len_ascii in *. destruct (Z.leb_spec (zlen t) 127).
    + rewrite zlen_cons, zlen_nil in *. rewrite <- app_assoc in Hb. cbn [app] in Hb.
      unfold read_wz_string_meta.
      erewrite bind_ok; [|eapply read_i8_byte; [|assumption|exact Hb]; unfold byte; lia].
      replace (256 - zlen t <? 128) with false by lia. replace (256 - zlen t - 256) with (- zlen t) by lia.
      unfold string_type. replace (- zlen t =? 0) with false by lia. replace (0 <? - zlen t) with false by lia.
      replace (- zlen t =? -128) with false by lia.
      cbn [bind get_pos skip ret]. unfold bind, get_pos, skip, ret.
      exists (mkMeta (zlen pre + 1) (zlen t) SAscii). split.
      * rewrite Z.opp_involutive. f_equal. rewrite wrap_small by lia. lia.
      * unfold get_string. cbn [sm_type sm_off sm_len]. rewrite <- zlen_snoc with (x := 256 - zlen t).
        apply resolve_ascii_body with (post := post); auto. rewrite <- app_assoc. exact Hb.
    + rewrite zlen_cons, zlen_enc_le in *. change (Z.of_nat 4) with 4 in *. rewrite <- app_assoc in Hb. cbn [app] in Hb.
      unfold read_wz_string_meta.
      erewrite bind_ok; [|eapply read_i8_byte; [|assumption|exact Hb]; unfold byte; lia].
      change (if 128 <? 128 then 128 else 128 - 256) with (-128). cbn [string_type]. change (string_type (-128)) with SAscii.
      change (-128 =? -128) with true. cbv iota.
      rewrite app_cons_assoc in Hb.
      erewrite bind_ok; [|rewrite <- zlen_snoc with (x := 128); eapply read_i32_enc; [|assumption|exact Hb]; lia].
      unfold bind, get_pos, skip, ret. rewrite zlen_snoc.
      exists (mkMeta (zlen pre + 1 + 4) (zlen t) SAscii). split.
      * rewrite (wrap_small 64 (zlen t)), (wrap_small 32 (zlen t)), (wrap_small 64) by (change (2 ^ 32) with 4294967296; lia).
        f_equal. lia.
      * unfold get_string. cbn [sm_type sm_off sm_len].
        replace (zlen pre + 1 + 4) with (zlen ((pre ++ [128]) ++ enc_le 4 (zlen t))) by (rewrite !zlen_app, zlen_enc_le; reflexivity).
        apply resolve_ascii_body with (post := post); auto. rewrite <- app_assoc. exact Hb.
  - set (us := utf16_enc t) in *.
    assert (L : zlen (body_unicode (rd_ks r) us) = 2 * zlen us) by (unfold zlen; rewrite body_unicode_length; lia).
    assert (Hu1 : 1 <= zlen us).
    { subst us. subst t. unfold utf16_enc. cbn [flat_map]. rewrite zlen_app. unfold utf16_enc_char.
      pose proof (zlen_nonneg (flat_map utf16_enc_char t0)). unfold utf16_enc_char in H.
      destruct (c0 <? 65536); rewrite ?zlen_cons, zlen_nil; lia. }
    assert (Hsc : scalars t) by (apply unicode_scalars; exact Ht).
    rewrite !zlen_app, L in *. unfold len_unicode in *. destruct (Z.leb_spec (zlen us) 126).
    + rewrite zlen_cons, zlen_nil in *. rewrite <- app_assoc in Hb. cbn [app] in Hb.
      unfold read_wz_string_meta.
      erewrite bind_ok; [|eapply read_i8_byte; [|assumption|exact Hb]; unfold byte; lia].
      replace (zlen us <? 128) with true by lia.
      unfold string_type. replace (zlen us =? 0) with false by lia. replace (0 <? zlen us) with true by lia.
      replace (zlen us =? 127) with false by lia.
      unfold bind, get_pos, skip, ret.
      exists (mkMeta (zlen pre + 1) (zlen us * 2) SUnicode). split.
      * f_equal. rewrite wrap_small by lia. lia.
      * unfold get_string. cbn [sm_type sm_off sm_len]. rewrite <- zlen_snoc with (x := zlen us), (Z.mul_comm (zlen us)).
        apply resolve_unicode_body with (post := post); auto. rewrite <- app_assoc. exact Hb.
    + rewrite zlen_cons, zlen_enc_le in *. change (Z.of_nat 4) with 4 in *. rewrite <- app_assoc in Hb. cbn [app] in Hb.
      unfold read_wz_string_meta.
      erewrite bind_ok; [|eapply read_i8_byte; [|assumption|exact Hb]; unfold byte; lia].
      change (if 127 <? 128 then 127 else 127 - 256) with 127. change (string_type 127) with SUnicode.
      change (127 =? 127) with true. cbv iota.
      rewrite app_cons_assoc in Hb.
      erewrite bind_ok; [|rewrite <- zlen_snoc with (x := 127); eapply read_i32_enc; [|assumption|exact Hb]; lia].
      unfold bind, get_pos, skip, ret. rewrite zlen_snoc.
      exists (mkMeta (zlen pre + 1 + 4) (zlen us * 2) SUnicode). split.
      * rewrite (wrap_small 32 (zlen us)), (wrap_small 32), (wrap_small 64) by (change (2 ^ 32) with 4294967296; lia).
        f_equal. lia.
      * unfold get_string. cbn [sm_type sm_off sm_len]. rewrite (Z.mul_comm (zlen us)).
        replace (zlen pre + 1 + 4) with (zlen ((pre ++ [127]) ++ enc_le 4 (zlen us))) by (rewrite !zlen_app, zlen_enc_le; reflexivity).
        apply resolve_unicode_body with (post := post); auto. rewrite <- app_assoc. exact Hb.
Qed.

Lemma read_enc_str_eager r pre post t : unicode t -> (forall j, byte (rd_ks r j)) ->
  zlen (rd_buf r) < 2 ^ 31 -> rd_buf r = pre ++ enc_str (rd_ks r) t ++ post ->
  read_wz_string r (zlen pre) = (Ok t, zlen pre + zlen (enc_str (rd_ks r) t)).
Proof.
  intros Ht Hk Hs Hb. apply lazy_eager_string; [exact Hs|].
  destruct (read_enc_str r pre post t Ht Hk Hs Hb) as (m & E1 & E2). exists m. auto.
Qed.

Lemma xor_ks_body_pkg2 ks us : (forall j, byte (ks j)) -> Forall (fun u => 0 <= u < 65536) us ->
  xor_ks ks 0 (body_pkg2 ks us) = flat_map (le_bytes 2) us.
Proof.
  intros Hk Hu. unfold body_pkg2.
  assert (G : forall l off, Forall (fun u => 0 <= u < 65536) l ->
    xor_ks ks (2 * off) (flat_map (fun i => [Z.lxor (nth i l 0 mod 256) (ks (2 * (off + i))%nat);
                      Z.lxor (nth i l 0 / 256) (ks (2 * (off + i) + 1)%nat)]) (seq 0 (length l))) = flat_map (le_bytes 2) l).
  { induction l as [|u l IH]; intros off Hl; [reflexivity|]. inversion_clear Hl.
    change (flat_map (le_bytes 2) (u :: l)) with ([u mod 256; (u / 256) mod 256] ++ flat_map (le_bytes 2) l).
    rewrite <- (IH (S off) H0). cbn [length seq flat_map nth app xor_ks]. rewrite Nat.add_0_r.
    replace (S (2 * off)) with (2 * off + 1)%nat by lia.
    rewrite !lxor_cancel_r. f_equal. f_equal; [lia|].
    replace (S (2 * off + 1)) with (2 * S off)%nat by lia. f_equal.
    rewrite <- seq_shift, flat_map_concat_map, map_map, flat_map_concat_map. f_equal. apply map_ext. intro j.
    cbn [nth]. replace (off + S j)%nat with (S off + j)%nat by lia. reflexivity. }
  exact (G us 0%nat Hu).
Qed.

Lemma read_pkg2_name r pre post t : unicode t -> (forall j, byte (rd_pks r j)) ->
  1 <= zlen (units16 t) <= 127 ->
  zlen (rd_buf r) < 2 ^ 63 -> rd_buf r = pre ++ enc_pkg2_name (rd_pks r) t ++ post ->
  read_pkg2_dir_meta r (zlen pre) = (Ok (mkMeta (zlen pre + 1) (2 * zlen (units16 t)) SPkg2Dir), zlen pre + zlen (enc_pkg2_name (rd_pks r) t)) /\
  get_string r (mkMeta (zlen pre + 1) (2 * zlen (units16 t)) SPkg2Dir) = Ok t /\
  read_wz_string_pkg2_dir r (zlen pre) = (Ok t, zlen pre + zlen (enc_pkg2_name (rd_pks r) t)).
Proof.
  intros Ht Hk Hn Hs Hb. unfold enc_pkg2_name in *. fold (zlen (units16 t)) in *.
  pose proof (zlen_nonneg pre). pose proof (zlen_nonneg post).
  assert (L : zlen (body_pkg2 (rd_pks r) (units16 t)) = 2 * zlen (units16 t)) by (unfold zlen; rewrite body_pkg2_length; lia).
  pose proof (f_equal zlen Hb) as HL. cbn [app] in Hb. rewrite !zlen_app, zlen_cons, L in HL.
  rewrite zlen_cons, L. set (n := zlen (units16 t)) in *.
  assert (S8 : sext 8 (- (256 - n - 256)) = n) by (replace (- (256 - n - 256)) with n by lia; apply sext_small; lia).
  assert (R : resolve_pkg2_dir_raw r (zlen pre + 1) (2 * n) = Ok (units16 t)).
  { unfold resolve_pkg2_dir_raw, get_pkg2_decrypt_slice. rewrite (wrap_small 64) by lia.
    rewrite Hb, app_cons_assoc.
    replace (zlen pre + 1) with (zlen (pre ++ [256 - n])) by apply zlen_snoc.
    rewrite <- L, slice_mid. cbn [rbind]. rewrite xor_ks_body_pkg2.
    - apply chunks_le2, utf16_enc_units, unicode_scalars, Ht.
    - assumption.
    - apply utf16_enc_units, unicode_scalars, Ht. }
  split; [|split].
  - unfold read_pkg2_dir_meta.
    erewrite bind_ok; [|eapply read_i8_byte; [|assumption|exact Hb]; unfold byte; lia].
    replace (256 - n <? 128) with false by lia. replace (0 <=? 256 - n - 256) with false by lia.
    rewrite S8, (wrap_small 64 n), (wrap_small 64 (n * 2)) by lia. unfold bind, get_pos, skip, ret.
    rewrite (wrap_small 64), (wrap_small 32) by (change (2 ^ 32) with 4294967296; lia).
    f_equal; [|lia]. do 2 f_equal. lia.
  - unfold get_string. cbn [sm_type sm_off sm_len resolve_meta]. rewrite R. unfold rmap, rbind.
    rewrite units16_eq, utf16_roundtrip; [reflexivity|apply unicode_scalars, Ht].
  - unfold read_wz_string_pkg2_dir.
    erewrite bind_ok; [|eapply read_i8_byte; [|assumption|exact Hb]; unfold byte; lia].
    replace (256 - n <? 128) with false by lia. replace (0 <=? 256 - n - 256) with false by lia.
    rewrite S8, (wrap_small 64 n), (wrap_small 64 (n * 2)) by lia. unfold bind, get_pos, lift, skip, ret.
    rewrite (Z.mul_comm n 2), R. rewrite (wrap_small 64) by lia.
    rewrite units16_eq, utf16_roundtrip; [|apply unicode_scalars, Ht]. f_equal. lia.
Qed.
