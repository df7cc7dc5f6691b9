From Coq Require Import ZArith List Bool Lia ZifyBool ZifyNat.
From Verif.Model Require Import Base Utf Keys Reader WzStr.
From Verif.Spec Require Import Wire Stream.
From Verif.Proofs Require Import BaseL WireL KeysL StringL.
Ltac Zify.zify_post_hook ::= Z.div_mod_to_equations.

(** *** string blocks that point elsewhere *)
Lemma block_offset_pos r off p t :
  read_u8_at (rd_buf r) p = Ok t -> t = 1 \/ t = 27 -> 0 <= p -> p + 5 < 2 ^ 64 ->
  snd (read_wz_string_block r off p) = p + 5 /\
  snd (read_wz_string_block_meta r off p) = p + 5.
Proof.
  intros Ht Htag Hp Hp'. unfold read_wz_string_block, read_wz_string_block_meta.
  assert (E : read_u8 r p = (Ok t, p + 1)).
  { unfold read_u8. apply cur_read_ok; [assumption|lia]. }
  rewrite !(bind_ok _ _ _ _ _ E).
  replace ((t =? 0) || (t =? 0x73)) with false by lia.
  replace ((t =? 1) || (t =? 0x1B)) with true by lia.
  unfold bind, read_i32, cur_read.
  destruct (read_i32_at (rd_buf r) (p + 1)); cbn [fst snd];
    unfold read_wz_string_at_offset, read_wz_string_meta_at, at_offset; cbn [snd];
    rewrite (wrap_small 64) by lia; lia.
Qed.

Lemma block_offset_result r off p t a :
  read_u8_at (rd_buf r) p = Ok t -> t = 1 \/ t = 27 -> 0 <= p -> p + 5 < 2 ^ 64 ->
  read_i32_at (rd_buf r) (p + 1) = Ok a ->
  fst (read_wz_string_block r off p) = fst (read_wz_string r (wrap 64 (off + a))) /\
  fst (read_wz_string_block_meta r off p) = fst (read_wz_string_meta r (wrap 64 (off + a))).
Proof.
  intros Ht Htag Hp Hp' Ha. unfold read_wz_string_block, read_wz_string_block_meta.
  assert (E : read_u8 r p = (Ok t, p + 1)).
  { unfold read_u8. apply cur_read_ok; [assumption|lia]. }
  rewrite !(bind_ok _ _ _ _ _ E).
  replace ((t =? 0) || (t =? 0x73)) with false by lia.
  replace ((t =? 1) || (t =? 0x1B)) with true by lia.
  unfold bind, read_i32, cur_read. rewrite Ha.
  unfold read_wz_string_at_offset, read_wz_string_meta_at, at_offset; cbn [fst].
  rewrite wrap_add_r by lia. split; reflexivity.
Qed.

(** *** lazy = eager *)
Definition small (r : rd) : Prop := zlen (rd_buf r) < 2 ^ 31.

Lemma read_at_range (n : nat) buf p v : read_at (Z.of_nat n) buf p = Ok v ->
  0 <= p /\ p + Z.of_nat n <= zlen buf.
Proof.
  unfold read_at. destruct (slice buf p (p + Z.of_nat n)) eqn:E; [|discriminate].
  apply slice_some in E. lia.
Qed.

Lemma cur_read_inv {A} n (f : list Z -> Z -> res A) r p v q :
  cur_read n f r p = (Ok v, q) -> f (rd_buf r) p = Ok v /\ q = wrap 64 (p + n).
Proof. unfold cur_read. intro H. injection H as H1 H2. auto. Qed.

Lemma read_i8_ok r p v q : read_i8 r p = (Ok v, q) ->
  0 <= p /\ p + 1 <= zlen (rd_buf r) /\ -128 <= v < 128 /\ q = wrap 64 (p + 1).
Proof.
  intro H. apply cur_read_inv in H as [H ->].
  unfold read_i8_at, rmap, rbind in H. destruct (read_at 1 (rd_buf r) p) eqn:E; try discriminate.
  injection H as <-. apply (read_at_range 1) in E.
  pose proof (sext_range 8 a ltac:(lia)). change (2 ^ (8 - 1)) with 128 in *. lia.
Qed.
Lemma read_i32_ok r p v q : read_i32 r p = (Ok v, q) ->
  0 <= p /\ p + 4 <= zlen (rd_buf r) /\ - 2 ^ 31 <= v < 2 ^ 31 /\ q = wrap 64 (p + 4).
Proof.
  intro H. apply cur_read_inv in H as [H ->].
  unfold read_i32_at, rmap, rbind in H. destruct (read_at 4 (rd_buf r) p) eqn:E; try discriminate.
  injection H as <-. apply (read_at_range 4) in E.
  pose proof (sext_range 32 a ltac:(lia)). change (2 ^ (32 - 1)) with (2 ^ 31) in *. lia.
Qed.

Lemma resolve_oob r t off len : t <> SEmpty ->
  slice (rd_buf r) off (wrap 64 (off + len)) = None -> resolve_meta r t off len = Err EOob.
Proof.
  intros Ht H. unfold resolve_meta, resolve_unicode_raw, resolve_ascii_raw, resolve_pkg2_dir_raw,
    get_decrypt_slice, get_pkg2_decrypt_slice. rewrite H. destruct t; try reflexivity. congruence.
Qed.

Lemma resolve_zero r t off : 0 <= off -> off <= zlen (rd_buf r) -> off < 2 ^ 64 ->
  resolve_meta r t off 0 = Ok [].
Proof.
  intros. unfold resolve_meta, resolve_unicode_raw, resolve_ascii_raw, resolve_pkg2_dir_raw,
    get_decrypt_slice, get_pkg2_decrypt_slice.
  rewrite Z.add_0_r, (wrap_small 64) by lia.
  assert (E : slice (rd_buf r) off off = Some []).
  { unfold slice. replace (_ && _ && _) with true by (symmetry; lia).
    rewrite Z.sub_diag. change (Z.to_nat 0) with O. rewrite firstn_O. reflexivity. }
  rewrite E. destruct t; reflexivity.
Qed.

(** The common tail of both readers: resolve [n] bytes at [p] and move. *)
Lemma lazy_tail (r : rd) (t : stype) (p ne nm sk : Z) s q :
  t <> SEmpty -> small r -> 0 <= p <= zlen (rd_buf r) ->
  0 <= ne < 2 ^ 64 -> 0 <= nm < 2 ^ 32 ->
  (ne < 2 ^ 31 -> ne = nm /\ wrap 64 (p + sk) = p + ne) ->
  (2 ^ 31 <= ne -> 2 ^ 64 - 2 ^ 31 <= ne /\ 2 ^ 31 <= nm) ->
  (bind (lift (resolve_meta r t p ne)) (fun s => bind (skip ne) (fun _ => ret s)) p = (Ok s, q) <->
   exists m, bind (skip sk) (fun _ => ret (mkMeta p nm t)) p = (Ok m, q) /\ get_string r m = Ok s).
Proof.
  intros Ht Hs Hp Hne Hnm H1 H2. unfold small in Hs.
  unfold bind, lift, skip, ret, get_string. cbn [sm_type sm_off sm_len].
  destruct (Z.ltb_spec ne (2 ^ 31)).
  - destruct (H1 H) as [-> Hsk]. rewrite Hsk. split.
    + destruct (resolve_meta r t p nm) eqn:E; intro X; try discriminate.
      injection X as -> <-. eexists. rewrite (wrap_small 64) by lia.
      split; [reflexivity|]. cbn. exact E.
    + intros (m & X & Y). injection X as <- <-. cbn in Y. rewrite Y.
      rewrite (wrap_small 64) by lia. reflexivity.
  - destruct (H2 H) as [Ha Hb].
    assert (E1 : resolve_meta r t p ne = Err EOob).
    { apply resolve_oob; [assumption|]. apply slice_none.
      intros (_ & A & B). unfold wrap in A, B. lia. }
    assert (E2 : resolve_meta r t p nm = Err EOob).
    { apply resolve_oob; [assumption|]. apply slice_none.
      rewrite (wrap_small 64) by lia. lia. }
    rewrite E1. split; [discriminate|].
    intros (m & X & Y). injection X as <- <-. cbn in Y. rewrite E2 in Y. discriminate.
Qed.

Lemma wrap64_neg z : - 2 ^ 64 <= z < 0 -> wrap 64 z = z + 2 ^ 64.
Proof. intros. unfold wrap. lia. Qed.

Lemma lazy_eager_string r p s q : small r ->
  read_wz_string r p = (Ok s, q) <->
  exists m, read_wz_string_meta r p = (Ok m, q) /\ get_string r m = Ok s.
Proof.
  intros Hs. pose proof Hs as Hs'. unfold small in Hs'.
  unfold read_wz_string, read_wz_string_meta.
  destruct (read_i8 r p) as [[sl|e| |] q1] eqn:E.
  2-4: unfold bind; rewrite E; split; [discriminate|intros (m & X & _); discriminate].
  rewrite !(bind_ok _ _ _ _ _ E).
  apply read_i8_ok in E as (P1 & P2 & P3 & Q). rewrite (wrap_small 64) in Q by lia. subst q1.
  unfold string_type. destruct (Z.eqb_spec sl 0).
  { unfold ret. split.
    - intro X. injection X as <- <-. eexists. split; reflexivity.
    - intros (m & X & Y). injection X as <- <-. cbn in Y. injection Y as <-. reflexivity. }
  destruct (Z.ltb_spec 0 sl).
  - unfold read_unicode_string, unicode_str_len. destruct (Z.eqb_spec sl 127).
    + destruct (read_i32 r (p + 1)) as [[len|e'| |] q2] eqn:E.
      2-4: unfold bind; rewrite E; split; [discriminate|intros (m & X & _); discriminate].
      rewrite !(bind_ok _ _ _ _ _ E).
      apply read_i32_ok in E as (P4 & P5 & P6 & Q). rewrite (wrap_small 64) in Q by lia. subst q2.
      change (2 ^ 31) with 2147483648 in *. change (2 ^ 64) with 18446744073709551616 in *.
      assert (W : wrap 32 (wrap 32 len * 2) = wrap 32 (len * 2)).
      { unfold wrap. rewrite Zmult_mod_idemp_l. reflexivity. }
      rewrite W. destruct (Z.eqb_spec len 0).
      { subst len. rewrite (bind_ok _ _ _ (p + 1 + 4) (p + 1 + 4)) by reflexivity.
        change (wrap 32 (0 * 2)) with 0. unfold bind, skip, ret.
        rewrite Z.add_0_r, (wrap_small 64) by lia. split.
        - intro X. injection X as <- <-. eexists. split; [reflexivity|].
          unfold get_string. cbn [sm_type sm_off sm_len]. apply resolve_zero; lia.
        - intros (m & X & Y). injection X as <- <-. unfold get_string in Y.
          cbn [sm_type sm_off sm_len] in Y. rewrite resolve_zero in Y by lia. injection Y as <-. reflexivity. }
      rewrite (bind_ok get_pos _ _ (p + 1 + 4) (p + 1 + 4)) by reflexivity.
      rewrite (bind_ok get_pos _ _ (p + 1 + 4) (p + 1 + 4)) by reflexivity.
      pose proof (wrap_range 32 (len * 2) ltac:(lia)) as WR.
      pose proof (sext_range 32 (len * 2) ltac:(lia)) as SR.
      change (2 ^ (32 - 1)) with 2147483648 in SR. change (2 ^ 32) with 4294967296 in *.
      assert (SE : sext 32 (len * 2) = wrap 32 (len * 2) \/
                   sext 32 (len * 2) = wrap 32 (len * 2) - 4294967296).
      { unfold sext. destruct (_ <? _); [left|right]; reflexivity. }
      apply lazy_tail; try assumption; try congruence; try lia.
      * apply wrap_range; lia.
      * intros X. destruct (Z.leb_spec 0 (sext 32 (len * 2))).
        -- rewrite !(wrap_small 64) by lia. lia.
        -- rewrite wrap64_neg in X by lia. lia.
      * intros X. destruct (Z.leb_spec 0 (sext 32 (len * 2))).
        -- rewrite (wrap_small 64) in X by lia. lia.
        -- rewrite wrap64_neg by lia. lia.
    + rewrite !(bind_ok (ret sl) _ _ sl (p + 1)) by reflexivity.
      replace (sl =? 0) with false by lia.
      rewrite !(bind_ok get_pos _ _ (p + 1) (p + 1)) by reflexivity.
      rewrite (sext_small 32) by lia. rewrite (wrap_small 64 (sl * 2)) by lia.
      apply lazy_tail; try assumption; try congruence; try lia.
      intros _. rewrite (wrap_small 64) by lia. lia.
  - unfold read_ascii_string, ascii_str_len. destruct (Z.eqb_spec sl (-128)).
    + destruct (read_i32 r (p + 1)) as [[len|e'| |] q2] eqn:E.
      2-4: unfold bind; rewrite E; split; [discriminate|intros (m & X & _); discriminate].
      rewrite !(bind_ok _ _ _ _ _ E).
      apply read_i32_ok in E as (P4 & P5 & P6 & Q). rewrite (wrap_small 64) in Q by lia. subst q2.
      change (2 ^ 31) with 2147483648 in *. change (2 ^ 64) with 18446744073709551616 in *.
      destruct (Z.eqb_spec (wrap 64 len) 0).
      { assert (len = 0). { unfold wrap in e0. lia. }
        subst len. rewrite (bind_ok _ _ _ (p + 1 + 4) (p + 1 + 4)) by reflexivity.
        change (wrap 64 0) with 0. change (wrap 32 0) with 0. unfold bind, skip, ret.
        rewrite Z.add_0_r, (wrap_small 64) by lia. split.
        - intro X. injection X as <- <-. eexists. split; [reflexivity|].
          unfold get_string. cbn [sm_type sm_off sm_len]. apply resolve_zero; lia.
        - intros (m & X & Y). injection X as <- <-. unfold get_string in Y.
          cbn [sm_type sm_off sm_len] in Y. rewrite resolve_zero in Y by lia. injection Y as <-. reflexivity. }
      rewrite (bind_ok get_pos _ _ (p + 1 + 4) (p + 1 + 4)) by reflexivity.
      rewrite (bind_ok get_pos _ _ (p + 1 + 4) (p + 1 + 4)) by reflexivity.
      apply lazy_tail; try assumption; try congruence; try lia.
      * apply wrap_range; lia.
      * apply wrap_range; lia.
      * intros X. destruct (Z.leb_spec 0 len).
        -- rewrite !(wrap_small 64) by lia. rewrite (wrap_small 32) by lia. lia.
        -- rewrite wrap64_neg in X by lia. lia.
      * intros X. destruct (Z.leb_spec 0 len).
        -- rewrite (wrap_small 64) in X by lia. lia.
        -- rewrite wrap64_neg by lia. unfold wrap. lia.
    + rewrite !(bind_ok (ret (- sl)) _ _ (- sl) (p + 1)) by reflexivity.
      rewrite (wrap_small 64 (- sl)) by lia.
      replace (- sl =? 0) with false by lia.
      rewrite !(bind_ok get_pos _ _ (p + 1) (p + 1)) by reflexivity.
      apply lazy_tail; try assumption; try congruence; try lia.
      intros _. rewrite (wrap_small 64) by lia. lia.
Qed.

Lemma lazy_eager_block r off p s q : small r ->
  read_wz_string_block r off p = (Ok s, q) <->
  exists m, read_wz_string_block_meta r off p = (Ok m, q) /\ get_string r m = Ok s.
Proof.
  intros Hs. unfold read_wz_string_block, read_wz_string_block_meta.
  destruct (read_u8 r p) as [[t|e| |] q1] eqn:E.
  2-4: unfold bind; rewrite E; split; [discriminate|intros (m & X & _); discriminate].
  rewrite !(bind_ok _ _ _ _ _ E).
  destruct ((t =? 0) || (t =? 0x73)). { apply lazy_eager_string; assumption. }
  destruct ((t =? 1) || (t =? 0x1B)).
  - unfold bind. destruct (read_i32 r q1) as [[a|e| |] q2].
    2-4: split; [discriminate|intros (m & X & _); discriminate].
    unfold read_wz_string_at_offset, read_wz_string_meta_at, at_offset.
    pose proof (lazy_eager_string r (wrap 64 (off + wrap 64 a)) s
                 (snd (read_wz_string r (wrap 64 (off + wrap 64 a)))) Hs) as F.
    pose proof (lazy_eager_string r (wrap 64 (off + wrap 64 a)) s
                 (snd (read_wz_string_meta r (wrap 64 (off + wrap 64 a)))) Hs) as G.
    destruct (read_wz_string r _) as [x y]. destruct (read_wz_string_meta r _) as [x' y'].
    cbn [fst snd] in *. split.
    + intro X. injection X as -> <-. destruct (proj1 F eq_refl) as (m & M1 & M2).
      injection M1 as -> _. eexists; split; [reflexivity|assumption].
    + intros (m & X & Y). injection X as -> <-.
      assert (G' := proj2 G (ex_intro _ m (conj eq_refl Y))). injection G' as -> _. reflexivity.
  - unfold ret. split.
    + intro X. injection X as <- <-. eexists; split; reflexivity.
    + intros (m & X & Y). injection X as <- <-. cbn in Y. injection Y as <-. reflexivity.
Qed.

(** *** string objects *)
Lemma dec_view aes iv n : block_cipher aes -> length iv = 4%nat -> bytes iv -> 0 <= n ->
  let d := ecb_ensure aes (ecb_from_iv iv) n in
  exists K, (forall j, byte (K j)) /\ (forall j, Z.of_nat j < n -> ecb_key_fn d j = K j) /\
    forall l, fst (ecb_get_decrypt_slice aes d l) = Ok (xor_ks K 0 l).
Proof.
  intros Ha Hl Hb Hn d. subst d.
  destruct (Z.eqb_spec (sext 32 (le_val iv)) 0) as [e|e].
  - exists (fun _ => 0). unfold ecb_from_iv. rewrite e. cbn [Z.eqb].
    unfold ecb_ensure, ecb_is_enough. cbn [ecb_plain orb].
    split; [intros; unfold byte; lia|]. split.
    + intros. unfold ecb_key_fn, ecb_try_at. cbn [ecb_keys]. rewrite (proj2 (nth_error_None _ _)); [reflexivity|cbn; lia].
    + intros. unfold ecb_get_decrypt_slice, ecb_is_enough, ecb_decrypt. cbn [ecb_plain orb fst].
      rewrite xor_ks_zero. reflexivity.
  - exists (key_byte aes iv).
    destruct (kinv_ensure aes Ha iv Hl Hb _ n ltac:(eapply kinv_init; eauto) Hn) as (K1 & K2 & _).
    split; [intros; apply key_byte_byte; assumption|]. split.
    + intros. unfold ecb_key_fn. rewrite (kinv_has aes Ha iv) by (try assumption; lia). reflexivity.
    + intros. apply (kinv_get_decrypt_slice aes Ha iv Hl Hb); assumption.
Qed.

Lemma slice_all {A} (l : list A) n : n = zlen l -> slice l 0 n = Some l.
Proof.
  intros ->. pose proof (slice_app [] l [] 0 (zlen l) eq_refl) as H.
  rewrite app_nil_r in H. apply H. reflexivity.
Qed.

Definition bmp (t : text) : Prop := Forall (fun c => is_scalar c = true /\ c < 65536) t.

Lemma bmp_scalars t : bmp t -> scalars t.
Proof. apply Forall_impl. tauto. Qed.
Lemma utf16_enc_bmp t : bmp t -> utf16_enc t = t.
Proof.
  unfold bmp, utf16_enc. induction 1 as [|c t [Hc Hc'] Ht IH]; [reflexivity|].
  cbn [flat_map]. unfold utf16_enc_char. replace (c <? 65536) with true by lia.
  cbn [app]. f_equal; assumption.
Qed.

Lemma nonempty_id (l : list Z) : l <> [] -> match l with [] => [0] | _ => l end = l.
Proof. destruct l; [congruence|reflexivity]. Qed.

Lemma from_str_roundtrip aes iv t : block_cipher aes -> length iv = 4%nat -> bytes iv ->
  bmp t -> zlen t < 2 ^ 31 ->
  wzstring_get aes (wzstring_from_str aes t iv) = Ok t.
Proof.
  intros Ha Hl Hb Ht Hn. pose proof (zlen_nonneg t).
  unfold wzstring_from_str. destruct t as [|c0 t0]; [reflexivity|].
  remember (c0 :: t0) as t. destruct (is_ascii t) eqn:EA.
  - rewrite (utf8_enc_ascii t EA).
    destruct (dec_view aes iv (zlen t) Ha Hl Hb ltac:(lia)) as (K & K1 & K2 & K3).
    set (d := ecb_ensure aes (ecb_from_iv iv) (zlen t)) in *.
    assert (E : encrypt_ascii (ecb_key_fn d) t = mapi_from (enc_ascii_byte K) 0 t).
    { unfold encrypt_ascii. rewrite (utf8_enc_ascii t EA). apply mapi_from_ext.
      intros. unfold enc_ascii_byte. rewrite K2; [reflexivity|]. unfold zlen. lia. }
    rewrite E. rewrite nonempty_id.
    2:{ subst t. cbn. discriminate. }
    unfold wzstring_get. cbn [sm_type sm_off sm_len].
    change (2 ^ 31) with 2147483648 in Hn.
    rewrite !Z.add_0_l, (wrap_small 32), (wrap_small 64) by lia.
    rewrite slice_all by (unfold zlen; rewrite mapi_from_length; reflexivity).
    rewrite K3. cbn [rmap rbind]. rewrite ascii_cipher_inv.
    rewrite <- (utf8_enc_ascii t EA) at 1. rewrite utf8_roundtrip by (apply bmp_scalars; assumption).
    reflexivity.
  - rewrite (utf16_enc_bmp t Ht).
    destruct (dec_view aes iv (zlen t * 2) Ha Hl Hb ltac:(lia)) as (K & K1 & K2 & K3).
    set (d := ecb_ensure aes (ecb_from_iv iv) (zlen t * 2)) in *.
    assert (E : encrypt_unicode (ecb_key_fn d) t = concat (mapi_from (enc_unicode_unit K) 0 t)).
    { unfold encrypt_unicode. rewrite (utf16_enc_bmp t Ht). f_equal. apply mapi_from_ext.
      intros. unfold enc_unicode_unit. unfold zlen in K2. rewrite !K2 by lia. reflexivity. }
    rewrite E. rewrite nonempty_id.
    2:{ subst t. cbn. discriminate. }
    unfold wzstring_get. cbn [sm_type sm_off sm_len].
    change (2 ^ 31) with 2147483648 in Hn.
    rewrite !Z.add_0_l, (wrap_small 32), (wrap_small 64) by lia.
    rewrite slice_all by (unfold zlen; rewrite enc_unicode_length; lia).
    rewrite K3. cbn [rbind].
    pose proof (unicode_cipher_inv K 0 t K1) as X. rewrite Nat.mul_0_r in X. rewrite X.
    2:{ eapply Forall_impl; [|exact Ht]. cbn. unfold is_scalar. lia. }
    cbn [rmap rbind]. rewrite <- (utf16_enc_bmp t Ht) at 1.
    rewrite utf16_roundtrip by (apply bmp_scalars; assumption). reflexivity.
Qed.

Lemma flat_le2_length us : length (flat_map (le_bytes 2) us) = (2 * length us)%nat.
Proof. induction us; cbn [flat_map length]; [reflexivity|]. rewrite app_length, IHus, le_bytes_length. lia. Qed.

Lemma pkg2_dir_roundtrip t : bmp t -> t <> [] -> zlen t < 2 ^ 31 ->
  wzstring_pkg2_get (wzstring_from_pkg2_dir t) = Ok t.
Proof.
  intros Ht Hne Hn. unfold wzstring_from_pkg2_dir, wzstring_pkg2_get.
  unfold encrypt_pkg2_dir. rewrite pkg2_decrypt_xor, (utf16_enc_bmp t Ht).
  rewrite nonempty_id.
  2:{ destruct t; [congruence|]. cbn. discriminate. }
  pose proof (zlen_nonneg t). change (2 ^ 31) with 2147483648 in Hn.
  cbn [sm_off sm_len]. rewrite Z.add_0_l, (wrap_small 32), (wrap_small 64) by lia.
  rewrite slice_all by (unfold zlen; rewrite xor_ks_length, flat_le2_length; lia).
  rewrite pkg2_decrypt_xor, xor_ks_twice, chunks_le2.
  2:{ eapply Forall_impl; [|exact Ht]. cbn. unfold is_scalar. lia. }
  cbn [rmap rbind]. rewrite <- (utf16_enc_bmp t Ht) at 1.
  rewrite utf16_roundtrip by (apply bmp_scalars; assumption). reflexivity.
Qed.

Lemma pkg2_dir_roundtrip_nil : wzstring_pkg2_get (wzstring_from_pkg2_dir []) = Ok [].
Proof. reflexivity. Qed.
