From Coq Require Import ZArith List Bool Lia ZifyBool ZifyNat.
From Verif.Model Require Import Base Utf Keys Reader WzStr.
From Verif.Spec Require Import Wire Stream.
From Verif.Proofs Require Import BaseL WireL KeysL.
Ltac Zify.zify_post_hook ::= Z.div_mod_to_equations.

(** *** UTF-16 *)
Definition scalars (t : text) : Prop := Forall (fun c => is_scalar c = true) t.

Lemma utf16_items_enc t : scalars t -> utf16_items (utf16_enc t) = map Some t.
Proof.
  unfold scalars, utf16_enc. induction 1 as [|c t Hc Ht IH]; [reflexivity|].
  cbn [flat_map map]. unfold utf16_enc_char, is_scalar in *.
  destruct (Z.ltb_spec c 65536).
  - cbn [app utf16_items]. unfold is_low, is_high, inr_.
    replace (_ && _) with false by lia. replace (_ && _) with false by lia.
    f_equal; assumption.
  - cbn [app utf16_items]. unfold is_low, is_high, inr_.
    replace (_ && _) with false by lia. replace (_ && _) with true by lia.
    replace (_ && _) with true by lia.
    f_equal; [f_equal; lia|assumption].
Qed.

Lemma map_or_repl t : map or_repl (map Some t) = t.
Proof. rewrite map_map. cbn [or_repl]. apply map_id. Qed.

Lemma utf16_roundtrip t : scalars t -> utf16_lossy (utf16_enc t) = t.
Proof. intros. unfold utf16_lossy. rewrite utf16_items_enc by assumption. apply map_or_repl. Qed.

Lemma all_some_map {A} (l : list A) : all_some (map Some l) = Some l.
Proof. induction l; cbn [map all_some]; [reflexivity|]. rewrite IHl. reflexivity. Qed.

Lemma utf16_enc_units t : scalars t -> Forall (fun u => 0 <= u < 65536) (utf16_enc t).
Proof.
  unfold scalars, utf16_enc. induction 1 as [|c t Hc Ht IH]; cbn [flat_map]; [constructor|].
  apply Forall_app; split; [|assumption]. unfold utf16_enc_char, is_scalar in *.
  destruct (Z.ltb_spec c 65536); repeat apply Forall_cons; try apply Forall_nil; lia.
Qed.

(** *** UTF-8 *)
Lemma utf8_step_enc c r : is_scalar c = true -> utf8_step (utf8_enc_char c ++ r) = Some (Some c, r).
Proof.
  unfold is_scalar, utf8_enc_char. intro Hc.
  destruct (Z.ltb_spec c 128).
  { cbn [app utf8_step]. replace (c <? 128) with true by lia. reflexivity. }
  destruct (Z.ltb_spec c 2048).
  { cbn [app utf8_step]. unfold inr_, is_cont, inr_.
    replace (192 + c / 64 <? 128) with false by lia.
    replace (_ && _) with true by lia.
    replace (_ && _) with true by lia. do 3 f_equal. lia. }
  destruct (Z.ltb_spec c 65536).
  { cbn [app utf8_step]. unfold inr_, is_cont, inr_.
    replace (224 + c / 4096 <? 128) with false by lia.
    replace ((194 <=? 224 + c / 4096) && (224 + c / 4096 <=? 223)) with false by lia.
    replace ((224 <=? 224 + c / 4096) && (224 + c / 4096 <=? 239)) with true by lia.
    replace (if 224 + c / 4096 =? 224 then _ else _) with true by
      (destruct (Z.eqb_spec (224 + c / 4096) 224); [lia|destruct (Z.eqb_spec (224 + c / 4096) 237); lia]).
    replace (_ && _) with true by lia. do 3 f_equal. lia. }
  { cbn [app utf8_step]. unfold inr_, is_cont, inr_.
    replace (240 + c / 262144 <? 128) with false by lia.
    replace ((194 <=? 240 + c / 262144) && (240 + c / 262144 <=? 223)) with false by lia.
    replace ((224 <=? 240 + c / 262144) && (240 + c / 262144 <=? 239)) with false by lia.
    replace ((240 <=? 240 + c / 262144) && (240 + c / 262144 <=? 244)) with true by lia.
    replace (if 240 + c / 262144 =? 240 then _ else _) with true by
      (destruct (Z.eqb_spec (240 + c / 262144) 240); [lia|destruct (Z.eqb_spec (240 + c / 262144) 244); lia]).
    replace ((128 <=? 128 + (c / 64) mod 64) && (128 + (c / 64) mod 64 <=? 191)) with true by lia.
    replace (_ && _) with true by lia. do 3 f_equal. lia. }
Qed.

Lemma utf8_enc_char_len c : (1 <= length (utf8_enc_char c))%nat.
Proof. unfold utf8_enc_char. repeat destruct (_ <? _); cbn; lia. Qed.

Lemma utf8_go_enc t : scalars t -> forall f, (length (utf8_enc t) <= f)%nat ->
  utf8_go f (utf8_enc t) = map Some t.
Proof.
  unfold scalars, utf8_enc. induction 1 as [|c t Hc Ht IH]; intros f Hf; cbn [flat_map map] in *.
  - destruct f; reflexivity.
  - rewrite app_length in Hf. pose proof (utf8_enc_char_len c).
    destruct f; [lia|]. cbn [utf8_go]. rewrite utf8_step_enc by assumption.
    f_equal. apply IH. lia.
Qed.

Lemma utf8_roundtrip t : scalars t -> utf8_lossy (utf8_enc t) = t.
Proof.
  intros. unfold utf8_lossy, utf8_items. rewrite utf8_go_enc by auto. apply map_or_repl.
Qed.
Lemma utf8_strict_roundtrip t : scalars t -> utf8_strict (utf8_enc t) = Some t.
Proof.
  intros. unfold utf8_strict, utf8_items. rewrite utf8_go_enc by auto. apply all_some_map.
Qed.

Lemma utf8_enc_ascii t : is_ascii t = true -> utf8_enc t = t.
Proof.
  unfold is_ascii, utf8_enc. induction t as [|c t IH]; [reflexivity|].
  cbn [forallb flat_map]. rewrite andb_true_iff. intros [Hc Ht].
  unfold utf8_enc_char. rewrite Hc. cbn [app]. f_equal. auto.
Qed.

Lemma utf8_enc_bytes t : scalars t -> bytes (utf8_enc t).
Proof.
  unfold scalars, utf8_enc. induction 1 as [|c t Hc Ht IH]; cbn [flat_map]; [constructor|].
  apply bytes_app; split; [|assumption]. unfold utf8_enc_char, is_scalar in *.
  destruct (Z.ltb_spec c 128); [|destruct (Z.ltb_spec c 2048); [|destruct (Z.ltb_spec c 65536)]];
  repeat apply Forall_cons; try apply Forall_nil; unfold byte; lia.
Qed.

(** *** the string cipher *)
Lemma ascii_cipher_inv key i l :
  mapi_from resolve_ascii_char i (xor_ks key i (mapi_from (enc_ascii_byte key) i l)) = l.
Proof.
  revert i; induction l as [|b l IH]; intros; [reflexivity|].
  cbn [mapi_from xor_ks]. rewrite IH. f_equal.
  unfold resolve_ascii_char, enc_ascii_byte. rewrite wrap_add_l by lia.
  set (w := wrap 8 _). rewrite <- (Z.lxor_assoc b w), !lxor_cancel_r. reflexivity.
Qed.

Lemma add_disjoint8 p q : 0 <= p < 256 -> p + 256 * q = Z.lxor p (Z.shiftl q 8).
Proof.
  intros. rewrite <- Z.add_nocarry_lxor.
  - rewrite Z.shiftl_mul_pow2 by lia. lia.
  - apply Z.bits_inj'; intros n Hn. rewrite Z.land_spec, Z.bits_0, Z.shiftl_spec by lia.
    destruct (Z.ltb_spec n 8).
    + rewrite (Z.testbit_neg_r q) by lia. apply andb_false_r.
    + replace (Z.testbit p n) with false; [reflexivity|]. symmetry.
      rewrite <- (Z.mod_small p (2 ^ 8)) by lia. apply Z.mod_pow2_bits_high. lia.
Qed.

Lemma xor16 x k1 k2 : 0 <= x < 65536 -> 0 <= k1 < 256 -> 0 <= k2 < 256 ->
  Z.lxor (x mod 256) k1 + 256 * Z.lxor ((x / 256) mod 256) k2
  = Z.lxor x (Z.lxor k1 (Z.shiftl k2 8)).
Proof.
  intros. rewrite add_disjoint8 by (apply (lxor_range 8); lia).
  rewrite Z.shiftl_lxor.
  replace ((x / 256) mod 256) with (x / 256) by lia.
  assert (E : x = Z.lxor (x mod 256) (Z.shiftl (x / 256) 8)).
  { rewrite <- add_disjoint8 by lia. lia. }
  rewrite E at 3.
  rewrite !Z.lxor_assoc. f_equal. rewrite <- !Z.lxor_assoc. f_equal. apply Z.lxor_comm.
Qed.

Lemma unicode_cipher_inv key i us : (forall j, byte (key j)) ->
  Forall (fun u => 0 <= u < 65536) us ->
  rmap (mapi_from resolve_unicode_char i)
    (chunks_u16 (xor_ks key (2 * i) (concat (mapi_from (enc_unicode_unit key) i us)))) = Ok us.
Proof.
  intros Hk Hus. revert i; induction Hus as [|u us Hu Hus IH]; intros; [reflexivity|].
  cbn [mapi_from concat]. unfold enc_unicode_unit at 1. cbn [le_bytes app xor_ks chunks_u16].
  replace (S (S (2 * i))) with (2 * S i)%nat by lia.
  specialize (IH (S i)).
  destruct (chunks_u16 _) as [cs| | |]; cbn [rmap rbind] in *; try discriminate IH.
  injection IH as IH. f_equal. cbn [mapi_from]. rewrite IH. f_equal.
  assert (K1 := Hk (2 * i)%nat). assert (K2 := Hk (2 * i + 1)%nat).
  replace (S (2 * i)) with (2 * i + 1)%nat by lia.
  unfold byte in *.
  set (k1 := key (2 * i)%nat) in *. set (k2 := key (2 * i + 1)%nat) in *.
  set (w := wrap 16 _).
  assert (Hw : 0 <= w < 2 ^ 16) by (apply wrap_range; lia).
  assert (Hs : 0 <= Z.shiftl k2 8 < 2 ^ 16) by (rewrite Z.shiftl_mul_pow2 by lia; lia).
  rewrite (wrap_small 16 (Z.shiftl k2 8)) by lia.
  rewrite xor16; [|apply (lxor_range 16); [lia|lia|]; apply (lxor_range 16); [lia| |lia]; apply (lxor_range 16); lia|lia|lia].
  unfold resolve_unicode_char. rewrite wrap_add_l by lia. fold w.
  set (s := Z.shiftl k2 8).
  rewrite (Z.lxor_assoc w k1 s), (Z.lxor_comm w), <- (Z.lxor_assoc u).
  set (m := Z.lxor k1 s).
  rewrite (Z.lxor_assoc (Z.lxor u m) w m), (Z.lxor_comm w m), <- (Z.lxor_assoc (Z.lxor u m) m w).
  rewrite lxor_cancel_r. apply lxor_cancel_r.
Qed.

Lemma chunks_le2 us : Forall (fun u => 0 <= u < 65536) us -> chunks_u16 (flat_map (le_bytes 2) us) = Ok us.
Proof.
  induction 1 as [|u us Hu Hus IH]; [reflexivity|].
  cbn [flat_map]. change (le_bytes 2 u) with [u mod 256; (u / 256) mod 256].
  cbn [app chunks_u16]. rewrite IH. cbn [rmap rbind]. do 2 f_equal. lia.
Qed.

Lemma mapi_from_length {A B} (f : A -> nat -> B) i l : length (mapi_from f i l) = length l.
Proof. revert i; induction l; intros; cbn [mapi_from length]; auto. Qed.

Lemma enc_unicode_length key i us : length (concat (mapi_from (enc_unicode_unit key) i us)) = (2 * length us)%nat.
Proof.
  revert i; induction us; intros; cbn [mapi_from concat length]; [reflexivity|].
  rewrite app_length, IHus. unfold enc_unicode_unit. rewrite le_bytes_length. lia.
Qed.

Lemma mapi_from_ext {A B} (f g : A -> nat -> B) i l :
  (forall x j, (i <= j < i + length l)%nat -> f x j = g x j) -> mapi_from f i l = mapi_from g i l.
Proof.
  revert i; induction l; intros i H; cbn [mapi_from]; [reflexivity|].
  rewrite H by (cbn; lia). f_equal. apply IHl. intros. apply H. cbn. lia.
Qed.
