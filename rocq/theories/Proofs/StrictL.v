(** Strict decoding of stored texts. *)
From Coq Require Import ZArith List Bool Lia ZifyBool ZifyNat.
From Verif.Model Require Import Base Utf Keys Reader WzStr Ms.
From Verif.Spec Require Import Wire Stream StrWire Media PropWire.
From Verif.Proofs Require Import BaseL WireL KeysL StringL ReaderL StrWireL AtL MediaL.
Ltac Zify.zify_post_hook ::= Z.div_mod_to_equations.
Import ListNotations.
Open Scope Z_scope.

Lemma strict16_sound n : forall us t, (length us <= n)%nat -> Forall (fun u => 0 <= u < 65536) us ->
  utf16_strict us = Some t -> unicode t /\ us = units16 t.
Proof.
  unfold utf16_strict. induction n as [|n IH]; intros us t L F H.
  - destruct us; [|cbn in L; lia]. cbn in H. injection H as <-. split; [constructor|reflexivity].
  - destruct us as [|u r]; [cbn in H; injection H as <-; split; [constructor|reflexivity]|].
    inversion_clear F as [|? ? Hu Fr]. cbn [utf16_items] in H. destruct (is_low u) eqn:Lo; [discriminate|].
    destruct (is_high u) eqn:Hi.
    + destruct r as [|v r']; [discriminate|]. inversion_clear Fr as [|? ? Hv Fr'].
      destruct (is_low v) eqn:Lv; [|discriminate]. cbn [all_some] in H.
      destruct (all_some (utf16_items r')) as [t'|] eqn:E; [|discriminate]. injection H as <-.
      destruct (IH r' t') as [U ->]; [cbn in L; lia|exact Fr'|exact E|].
      unfold is_low, is_high, inr_ in *. split.
      * constructor; [lia|exact U].
      * cbn [units16 flat_map]. fold (units16 t').
        replace ((u - 55296) * 1024 + (v - 56320) + 65536 <? 65536) with false by lia. cbn [app].
        f_equal; [lia|]. f_equal. lia.
    + cbn [all_some] in H. destruct (all_some (utf16_items r)) as [t'|] eqn:E; [|discriminate]. injection H as <-.
      destruct (IH r t') as [U ->]; [cbn in L; lia|exact Fr|exact E|].
      unfold is_low, is_high, inr_ in *. split.
      * constructor; [lia|exact U].
      * cbn [units16 flat_map]. fold (units16 t'). replace (u <? 65536) with true by lia. reflexivity.
Qed.
Lemma strict16 us t : Forall (fun u => 0 <= u < 65536) us ->
  utf16_strict us = Some t <-> unicode t /\ us = units16 t.
Proof.
  intros F. split; [apply (strict16_sound (length us)); [lia|exact F]|]. intros [U ->].
  unfold utf16_strict. rewrite units16_eq, utf16_items_enc by (apply unicode_scalars, U). apply all_some_map.
Qed.

Lemma ascii_back ks l : body_ascii ks (mapi_from resolve_ascii_char 0 (xor_ks ks 0 l)) = l.
Proof.
  rewrite body_ascii_eq. generalize 0%nat. induction l as [|b l IH]; intros i; [reflexivity|].
  cbn [xor_ks mapi_from]. rewrite IH. f_equal. unfold enc_ascii_byte, resolve_ascii_char. rewrite wrap_add_l by lia.
  set (w := wrap 8 _). rewrite (Z.lxor_assoc _ w), <- (Z.lxor_assoc w w), Z.lxor_nilpotent, Z.lxor_0_l.
  apply lxor_cancel_r.
Qed.
Lemma ascii_forth ks l : mapi_from resolve_ascii_char 0 (xor_ks ks 0 (body_ascii ks l)) = l.
Proof. rewrite body_ascii_eq. apply ascii_cipher_inv. Qed.

Lemma pairs_ind (P : list Z -> Prop) : P [] -> (forall a b l, P l -> P (a :: b :: l)) ->
  forall l, Nat.even (length l) = true -> P l.
Proof.
  intros P0 PS. fix IH 1. intros [|a [|b l]] E; [exact P0|discriminate E|]. apply PS, IH, E.
Qed.
Lemma lxor_byte a b : byte a -> byte b -> byte (Z.lxor a b).
Proof. unfold byte. intros. apply (lxor_range 8); lia. Qed.
Lemma le2 a b : byte a -> byte b -> le_bytes 2 (a + 256 * b) = [a; b].
Proof. unfold byte. intros. cbn [le_bytes]. f_equal; [lia|]. f_equal. lia. Qed.

Lemma unicode_back ks l : (forall j, byte (ks j)) -> bytes l -> Nat.even (length l) = true ->
  exists us, rmap (mapi_from resolve_unicode_char 0) (chunks_u16 (xor_ks ks 0 l)) = Ok us /\
    Forall (fun u => 0 <= u < 65536) us /\ body_unicode ks us = l.
Proof.
  intros Hk B E.
  cut (forall i, exists us, rmap (mapi_from resolve_unicode_char i) (chunks_u16 (xor_ks ks (2 * i) l)) = Ok us /\
    Forall (fun u => 0 <= u < 65536) us /\ concat (mapi_from (enc_unicode_unit ks) i us) = l).
  { intros H. destruct (H 0%nat) as (us & H1 & H2 & H3). exists us. rewrite body_unicode_eq by assumption. auto. }
  revert B. pattern l. refine (pairs_ind _ _ _ l E); clear l E.
  - intros _ i. exists []. repeat split. constructor.
  - intros a b l IH B i. inversion_clear B as [|? ? Ba B']. inversion_clear B' as [|? ? Bb Bl].
    destruct (IH Bl (S i)) as (us & H1 & H2 & H3). cbn [xor_ks chunks_u16].
    replace (S (S (2 * i))) with (2 * S i)%nat by lia.
    destruct (chunks_u16 (xor_ks ks (2 * S i) l)) as [cs| | |]; try discriminate H1. cbn [rmap rbind] in *. injection H1 as H1.
    cbn [mapi_from]. rewrite H1. eexists. split; [reflexivity|].
    assert (K1 := Hk (2 * i)%nat). assert (K2 := Hk (S (2 * i))).
    assert (X : 0 <= resolve_unicode_char (Z.lxor a (ks (2 * i)%nat) + 256 * Z.lxor b (ks (S (2 * i)))) i < 65536).
    { unfold resolve_unicode_char. pose proof (lxor_byte _ _ Ba K1) as X1. pose proof (lxor_byte _ _ Bb K2) as X2.
      unfold byte in X1, X2. apply (lxor_range 16); [lia| |apply wrap_range; lia]. change (2 ^ 16) with 65536. lia. }
    split; [constructor; assumption|].
    cbn [mapi_from concat]. rewrite H3. change (a :: b :: l) with ([a; b] ++ l). f_equal.
    unfold enc_unicode_unit, resolve_unicode_char. rewrite wrap_add_l by lia. set (w := wrap 16 _).
    replace (2 * i + 1)%nat with (S (2 * i)) by lia.
    set (k1 := ks (2 * i)%nat) in *. set (k2 := ks (S (2 * i))) in *.
    assert (Hs : 0 <= Z.shiftl k2 8 < 2 ^ 16) by (unfold byte in K2; rewrite Z.shiftl_mul_pow2 by lia; lia).
    rewrite (wrap_small 16 (Z.shiftl k2 8)) by lia.
    rewrite add_disjoint8 by (apply (lxor_range 8); unfold byte in *; lia). rewrite Z.shiftl_lxor.
    rewrite <- (le2 a b) by assumption. f_equal. rewrite add_disjoint8 by (unfold byte in Ba; lia).
    set (sb := Z.shiftl b 8). set (sk := Z.shiftl k2 8).
    apply Z.bits_inj'. intros n _. rewrite !Z.lxor_spec.
    destruct (Z.testbit a n), (Z.testbit sb n), (Z.testbit k1 n), (Z.testbit sk n), (Z.testbit w n); reflexivity.
Qed.
Lemma pkg2_back ks l : (forall j, byte (ks j)) -> bytes l -> Nat.even (length l) = true ->
  exists us, chunks_u16 (xor_ks ks 0 l) = Ok us /\ Forall (fun u => 0 <= u < 65536) us /\ body_pkg2 ks us = l.
Proof.
  intros Hk B E.
  assert (B' : bytes (xor_ks ks 0 l)).
  { clear E. revert B. generalize 0%nat. unfold bytes. induction l as [|a l IH]; intros i B; [constructor|]. inversion_clear B. cbn [xor_ks].
    constructor; [apply lxor_byte; [assumption|apply Hk]|apply IH; assumption]. }
  assert (E' : Nat.even (length (xor_ks ks 0 l)) = true) by (rewrite xor_ks_length; exact E).
  assert (C : exists us, chunks_u16 (xor_ks ks 0 l) = Ok us /\ Forall (fun u => 0 <= u < 65536) us /\ flat_map (le_bytes 2) us = xor_ks ks 0 l).
  { revert B'. pattern (xor_ks ks 0 l). refine (pairs_ind _ _ _ _ E').
    - intros _. exists []. repeat split. constructor.
    - intros a b m IH B0. inversion_clear B0 as [|? ? Ba B1]. inversion_clear B1 as [|? ? Bb Bm].
      destruct (IH Bm) as (us & H1 & H2 & H3). exists ((a + 256 * b) :: us).
      split; [cbn [chunks_u16]; rewrite H1; reflexivity|].
      unfold byte in Ba, Bb. split; [constructor; [lia|assumption]|].
      cbn [flat_map]. rewrite le2 by (unfold byte; lia). cbn [app]. congruence. }
  destruct C as (us & H1 & H2 & H3). exists us. split; [exact H1|]. split; [exact H2|].
  assert (X : xor_ks ks 0 (body_pkg2 ks us) = xor_ks ks 0 l) by (rewrite xor_ks_body_pkg2; assumption).
  assert (I : forall m m' i, xor_ks ks i m = xor_ks ks i m' -> m = m').
  { induction m as [|x m IHm]; intros [|y m'] i H; cbn [xor_ks] in H; try discriminate; [reflexivity|].
    injection H as H0 H'. f_equal; [|now apply (IHm m' (S i))].
    rewrite <- (lxor_cancel_r x (ks i)), H0. apply lxor_cancel_r. }
  exact (I _ _ _ X).
Qed.
Lemma unicode_forth ks us : (forall j, byte (ks j)) -> Forall (fun u => 0 <= u < 65536) us ->
  rmap (mapi_from resolve_unicode_char 0) (chunks_u16 (xor_ks ks 0 (body_unicode ks us))) = Ok us.
Proof. intros Hk F. rewrite body_unicode_eq by assumption. apply (unicode_cipher_inv ks 0 us Hk F). Qed.
Lemma pkg2_forth ks us : (forall j, byte (ks j)) -> Forall (fun u => 0 <= u < 65536) us ->
  chunks_u16 (xor_ks ks 0 (body_pkg2 ks us)) = Ok us.
Proof. intros Hk F. rewrite xor_ks_body_pkg2 by assumption. apply chunks_le2, F. Qed.

Lemma units_unit t : unicode t -> Forall (fun u => 0 <= u < 65536) (units16 t).
Proof. intros U. rewrite units16_eq. apply utf16_enc_units, unicode_scalars, U. Qed.

Lemma strict16_lossy us t : utf16_strict us = Some t -> utf16_lossy us = t.
Proof.
  unfold utf16_strict, utf16_lossy. generalize (utf16_items us) as l. intros l. revert t.
  induction l as [|[x|] l IH]; intros t H; cbn in *; [congruence| |discriminate].
  destruct (all_some l) as [t'|] eqn:E; [|discriminate]. injection H as <-. now rewrite (IH t').
Qed.
Lemma strict8_lossy us t : utf8_strict us = Some t -> utf8_lossy us = t.
Proof.
  unfold utf8_strict, utf8_lossy. generalize (utf8_items us) as l. intros l. revert t.
  induction l as [|[x|] l IH]; intros t H; cbn in *; [congruence| |discriminate].
  destruct (all_some l) as [t'|] eqn:E; [|discriminate]. injection H as <-. now rewrite (IH t').
Qed.

Lemma enc_le2 u : enc_le 2 u = [u mod 256; (u / 256) mod 256].
Proof. unfold enc_le. cbn [seq map]. change (2 ^ (8 * Z.of_nat 0)) with 1. change (2 ^ (8 * Z.of_nat 1)) with 256. rewrite Z.div_1_r. reflexivity. Qed.
Lemma units_of_le2 us : Forall (fun u => 0 <= u < 65536) us -> units_of (flat_map (enc_le 2) us) = us.
Proof.
  induction 1 as [|u us Hu F IH]; [reflexivity|].
  change (flat_map (enc_le 2) (u :: us)) with (enc_le 2 u ++ flat_map (enc_le 2) us). rewrite enc_le2.
  cbn [app units_of]. rewrite IH. f_equal. lia.
Qed.
Lemma units_of_back l : bytes l -> Nat.even (length l) = true ->
  Forall (fun u => 0 <= u < 65536) (units_of l) /\ flat_map (enc_le 2) (units_of l) = l.
Proof.
  intros B E. revert B. pattern l. refine (pairs_ind _ _ _ _ E); clear l E.
  - intros _. split; [constructor|reflexivity].
  - intros a b m IH B0. inversion_clear B0 as [|? ? Ba B1]. inversion_clear B1 as [|? ? Bb Bm].
    destruct (IH Bm) as (H2 & H3). unfold byte in Ba, Bb. cbn [units_of]. split; [constructor; [lia|assumption]|].
    set (u := a + 256 * b). change (flat_map (enc_le 2) (u :: units_of m)) with (enc_le 2 u ++ flat_map (enc_le 2) (units_of m)).
    rewrite enc_le2.    rewrite H3. subst u. cbn [app]. f_equal; [lia|]. f_equal. lia.
Qed.
