From Coq Require Import ZArith List Bool Lia ZifyBool ZifyNat.
From Verif.Model Require Import Base Utf Keys Reader.
From Verif.Spec Require Import Stream.
From Verif.Proofs Require Import BaseL.
Ltac Zify.zify_post_hook ::= Z.div_mod_to_equations.

Section S.
  Variable aes : list Z -> list Z.
  Hypothesis Haes : block_cipher aes.
  Variable iv : list Z.
  Hypothesis Hiv : length iv = 4%nat.
  Hypothesis Hivb : bytes iv.

  Lemma key_block_ok k : length (key_block aes iv k) = 16%nat /\ bytes (key_block aes iv k).
  Proof.
    induction k; cbn [key_block].
    - apply Haes; [rewrite !app_length; lia|].
      rewrite !Forall_app. repeat split; assumption.
    - apply Haes; tauto.
  Qed.

  Definition blocks (m : nat) : list Z := concat (map (key_block aes iv) (seq 0 m)).

  Lemma blocks_S m : blocks (S m) = blocks m ++ key_block aes iv m.
  Proof.
    unfold blocks. rewrite seq_S, map_app, concat_app. cbn. rewrite app_nil_r. reflexivity.
  Qed.
  Lemma blocks_length m : length (blocks m) = (16 * m)%nat.
  Proof.
    induction m; [reflexivity|]. rewrite blocks_S, app_length, IHm, (proj1 (key_block_ok m)). lia.
  Qed.

  Lemma key_byte_eq i : key_byte aes iv i = nth (i mod 16) (key_block aes iv (i / 16)) 0.
  Proof. reflexivity. Qed.

  Lemma blocks_nth m i : (i < 16 * m)%nat -> nth_error (blocks m) i = Some (key_byte aes iv i).
  Proof.
    induction m; [lia|]. intros. rewrite blocks_S.
    destruct (Nat.ltb_spec i (16 * m)).
    - rewrite nth_error_app1 by (rewrite blocks_length; lia). auto.
    - rewrite nth_error_app2, blocks_length by (rewrite blocks_length; lia).
      unfold key_byte. assert (i / 16 = m)%nat as -> by lia.
      replace (i mod 16)%nat with (i - 16 * m)%nat by lia.
      apply nth_error_nth'. rewrite (proj1 (key_block_ok m)). lia.
  Qed.

  Lemma ecb_fill_ok n : forall m junk, (1 <= m)%nat -> (16 * n + 16 <= length junk)%nat ->
    exists junk', ecb_fill aes n (16 * m) (blocks m ++ junk) = blocks (m + n) ++ junk'
                  /\ (length junk' = length junk - 16 * n)%nat.
  Proof.
    induction n; intros m junk Hm Hj; cbn [ecb_fill].
    - exists junk. rewrite Nat.add_0_r. split; [reflexivity|lia].
    - destruct m as [|m']; [lia|].
      assert (E : firstn 16 (skipn (16 * S m' - 16) (blocks (S m') ++ junk)) = key_block aes iv m').
      { rewrite blocks_S, <- app_assoc, skipn_app, blocks_length.
        rewrite skipn_all2 by (rewrite blocks_length; lia).
        replace (16 * S m' - 16 - 16 * m')%nat with 0%nat by lia. cbn [skipn app].
        rewrite firstn_app, (proj1 (key_block_ok m')), Nat.sub_diag, firstn_O.
        rewrite firstn_all2 by (rewrite (proj1 (key_block_ok m')); lia). apply app_nil_r. }
      rewrite E.
      unfold ecb_padded, pad_block. change (aes (key_block aes iv m')) with (key_block aes iv (S m')).
      assert (Hp : length (aes (repeat 16 16)) = 16%nat).
      { apply Haes; [reflexivity|]. repeat constructor; lia. }
      assert (W : write_at (blocks (S m') ++ junk) (16 * S m') (key_block aes iv (S m') ++ aes (repeat 16 16))
                  = blocks (S (S m')) ++ (aes (repeat 16 16) ++ skipn 32 junk)).
      { unfold write_at. rewrite (blocks_S (S m')).
        rewrite firstn_app, blocks_length, Nat.sub_diag, firstn_O.
        rewrite firstn_all2 by (rewrite blocks_length; lia). rewrite app_nil_r.
        rewrite <- !app_assoc. do 3 f_equal.
        rewrite skipn_app, skipn_all2 by (rewrite !app_length, blocks_length; lia).
        cbn [app]. rewrite app_length, (proj1 (key_block_ok (S m'))), Hp, blocks_length.
        f_equal. lia. }
      rewrite W.
      replace (16 * S m' + 16)%nat with (16 * S (S m'))%nat by lia.
      destruct (IHn (S (S m')) (aes (repeat 16 16) ++ skipn 32 junk)) as (j' & E' & L').
      { lia. } { rewrite app_length, Hp, skipn_length. lia. }
      exists j'. rewrite E'. split; [f_equal; f_equal; lia|].
      rewrite L', app_length, Hp, skipn_length. lia.
  Qed.

  (** Invariant: an encrypting decryptor for this IV whose key buffer is a
      4096-aligned prefix of the stream. *)
  Definition kinv (d : ecb) : Prop :=
    ecb_iv d = iv /\ ecb_plain d = false /\
    exists m, ecb_keys d = blocks (256 * m).

  Lemma kinv_ensure d n : kinv d -> 0 <= n ->
    kinv (ecb_ensure aes d n) /\ n <= zlen (ecb_keys (ecb_ensure aes d n)) /\
    zlen (ecb_keys (ecb_ensure aes d n)) = Z.max (zlen (ecb_keys d)) ((n + 4095) / 4096 * 4096).
  Proof.
    intros (Hi & Hp & m & Hk) Hn.
    unfold ecb_ensure, ecb_is_enough. rewrite Hp. cbn [orb].
    assert (HL : zlen (ecb_keys d) = 4096 * Z.of_nat m).
    { rewrite Hk. unfold zlen. rewrite blocks_length. lia. }
    destruct (Z.leb_spec n (zlen (ecb_keys d))).
    { split; [repeat split; eauto|]. split; [assumption|].
      rewrite HL in *. lia. }
    remember ((n + 4095) / 4096) as q.
    assert (Hq : Z.of_nat m < q) by lia.
    assert (K1 : exists m1, (1 <= m1)%nat /\ (Z.of_nat m1 <= 256 * q) /\
      match ecb_keys d with
        | [] => firstn 16 (write_at (repeat 0 32) 0
                  (ecb_padded aes (ecb_iv d ++ ecb_iv d ++ ecb_iv d ++ ecb_iv d)))
        | k => k
        end = blocks m1).
    { destruct (ecb_keys d) as [|k0 kr] eqn:Ek.
      - exists 1%nat. split; [lia|]. split; [lia|].
        rewrite Hi. unfold ecb_padded.
        change (aes (iv ++ iv ++ iv ++ iv)) with (key_block aes iv 0).
        unfold write_at. rewrite firstn_O. cbn [app]. rewrite <- !app_assoc.
        rewrite firstn_app, (proj1 (key_block_ok 0)), Nat.sub_diag, firstn_O.
        rewrite firstn_all2 by (rewrite (proj1 (key_block_ok 0)); lia).
        rewrite app_nil_r, blocks_S. reflexivity.
      - exists (256 * m)%nat.
        assert (m <> 0)%nat. { intros ->. rewrite Hk in *. discriminate. }
        repeat split; try lia. rewrite <- Hk. reflexivity. }
    destruct K1 as (m1 & Hm1 & Hle & ->).
    assert (Hz : zlen (blocks m1) = 16 * Z.of_nat m1) by (unfold zlen; rewrite blocks_length; lia).
    rewrite Hz.
    assert (K2 : exists junk, (if 16 * Z.of_nat m1 <? q * 4096
                   then resize0 (blocks m1) (Z.to_nat (q * 4096 + 16)) else blocks m1)
                 = blocks m1 ++ junk /\
                 ((16 * Z.of_nat m1 < q * 4096 /\ Z.of_nat (length junk) = q * 4096 + 16 - 16 * Z.of_nat m1)
                  \/ (16 * Z.of_nat m1 = q * 4096 /\ junk = []))).
    { destruct (Z.ltb_spec (16 * Z.of_nat m1) (q * 4096)).
      - eexists. unfold resize0. rewrite firstn_all2 by (rewrite blocks_length; lia).
        split; [reflexivity|]. left. rewrite repeat_length, blocks_length. lia.
      - exists []. rewrite app_nil_r. split; [reflexivity|]. right. split; [lia|reflexivity]. }
    destruct K2 as (junk & -> & Hjunk).
    assert (K3 : exists junk', ecb_fill aes (Z.to_nat ((q * 4096 - 16 * Z.of_nat m1 + 15) / 16))
                     (Z.to_nat (16 * Z.of_nat m1)) (blocks m1 ++ junk)
                 = blocks (Z.to_nat (256 * q)) ++ junk').
    { replace (Z.to_nat (16 * Z.of_nat m1)) with (16 * m1)%nat by lia.
      replace (Z.to_nat ((q * 4096 - 16 * Z.of_nat m1 + 15) / 16)) with (Z.to_nat (256 * q) - m1)%nat by lia.
      destruct Hjunk as [[J1 J2]|[J1 ->]].
      - destruct (ecb_fill_ok (Z.to_nat (256 * q) - m1) m1 junk) as (j' & E & _); [lia|lia|].
        exists j'. rewrite E. f_equal. f_equal. lia.
      - replace (Z.to_nat (256 * q) - m1)%nat with 0%nat by lia. cbn [ecb_fill].
        exists []. f_equal. f_equal. lia. }
    destruct K3 as (junk' & ->).
    assert (Hb : length (blocks (Z.to_nat (256 * q))) = Z.to_nat (q * 4096)) by (rewrite blocks_length; lia).
    assert (K4 : (if q * 4096 <? zlen (blocks (Z.to_nat (256 * q)) ++ junk')
                  then firstn (Z.to_nat (q * 4096)) (blocks (Z.to_nat (256 * q)) ++ junk')
                  else blocks (Z.to_nat (256 * q)) ++ junk') = blocks (Z.to_nat (256 * q))).
    { destruct (Z.ltb_spec (q * 4096) (zlen (blocks (Z.to_nat (256 * q)) ++ junk'))).
      - rewrite firstn_app, Hb, Nat.sub_diag, firstn_O. rewrite app_nil_r.
        apply firstn_all2. lia.
      - rewrite zlen_app in H0. destruct junk'; [apply app_nil_r|].
        rewrite zlen_cons in H0. unfold zlen in H0. lia. }
    rewrite K4. cbn [ecb_keys].
    split; [|unfold zlen at 1 2; rewrite Hb; lia].
    split; [assumption|]. split; [first [assumption|reflexivity]|]. cbn [ecb_keys].
    exists (Z.to_nat q). f_equal. lia.
  Qed.

  Lemma kinv_init : sext 32 (le_val iv) <> 0 -> kinv (ecb_from_iv iv).
  Proof.
    intros. unfold ecb_from_iv. repeat split; cbn [ecb_iv ecb_plain ecb_keys].
    - lia.
    - exists 0%nat. reflexivity.
  Qed.

  Lemma kinv_at d i b : kinv d -> ecb_try_at d i = Some b -> b = key_byte aes iv i.
  Proof.
    intros (_ & _ & m & Hk) H. unfold ecb_try_at in H. rewrite Hk in H.
    assert (i < 16 * (256 * m))%nat.
    { rewrite <- blocks_length. apply nth_error_Some. congruence. }
    rewrite blocks_nth in H by assumption. congruence.
  Qed.

  Lemma kinv_has d i : kinv d -> (Z.of_nat i < zlen (ecb_keys d)) ->
    ecb_try_at d i = Some (key_byte aes iv i).
  Proof.
    intros (_ & _ & m & Hk) H. unfold ecb_try_at. unfold zlen in H.
    rewrite Hk in *. rewrite blocks_length in H. apply blocks_nth. lia.
  Qed.

  Lemma xor_zip_xor_ks d data k start :
    (forall j, (j < length data)%nat -> nth_error k j = Some (d (start + j)%nat)) ->
    xor_zip data k = xor_ks d start data.
  Proof.
    revert k start; induction data; intros k start H; cbn [xor_zip xor_ks]; [reflexivity|].
    destruct k as [|y k'].
    - specialize (H 0%nat ltac:(cbn; lia)). discriminate.
    - f_equal.
      + specialize (H 0%nat ltac:(cbn; lia)). cbn in H. rewrite Nat.add_0_r in H. congruence.
      + apply IHdata. intros. specialize (H (S j) ltac:(cbn; lia)). cbn in H.
        rewrite H. f_equal. f_equal. lia.
  Qed.

  Lemma nth_error_firstn {A} (l : list A) n i : (i < n)%nat -> nth_error (firstn n l) i = nth_error l i.
  Proof.
    revert l i; induction n; intros; [lia|]. destruct l; [rewrite firstn_nil; reflexivity|].
    destruct i; cbn; [reflexivity|]. apply IHn. lia.
  Qed.

  Lemma kinv_decrypt d data : kinv d -> zlen data <= zlen (ecb_keys d) ->
    ecb_decrypt d data = Ok (xor_ks (key_byte aes iv) 0 data).
  Proof.
    intros Hd Hl. unfold ecb_decrypt. pose proof Hd as (_ & -> & _).
    unfold slice. pose proof (zlen_nonneg data).
    replace (_ && _ && _) with true by (symmetry; lia).
    f_equal. apply xor_zip_xor_ks. intros.
    change (Z.to_nat 0) with 0%nat. cbn [skipn].
    rewrite nth_error_firstn by (unfold zlen in *; lia).
    apply (kinv_has d j Hd). unfold zlen in *. lia.
  Qed.

  Lemma kinv_get_decrypt_slice d data : kinv d ->
    fst (ecb_get_decrypt_slice aes d data) = Ok (xor_ks (key_byte aes iv) 0 data)
    /\ kinv (snd (ecb_get_decrypt_slice aes d data)).
  Proof.
    intros Hd. unfold ecb_get_decrypt_slice. cbn [fst snd].
    destruct (ecb_is_enough d (zlen data)) eqn:E.
    - split; [|assumption]. apply kinv_decrypt; [assumption|].
      unfold ecb_is_enough in E. destruct Hd as (_ & Hp & _). rewrite Hp in E. cbn in E. lia.
    - destruct (kinv_ensure d (zlen data) Hd (zlen_nonneg _)) as (H1 & H2 & _).
      split; [|assumption]. apply kinv_decrypt; assumption.
  Qed.
End S.

Lemma xor_ks_length ks i l : length (xor_ks ks i l) = length l.
Proof. revert i; induction l; intros; cbn [xor_ks length]; auto. Qed.

Lemma xor_ks_xored ks i l : xored ks i l (xor_ks ks i l).
Proof.
  split; [apply xor_ks_length|].
  revert i; induction l; intros i j d H; [destruct j; discriminate|].
  destruct j; cbn in *.
  - injection H as <-. rewrite Nat.add_0_r. reflexivity.
  - rewrite (IHl (S i) _ _ H). do 3 f_equal. lia.
Qed.

Lemma xor_ks_twice ks i l : xor_ks ks i (xor_ks ks i l) = l.
Proof. revert i; induction l; intros; cbn [xor_ks]; [reflexivity|]. rewrite lxor_cancel_r, IHl. reflexivity. Qed.

Lemma xor_ks_app ks i a b : xor_ks ks i (a ++ b) = xor_ks ks i a ++ xor_ks ks (i + length a) b.
Proof.
  revert i; induction a; intros; cbn [xor_ks app length].
  - rewrite Nat.add_0_r. reflexivity.
  - rewrite IHa. do 2 f_equal. f_equal. lia.
Qed.

Lemma xor_ks_ext k1 k2 i l : (forall j, k1 j = k2 j) -> xor_ks k1 i l = xor_ks k2 i l.
Proof. intro H. revert i; induction l; intros; cbn [xor_ks]; [reflexivity|]. rewrite H, IHl. reflexivity. Qed.

Lemma xor_ks_zero i l : xor_ks (fun _ => 0) i l = l.
Proof. revert i; induction l; intros; cbn [xor_ks]; [reflexivity|]. rewrite Z.lxor_0_r, IHl. reflexivity. Qed.

Lemma xor_ks_bytes ks i l : (forall j, byte (ks j)) -> bytes l -> bytes (xor_ks ks i l).
Proof.
  intros Hk H. revert i; induction H; intros; cbn [xor_ks]; constructor; [apply byte_lxor; auto|apply IHForall].
Qed.

Definition pkg2_ks (keys : list Z) (i : nat) : Z := nth (i mod 8) keys 0.

Lemma pkg2_decrypt_xor keys i l : pkg2_decrypt keys i l = xor_ks (pkg2_ks keys) i l.
Proof. revert i; induction l; intros; cbn [pkg2_decrypt xor_ks]; [reflexivity|]. rewrite IHl. reflexivity. Qed.

Lemma pkg2_keys_bytes key : length (pkg2_keys key) = 8%nat /\ bytes (pkg2_keys key).
Proof.
  unfold pkg2_keys. pose proof (le_bytes_bytes 8 (wrap 64 key)) as H.
  remember (le_bytes 8 (wrap 64 key)) as l. cbn [le_bytes] in Heql.
  rewrite Heql in *. unfold bytes in *.
  repeat match goal with H : Forall _ (_ :: _) |- _ => inversion_clear H end.
  split; [reflexivity|]. repeat (apply Forall_cons; [assumption|]); apply Forall_nil.
Qed.

Lemma key_byte_byte aes iv i : block_cipher aes -> length iv = 4%nat -> bytes iv ->
  byte (key_byte aes iv i).
Proof.
  intros. unfold key_byte. destruct (key_block_ok aes H iv H0 H1 (i / 16)) as [HL HB].
  apply Forall_nth; [exact HB|]. rewrite HL. lia.
Qed.
