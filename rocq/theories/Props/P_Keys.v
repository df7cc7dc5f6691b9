(** C06, C07: key streams. *)
From Coq Require Import ZArith List Bool Lia ZifyBool ZifyNat.
From Verif.Model Require Import Base Utf Keys Reader.
From Verif.Spec Require Import Stream.
From Verif.Proofs Require Import BaseL KeysL.

(** A use of a shared decryptor: grow to a size, decrypt a block, ask a byte. *)
Inductive key_op := OpEnsure (n : Z) | OpDecrypt (data : list Z) | OpAt (i : nat).

Definition run_op (aes : list Z -> list Z) (d : ecb) (o : key_op) : ecb :=
  match o with
  | OpEnsure n => ecb_ensure aes d n
  | OpDecrypt data => snd (ecb_get_decrypt_slice aes d data)
  | OpAt i => snd (ecb_at aes d i)
  end.
Definition op_ok (o : key_op) : Prop := match o with OpEnsure n => 0 <= n | _ => True end.

Lemma run_ops_kinv aes iv : block_cipher aes -> length iv = 4%nat -> bytes iv ->
  forall ops d, kinv aes iv d -> Forall op_ok ops -> kinv aes iv (fold_left (run_op aes) ops d).
Proof.
  intros Ha Hl Hb ops. induction ops as [|o ops IH]; intros d Hd Ho; [exact Hd|].
  inversion_clear Ho. cbn [fold_left]. apply IH; [|assumption].
  destruct o; cbn [run_op].
  - apply kinv_ensure; assumption.
  - apply kinv_get_decrypt_slice; assumption.
  - unfold ecb_at. cbn [snd]. destruct (_ <=? _); [|assumption]. apply kinv_ensure; try assumption. lia.
Qed.

(** C06: after any history of uses, key bytes, decrypted blocks and single-byte
    queries are those of the one stream determined by the IV. *)
Theorem C06_keystream_history_independent :
  forall aes iv ops, block_cipher aes -> length iv = 4%nat -> bytes iv ->
    iv <> [0; 0; 0; 0] -> Forall op_ok ops ->
    let d := fold_left (run_op aes) ops (ecb_from_iv iv) in
    (forall i b, ecb_try_at d i = Some b -> b = key_byte aes iv i) /\
    (forall i, fst (ecb_at aes d i) = Ok (key_byte aes iv i)) /\
    (forall data, exists out, fst (ecb_get_decrypt_slice aes d data) = Ok out /\
                              xored (key_byte aes iv) 0 data out).
Proof.
  intros aes iv ops Ha Hl Hb Hnz Ho d.
  assert (Hi : kinv aes iv (ecb_from_iv iv)).
  { eapply kinv_init; eauto. intro E. apply Hnz.
    assert (le_val iv = 0).
    { pose proof (le_val_range iv Hb) as R. unfold zlen in R. rewrite Hl in R.
      change (2 ^ (8 * Z.of_nat 4)) with (2 ^ 32) in R.
      unfold sext in E. rewrite (wrap_small 32) in E by assumption.
      change (2 ^ (32 - 1)) with 2147483648 in E. change (2 ^ 32) with 4294967296 in *.
      destruct (le_val iv <? 2147483648); lia. }
    rewrite <- (le_bytes_le_val iv Hb), Hl, H. reflexivity. }
  assert (Hd : kinv aes iv d) by (apply run_ops_kinv; assumption).
  clearbody d. split; [|split].
  - intros. eapply kinv_at; eauto.
  - intro i. unfold ecb_at. cbn [fst].
    destruct (Z.leb_spec (zlen (ecb_keys d)) (Z.of_nat i)).
    + destruct (kinv_ensure aes Ha iv Hl Hb d (Z.of_nat i + 1) Hd ltac:(lia)) as (K1 & K2 & _).
      pose proof (kinv_has aes Ha iv Hl Hb _ i K1 ltac:(lia)) as X. unfold ecb_try_at in X.
      rewrite X. reflexivity.
    + pose proof (kinv_has aes Ha iv Hl Hb _ i Hd ltac:(lia)) as X. unfold ecb_try_at in X.
      rewrite X. reflexivity.
  - intro data. exists (xor_ks (key_byte aes iv) 0 data).
    split; [apply kinv_get_decrypt_slice; assumption|apply xor_ks_xored].
Qed.
Print Assumptions C06_keystream_history_independent.

(** C06: after asking for n bytes there are n bytes, in whole batches of 4096,
    and never fewer than before. *)
Theorem C06_growth :
  forall aes iv ops n, block_cipher aes -> length iv = 4%nat -> bytes iv ->
    sext 32 (le_val iv) <> 0 -> Forall op_ok ops -> 0 <= n ->
    let d := fold_left (run_op aes) ops (ecb_from_iv iv) in
    let d' := ecb_ensure aes d n in
    n <= zlen (ecb_keys d') /\
    zlen (ecb_keys d') = Z.max (zlen (ecb_keys d)) ((n + 4095) / 4096 * 4096) /\
    forall i b, ecb_try_at d i = Some b -> ecb_try_at d' i = Some b.
Proof.
  intros aes iv ops n Ha Hl Hb Hnz Ho Hn d d'.
  assert (Hd : kinv aes iv d).
  { apply run_ops_kinv; try assumption. eapply kinv_init; eauto. }
  destruct (kinv_ensure aes Ha iv Hl Hb d n Hd Hn) as (K1 & K2 & K3).
  split; [exact K2|]. split; [exact K3|].
  intros i b E. rewrite (kinv_at aes Ha iv Hl Hb _ _ _ Hd E).
  eapply kinv_has; eauto. fold d'. subst d'. rewrite K3.
  unfold ecb_try_at in E.
  assert (i < length (ecb_keys d))%nat by (apply nth_error_Some; congruence).
  unfold zlen. lia.
Qed.
Print Assumptions C06_growth.

Example C06_ex :
  let aes := fun b => map (fun x => (x * 5 + 1) mod 256) b in
  block_cipher aes /\
  fst (ecb_get_decrypt_slice aes
         (fold_left (run_op aes) [OpEnsure 3; OpDecrypt [1; 2]; OpAt 20] (ecb_from_iv [1; 2; 3; 4]))
         [0; 0; 0]) = Ok [6; 11; 16].
Proof.
  split; [|vm_compute; reflexivity].
  intros b Hl Hb. split; [rewrite map_length; exact Hl|].
  clear Hl. induction Hb; constructor; [|assumption]. apply Z.mod_pos_bound. lia.
Qed.

(** C07, AES family: decrypting is XOR with the stream from key index 0, keeps
    the length, and is its own inverse; for the zero IV it is the identity. *)
Theorem C07_ecb_involution :
  forall aes iv ops data, block_cipher aes -> length iv = 4%nat -> bytes iv -> Forall op_ok ops ->
    let d := fold_left (run_op aes) ops (ecb_from_iv iv) in
    exists out, fst (ecb_get_decrypt_slice aes d data) = Ok out /\ length out = length data /\
      fst (ecb_get_decrypt_slice aes (snd (ecb_get_decrypt_slice aes d data)) out) = Ok data.
Proof.
  intros aes iv ops data Ha Hl Hb Ho d.
  destruct (Z.eq_dec (sext 32 (le_val iv)) 0) as [e|e].
  - assert (Hp : ecb_plain d = true).
    { subst d. assert (G : forall ops d, ecb_plain d = true -> ecb_plain (fold_left (run_op aes) ops d) = true).
      { clear. induction ops as [|o ops IH]; intros d H; [exact H|]. cbn [fold_left]. apply IH.
        assert (P : forall n, ecb_ensure aes d n = d).
        { intro n. unfold ecb_ensure, ecb_is_enough. rewrite H. reflexivity. }
        destruct o; cbn [run_op].
        - rewrite P. exact H.
        - unfold ecb_get_decrypt_slice. cbn [snd]. destruct (ecb_is_enough _ _); rewrite ?P; exact H.
        - unfold ecb_at. cbn [snd]. destruct (_ <=? _); rewrite ?P; exact H. }
      apply G. unfold ecb_from_iv. rewrite e. reflexivity. }
    exists data. unfold ecb_get_decrypt_slice, ecb_is_enough, ecb_decrypt. rewrite Hp. cbn [orb fst snd].
    rewrite Hp. cbn [orb]. rewrite Hp. auto.
  - assert (Hd : kinv aes iv d).
    { apply run_ops_kinv; try assumption. eapply kinv_init; eauto. }
    exists (xor_ks (key_byte aes iv) 0 data).
    destruct (kinv_get_decrypt_slice aes Ha iv Hl Hb d data Hd) as [E1 E2].
    split; [exact E1|]. split; [apply xor_ks_length|].
    destruct (kinv_get_decrypt_slice aes Ha iv Hl Hb _ (xor_ks (key_byte aes iv) 0 data) E2) as [E3 _].
    rewrite E3, xor_ks_twice. reflexivity.
Qed.
Print Assumptions C07_ecb_involution.

Theorem C07_ecb_zero_iv_identity :
  forall aes data,
    fst (ecb_get_decrypt_slice aes (ecb_from_iv [0; 0; 0; 0]) data) = Ok data.
Proof. reflexivity. Qed.
Print Assumptions C07_ecb_zero_iv_identity.

(** C07, package-2 family: same with the eight-byte periodic key. *)
Theorem C07_pkg2_involution :
  forall key i data,
    xored (fun j => nth (j mod 8) (pkg2_keys key) 0) i data (pkg2_decrypt (pkg2_keys key) i data) /\
    pkg2_decrypt (pkg2_keys key) i (pkg2_decrypt (pkg2_keys key) i data) = data.
Proof.
  intros. rewrite !pkg2_decrypt_xor. split; [apply xor_ks_xored|apply xor_ks_twice].
Qed.
Print Assumptions C07_pkg2_involution.

(** C07: cutting a block in two, each part decrypted at its own key index. *)
Theorem C07_split :
  forall key i a b,
    pkg2_decrypt (pkg2_keys key) i (a ++ b) =
    pkg2_decrypt (pkg2_keys key) i a ++ pkg2_decrypt (pkg2_keys key) (i + length a) b.
Proof. intros. rewrite !pkg2_decrypt_xor. apply xor_ks_app. Qed.
Print Assumptions C07_split.

Example C07_ex :
  pkg2_keys 0x1122334455667788 = [0x88; 0x77; 0x77; 0x66; 0x66; 0x55; 0x55; 0x44] /\
  pkg2_decrypt (pkg2_keys 0xDEADBEEF) 0 [72; 101; 108] = [167; 219; 210].
Proof. vm_compute. repeat split. Qed.

(** C47: [set_iv] on a decryptor that has already produced key bytes.  Full
    statement: after set_iv the key bytes are those of the new IV.  False: the
    old buffer is kept. *)
Theorem C47_set_iv_fresh_stream_refuted :
  exists aes iv iv' n d b, block_cipher aes /\ length iv = 4%nat /\ bytes iv /\
    le_val iv <> 0 /\ 0 < iv' < 2 ^ 32 /\
    d = ecb_set_iv (ecb_ensure aes (ecb_from_iv iv) n) iv' /\
    fst (ecb_at aes d 0) = Ok b /\ b <> key_byte aes (le_bytes 4 iv') 0.
Proof.
  exists (fun b => b), [1; 2; 3; 4], 0x04030209, 1.
  eexists. exists 1. repeat match goal with |- _ /\ _ => split end.
  - intros b H1 H2. auto.
  - reflexivity.
  - repeat constructor; lia.
  - vm_compute; discriminate.
  - lia.
  - lia.
  - reflexivity.
  - vm_compute. reflexivity.
  - vm_compute. discriminate.
Qed.
Print Assumptions C47_set_iv_fresh_stream_refuted.

(** C48: asking for a single key byte.  Full statement: [at] returns a byte for
    every IV.  False for the zero IV: the key buffer stays empty and the index
    panics. *)
Theorem C48_key_at_total_refuted :
  exists iv, length iv = 4%nat /\ bytes iv /\
    forall aes i, fst (ecb_at aes (ecb_from_iv iv) i) = Panic.
Proof.
  exists [0; 0; 0; 0]. split; [reflexivity|]. split; [repeat constructor; lia|].
  intros. unfold ecb_at. cbn [ecb_from_iv ecb_keys]. change (zlen (@nil Z)) with 0.
  replace (0 <=? Z.of_nat i) with true by lia.
  change (ecb_ensure aes (ecb_from_iv [0;0;0;0]) (Z.of_nat i + 1)) with (ecb_from_iv [0;0;0;0]).
  cbn [fst ecb_from_iv ecb_keys]. rewrite (proj2 (nth_error_None _ _)); [reflexivity|cbn; lia].
Qed.
Print Assumptions C48_key_at_total_refuted.

(** C48, the part that holds: with a non-zero IV [at] always answers (part of
    [C06_keystream_history_independent]). *)
