(** C231, C232: changing the IV of a decryptor, and decrypting without growing the key first. *)
From Coq Require Import ZArith List Bool Lia ZifyBool ZifyNat.
From Verif.Model Require Import Base Utf Keys Reader.
From Verif.Spec Require Import Stream.
From Verif.Proofs Require Import BaseL KeysL.
From Verif.Props Require Import P_Keys.
Import ListNotations.
Open Scope Z_scope.

(** The decryptor uses this key stream. *)
Definition streams (aes : list Z -> list Z) (d : ecb) (key : nat -> Z) : Prop :=
  (forall i b, ecb_try_at d i = Some b -> b = key i) /\
  (forall i, fst (ecb_at aes d i) = Ok (key i)) /\
  (forall data, exists out, fst (ecb_get_decrypt_slice aes d data) = Ok out /\ xored key 0 data out).
(** A use for which key bytes are needed. *)
Definition asks (o : key_op) : Prop := match o with OpEnsure n => 0 < n | OpDecrypt data => data <> [] | OpAt _ => True end.

Lemma kinv_streams aes iv d : block_cipher aes -> length iv = 4%nat -> bytes iv -> kinv aes iv d -> streams aes d (key_byte aes iv).
Proof.
  intros Ha Hl Hb Hd. split; [|split].
  - intros. eapply kinv_at; eauto.
  - intro i. unfold ecb_at. cbn [fst].
    destruct (Z.leb_spec (zlen (ecb_keys d)) (Z.of_nat i)).
    + destruct (kinv_ensure aes Ha iv Hl Hb d (Z.of_nat i + 1) Hd ltac:(lia)) as (K1 & K2 & _).
      pose proof (kinv_has aes Ha iv Hl Hb _ i K1 ltac:(lia)) as X. unfold ecb_try_at in X. rewrite X. reflexivity.
    + pose proof (kinv_has aes Ha iv Hl Hb _ i Hd ltac:(lia)) as X. unfold ecb_try_at in X. rewrite X. reflexivity.
  - intro data. exists (xor_ks (key_byte aes iv) 0 data). split; [apply kinv_get_decrypt_slice; assumption|apply xor_ks_xored].
Qed.

(** With key bytes in the buffer the IV is not looked at. *)
Definition with_iv (d : ecb) (iv : list Z) : ecb := mkEcb iv (ecb_keys d) (ecb_plain d).
Lemma ensure_with aes d iv n : ecb_keys d <> [] -> ecb_ensure aes (with_iv d iv) n = with_iv (ecb_ensure aes d n) iv.
Proof.
  intro K. unfold ecb_ensure, ecb_is_enough, with_iv. cbn [ecb_keys ecb_plain ecb_iv].
  destruct (ecb_plain d || (n <=? zlen (ecb_keys d))); [reflexivity|]. destruct (ecb_keys d) as [|a l]; [contradiction|]. reflexivity.
Qed.
Lemma run_with aes d iv o : ecb_keys d <> [] -> run_op aes (with_iv d iv) o = with_iv (run_op aes d o) iv.
Proof.
  intro K. destruct o as [n|data|i]; cbn [run_op].
  - apply ensure_with, K.
  - unfold ecb_get_decrypt_slice. cbn [snd]. change (ecb_is_enough (with_iv d iv) (zlen data)) with (ecb_is_enough d (zlen data)).
    destruct (ecb_is_enough d (zlen data)); [reflexivity|apply ensure_with, K].
  - unfold ecb_at. cbn [snd]. change (ecb_keys (with_iv d iv)) with (ecb_keys d). destruct (_ <=? _); [apply ensure_with, K|reflexivity].
Qed.
Lemma streams_with aes d iv key : ecb_keys d <> [] -> streams aes d key -> streams aes (with_iv d iv) key.
Proof.
  intros K (A & B & C). split; [exact A|]. split.
  - intro i. rewrite <- (B i). unfold ecb_at. change (ecb_keys (with_iv d iv)) with (ecb_keys d). cbn [fst]. destruct (_ <=? _); [rewrite ensure_with by exact K|]; reflexivity.
  - intro data. destruct (C data) as (out & E & X). exists out. split; [|exact X]. rewrite <- E. unfold ecb_get_decrypt_slice. cbn [fst].
    change (ecb_is_enough (with_iv d iv) (zlen data)) with (ecb_is_enough d (zlen data)).
    destruct (ecb_is_enough d (zlen data)); [|rewrite ensure_with by exact K]; reflexivity.
Qed.

Lemma nonempty_len (l : list Z) : l <> [] <-> 0 < zlen l.
Proof. destruct l as [|a l]; [split; [congruence|cbn; lia]|]. split; [intros _; unfold zlen; cbn [length]; lia|discriminate]. Qed.
Lemma run_grows aes iv d o : block_cipher aes -> length iv = 4%nat -> bytes iv -> kinv aes iv d -> op_ok o ->
  zlen (ecb_keys d) <= zlen (ecb_keys (run_op aes d o)) /\ (asks o -> 0 < zlen (ecb_keys (run_op aes d o))).
Proof.
  intros Ha Hl Hb Hd Ho.
  assert (G : forall n, 0 <= n -> zlen (ecb_keys d) <= zlen (ecb_keys (ecb_ensure aes d n)) /\ n <= zlen (ecb_keys (ecb_ensure aes d n))).
  { intros n Hn. destruct (kinv_ensure aes Ha iv Hl Hb d n Hd Hn) as (_ & A & B). lia. }
  destruct o as [n|data|i]; cbn [run_op op_ok asks] in *.
  - destruct (G n Ho). split; lia.
  - pose proof (zlen_nonneg data). unfold ecb_get_decrypt_slice. cbn [snd]. destruct (ecb_is_enough d (zlen data)) eqn:E.
    + split; [lia|]. intro N. apply nonempty_len in N. unfold ecb_is_enough in E. destruct Hd as (_ & Hp & _). rewrite Hp in E. cbn [orb] in E. lia.
    + destruct (G (zlen data) ltac:(lia)). split; [lia|]. intro N. apply nonempty_len in N. lia.
  - unfold ecb_at. cbn [snd]. destruct (Z.leb_spec (zlen (ecb_keys d)) (Z.of_nat i)); [destruct (G (Z.of_nat i + 1) ltac:(lia)); split; lia|split; lia].
Qed.
Lemma runs_grow aes iv : block_cipher aes -> length iv = 4%nat -> bytes iv -> forall ops d, kinv aes iv d -> Forall op_ok ops ->
  zlen (ecb_keys d) <= zlen (ecb_keys (fold_left (run_op aes) ops d)) /\ (Exists asks ops -> 0 < zlen (ecb_keys (fold_left (run_op aes) ops d))).
Proof.
  intros Ha Hl Hb. induction ops as [|o ops IH]; intros d Hd Ho; [split; [cbn; lia|intro E; inversion E]|].
  inversion_clear Ho as [|? ? O1 O2]. cbn [fold_left]. destruct (run_grows aes iv d o Ha Hl Hb Hd O1) as [A B].
  destruct (IH (run_op aes d o)) as [C D]; [apply (run_ops_kinv aes iv Ha Hl Hb [o] d Hd); constructor; auto|exact O2|].
  split; [lia|]. intro E. inversion_clear E as [? ? E1|? ? E1]; [specialize (B E1); lia|auto].
Qed.
Lemma nonzero_iv iv : length iv = 4%nat -> bytes iv -> iv <> [0; 0; 0; 0] -> sext 32 (le_val iv) <> 0.
Proof.
  intros Hl Hb Hnz E. apply Hnz. assert (le_val iv = 0).
  { pose proof (le_val_range iv Hb) as R. unfold zlen in R. rewrite Hl in R. change (2 ^ (8 * Z.of_nat 4)) with (2 ^ 32) in R.
    unfold sext in E. rewrite (wrap_small 32) in E by assumption.
    change (2 ^ (32 - 1)) with 2147483648 in E. change (2 ^ 32) with 4294967296 in *. destruct (le_val iv <? 2147483648); lia. }
  rewrite <- (le_bytes_le_val iv Hb), Hl, H. reflexivity.
Qed.

(** C231: [set_iv] takes effect exactly when no key byte has been needed before: then the stream is that of the new IV (the zero IV
    included); otherwise it stays that of the old one.  A decryptor made with the zero IV goes on leaving everything as it is. *)
Theorem C231_set_iv : forall aes iv before new after, block_cipher aes -> length iv = 4%nat -> bytes iv -> 0 <= new < 2 ^ 64 ->
  Forall op_ok before -> Forall op_ok after ->
  let d := fold_left (run_op aes) after (ecb_set_iv (fold_left (run_op aes) before (ecb_from_iv iv)) new) in
  (iv <> [0; 0; 0; 0] -> Forall (fun o => ~ asks o) before -> streams aes d (key_byte aes (le_bytes 4 (new mod 2 ^ 32)))) /\
  (iv <> [0; 0; 0; 0] -> Exists asks before -> streams aes d (key_byte aes iv)) /\
  (iv = [0; 0; 0; 0] -> forall data, fst (ecb_get_decrypt_slice aes d data) = Ok data).
Proof.
  intros aes iv before new after Ha Hl Hb Hn H1 H2 d.
  set (d0 := fold_left (run_op aes) before (ecb_from_iv iv)) in *. split; [|split].
  - intros Nz No. pose proof (nonzero_iv iv Hl Hb Nz) as Sz.
    assert (E0 : d0 = ecb_from_iv iv).
    { subst d0 d. clear H2. induction before as [|o before IH]; [reflexivity|]. inversion_clear H1 as [|? ? O1 O2]. inversion_clear No as [|? ? N1 N2].
      cbn [fold_left]. replace (run_op aes (ecb_from_iv iv) o) with (ecb_from_iv iv); [apply IH; assumption|].
      destruct o as [n|data|i]; cbn [run_op op_ok asks] in *; [| |tauto].
      - unfold ecb_ensure, ecb_is_enough. cbn [ecb_from_iv ecb_plain ecb_keys]. change (zlen (@nil Z)) with 0. replace (n <=? 0) with true by lia. rewrite orb_true_r. reflexivity.
      - destruct data; [|exfalso; apply N1; discriminate]. unfold ecb_get_decrypt_slice. cbn [snd]. unfold ecb_is_enough. cbn [ecb_from_iv ecb_plain ecb_keys].
        change (zlen (@nil Z)) with 0. change (0 <=? 0) with true. rewrite orb_true_r. reflexivity. }
    set (iv' := le_bytes 4 (new mod 2 ^ 32)).
    assert (L' : length iv' = 4%nat) by apply le_bytes_length. assert (B' : bytes iv') by apply le_bytes_bytes.
    apply kinv_streams; [assumption..|]. apply run_ops_kinv; [assumption..| |exact H2]. rewrite E0. split; [reflexivity|]. split; [cbn; lia|exists 0%nat; reflexivity].
  - intros Nz Ask. pose proof (nonzero_iv iv Hl Hb Nz) as Sz. assert (K0 : kinv aes iv (ecb_from_iv iv)) by (eapply kinv_init; eassumption).
    pose proof (run_ops_kinv aes iv Ha Hl Hb before _ K0 H1) as K1. fold d0 in K1.
    destruct (runs_grow aes iv Ha Hl Hb before _ K0 H1) as [_ G]. specialize (G Ask). fold d0 in G.
    assert (R : forall ops x, ecb_keys x <> [] -> kinv aes iv x -> Forall op_ok ops ->
              fold_left (run_op aes) ops (with_iv x (le_bytes 4 (wrap 32 new))) = with_iv (fold_left (run_op aes) ops x) (le_bytes 4 (wrap 32 new))).
    { induction ops as [|o ops IH]; intros x Kx Kv Fo; [reflexivity|]. inversion_clear Fo as [|? ? O1 O2]. cbn [fold_left]. rewrite run_with by exact Kx. apply IH; [| |exact O2].
      - destruct (run_grows aes iv x o Ha Hl Hb Kv O1) as [A _]. apply nonempty_len in Kx. apply nonempty_len. lia.
      - apply (run_ops_kinv aes iv Ha Hl Hb [o] x Kv). constructor; auto. }
    pose proof (run_ops_kinv aes iv Ha Hl Hb after _ K1 H2) as K2. destruct (runs_grow aes iv Ha Hl Hb after _ K1 H2) as [G2 _].
    unfold d. change (ecb_set_iv d0 new) with (with_iv d0 (le_bytes 4 (wrap 32 new))). rewrite R; [|apply nonempty_len; exact G|exact K1|exact H2].
    apply streams_with; [apply nonempty_len; lia|]. apply kinv_streams; assumption.
  - intros -> data.
    assert (Pl : forall ops x, ecb_plain x = true -> ecb_plain (fold_left (run_op aes) ops x) = true).
    { assert (En : forall x n, ecb_plain x = true -> ecb_ensure aes x n = x) by (intros x n Px; unfold ecb_ensure, ecb_is_enough; rewrite Px; reflexivity).
      induction ops as [|o ops IH]; intros x Px; [exact Px|]. cbn [fold_left]. apply IH. destruct o as [n|dt|i]; cbn [run_op].
      - rewrite En by exact Px. exact Px.
      - unfold ecb_get_decrypt_slice. cbn [snd]. unfold ecb_is_enough. rewrite Px. cbn [orb]. exact Px.
      - unfold ecb_at. cbn [snd]. destruct (_ <=? _); [rewrite En by exact Px|]; exact Px. }
    assert (Pd : ecb_plain d = true) by (apply Pl; cbn [ecb_set_iv ecb_plain]; apply Pl; reflexivity).
    unfold ecb_get_decrypt_slice. cbn [fst]. unfold ecb_is_enough, ecb_decrypt. rewrite Pd. cbn [orb]. rewrite Pd. reflexivity.
Qed.
Print Assumptions C231_set_iv.
Example C231_example :
  let aes := fun b => map (fun x => Z.lxor x 1) b in
  let new := 0x04030209 in
  fst (ecb_get_decrypt_slice aes (ecb_set_iv (ecb_from_iv [5; 6; 7; 8]) new) [0; 0; 0]) = Ok [8; 3; 2] /\
  fst (ecb_get_decrypt_slice aes (ecb_set_iv (run_op aes (ecb_from_iv [5; 6; 7; 8]) (OpAt 0)) new) [0; 0; 0]) = Ok [4; 7; 6] /\
  fst (ecb_get_decrypt_slice aes (ecb_set_iv (ecb_from_iv [0; 0; 0; 0]) new) [0; 0; 0]) = Ok [0; 0; 0] /\
  fst (ecb_get_decrypt_slice aes (ecb_set_iv (ecb_from_iv [5; 6; 7; 8]) 0) [0; 0; 0]) = Ok [1; 1; 1].
Proof. vm_compute. repeat split. Qed.

(** C232: [decrypt_slice] itself grows nothing: with as much key as data it decrypts, with less it panics. *)
Theorem C232_decrypt_without_growing : forall aes iv ops data, block_cipher aes -> length iv = 4%nat -> bytes iv -> iv <> [0; 0; 0; 0] -> Forall op_ok ops ->
  let d := fold_left (run_op aes) ops (ecb_from_iv iv) in
  (data = [] -> ecb_decrypt d data = Ok []) /\
  (forall n, length data = S n -> ecb_try_at d n <> None -> exists out, ecb_decrypt d data = Ok out /\ xored (key_byte aes iv) 0 data out) /\
  (forall n, length data = S n -> ecb_try_at d n = None -> ecb_decrypt d data = Panic).
Proof.
  intros aes iv ops data Ha Hl Hb Nz Ho d.
  assert (K : kinv aes iv d) by (apply run_ops_kinv; try assumption; eapply kinv_init; eauto; apply nonzero_iv; assumption). clearbody d.
  split; [|split].
  - intros ->. rewrite (kinv_decrypt aes Ha iv Hl Hb d [] K (zlen_nonneg _)). reflexivity.
  - intros n L T. exists (xor_ks (key_byte aes iv) 0 data). split; [|apply xor_ks_xored]. apply kinv_decrypt; try assumption.
    apply nth_error_Some in T. unfold zlen. lia.
  - intros n L T. apply nth_error_None in T. unfold ecb_decrypt. destruct K as (_ & -> & _). unfold slice.
    replace ((0 <=? 0) && (0 <=? zlen data) && (zlen data <=? zlen (ecb_keys d))) with false; [reflexivity|]. symmetry. unfold zlen. lia.
Qed.
Print Assumptions C232_decrypt_without_growing.
Example C232_example :
  let aes := fun b => map (fun x => Z.lxor x 1) b in
  ecb_decrypt (ecb_from_iv [5; 6; 7; 8]) [0] = Panic /\ ecb_decrypt (run_op aes (ecb_from_iv [5; 6; 7; 8]) (OpAt 0)) [0; 0] = Ok [4; 7].
Proof. vm_compute. repeat split. Qed.
