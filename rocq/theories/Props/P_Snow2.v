(** Snow2 decryption. *)
From Coq Require Import ZArith List Bool Lia.
From Verif.Model Require Import Base Snow2.
From Verif.Spec Require Import Wire Stream Aes Snow2.
From Verif.Proofs Require Import BaseL WireL Snow2L.
Import ListNotations.
Open Scope Z_scope.

(** *** C38: a fresh decryptor undoes the addition of the key stream, and a second call continues where the
    first one stopped when that one was given whole words; a rest of fewer than four bytes is reported and left. *)
Definition clear (r : list Z * snow2 * nat) : list Z := fst (fst r).
Theorem C38_inverse : forall key plain out,
  length key = 16%nat -> bytes key -> added (ms_stream key) 0 plain out ->
  clear (decrypt_slice (snow2_new key) out) = plain /\ snd (decrypt_slice (snow2_new key) out) = (length plain mod 4)%nat.
Proof.
  intros key plain out L B A. destruct (decrypt_slice_ok key 0 _ plain out (snow2_new_ok key (conj L B)) A) as (d & E & _).
  unfold clear. rewrite E. split; reflexivity.
Qed.
Print Assumptions C38_inverse.
Theorem C38_continues : forall key a b out_a out_b,
  length key = 16%nat -> bytes key ->
  added (ms_stream key) 0 a out_a -> added (ms_stream key) (length a / 4) b out_b ->
  let first := decrypt_slice (snow2_new key) out_a in
  clear first = a /\ clear (decrypt_slice (snd (fst first)) out_b) = b.
Proof.
  intros key a b out_a out_b L B Aa Ab first.
  destruct (decrypt_slice_ok key 0 _ a out_a (snow2_new_ok key (conj L B)) Aa) as (d & E & D & _).
  destruct (decrypt_slice_ok key _ d b out_b D Ab) as (d2 & E2 & _).
  subst first. unfold clear. rewrite E. cbn [fst snd]. now rewrite E2.
Qed.
Print Assumptions C38_continues.
(** Every sequence of bytes is the hidden form of some bytes, so the claim above says what is made of it. *)
Theorem C38_total : forall key n out, bytes out -> exists plain,
  added (ms_stream key) n plain out /\ bytes plain.
Proof. intros key n out. apply added_total. Qed.
Print Assumptions C38_total.
Definition snow_key : list Z := [1; 2; 3; 4; 5; 6; 7; 8; 9; 10; 11; 12; 13; 14; 15; 0xF0].
Definition hide (ks : nat -> Z) (ws : list Z) : list Z :=
  flat_map (fun p => enc_le 4 ((snd p + ks (fst p)) mod 2 ^ 32)) (combine (seq 0 (length ws)) ws).
Example C38_example :
  let out := hide (ms_stream snow_key) [1; 0xFFFFFFFF; 0x12345678] in
  out = [227; 155; 59; 99; 142; 107; 233; 102; 178; 101; 17; 216] /\
  clear (decrypt_slice (snow2_new snow_key) (out ++ [7; 8])) = [1; 0; 0; 0; 255; 255; 255; 255; 0x78; 0x56; 0x34; 0x12; 7; 8].
Proof. vm_compute. split; reflexivity. Qed.

(** *** C115: the key stream is the one of the published cipher SNOW 2.0 with IV 0, for keys whose bytes are
    all below 128. *)
Lemma signed_small key i : Forall (fun b => 0 <= b < 128) key -> signed_word key i = be_word key i.
Proof.
  intros F. assert (S : forall j, nth j key 0 < 128).
  { intros j. destruct (Nat.lt_ge_cases j (length key)) as [H|H].
    - rewrite Forall_forall in F. apply F, nth_In, H.
    - rewrite nth_overflow by exact H. lia. }
  unfold signed_word. cbv zeta.
  destruct (Z.leb_spec 128 (nth (i + 3) key 0)) as [H|_]; [specialize (S (i + 3)%nat); lia|].
  destruct (Z.leb_spec 128 (nth (i + 2) key 0)) as [H|_]; [specialize (S (i + 2)%nat); lia|].
  destruct (Z.leb_spec 128 (nth (i + 1) key 0)) as [H|_]; [specialize (S (i + 1)%nat); lia|]. reflexivity.
Qed.
Theorem C115_standard : forall key plain out,
  length key = 16%nat -> Forall (fun b => 0 <= b < 128) key -> added (snow_stream key) 0 plain out ->
  clear (decrypt_slice (snow2_new key) out) = plain.
Proof.
  intros key plain out L F A. apply (C38_inverse key plain out); [exact L| |].
  - revert F. apply Forall_impl. intros b H. unfold byte. lia.
  - unfold ms_stream. rewrite !signed_small by exact F. exact A.
Qed.
Print Assumptions C115_standard.
(** The word [n] of the key stream, as seen by decrypting zeros. *)
Example C115_example :
  clear (decrypt_slice (snow2_new (0x7F :: repeat 1 15)) (hide (snow_stream (0x7F :: repeat 1 15)) [5; 6; 7])) =
  [5; 0; 0; 0; 6; 0; 0; 0; 7; 0; 0; 0].
Proof. vm_compute. reflexivity. Qed.

(** *** C116 (false): the same for all keys of 16 bytes.  Key bytes are taken as signed, and the sign fills
    the bytes above it. *)
Definition C116_full : Prop := forall key plain out,
  length key = 16%nat -> bytes key -> added (snow_stream key) 0 plain out ->
  clear (decrypt_slice (snow2_new key) out) = plain.
Theorem C116_standard_refuted : exists key plain out,
  length key = 16%nat /\ bytes key /\ added (snow_stream key) 0 plain out /\
  clear (decrypt_slice (snow2_new key) out) <> plain.
Proof.
  exists (repeat 0xAA 16), [0; 0; 0; 0], [0xF5; 0x82; 0x09; 0xE0]. split; [reflexivity|]. split.
  - apply Forall_forall. intros x H. apply repeat_spec in H. subst x. cbv. split; congruence.
  - split.
    + assert (E : snow_stream (repeat 0xAA 16) 0 = 0xE00982F5) by (vm_compute; reflexivity).
      replace [0xF5; 0x82; 0x09; 0xE0] with (enc_le 4 ((0 + snow_stream (repeat 0xAA 16) 0) mod 2 ^ 32) ++ []) by (rewrite E; reflexivity).
      apply (added_word _ 0 0 [] []); [lia|]. apply added_rest. cbn. lia.
    + vm_compute. discriminate.
Qed.
Print Assumptions C116_standard_refuted.
Theorem C116_full_is_false : ~ C116_full.
Proof.
  destruct C116_standard_refuted as (key & plain & out & L & B & A & N). intros F. apply N, F; assumption.
Qed.
Print Assumptions C116_full_is_false.
