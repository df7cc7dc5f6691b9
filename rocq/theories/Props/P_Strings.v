(** C05, C44: encrypted strings. *)
From Coq Require Import ZArith List Bool Lia ZifyBool ZifyNat.
From Verif.Model Require Import Base Utf Keys Reader WzStr.
From Verif.Spec Require Import Stream.
From Verif.Proofs Require Import BaseL KeysL StringL ReaderL.

(** Text in the basic multilingual plane: scalar values below 0x10000. *)
Definition bmp_text (t : text) : Prop :=
  Forall (fun c => 0 <= c < 0xD800 \/ 0xE000 <= c < 0x10000) t.
(** Any Unicode text. *)
Definition unicode_text (t : text) : Prop :=
  Forall (fun c => 0 <= c < 0xD800 \/ 0xE000 <= c <= 0x10FFFF) t.

Lemma bmp_text_bmp t : bmp_text t -> bmp t.
Proof. apply Forall_impl. unfold is_scalar. intros; split; lia. Qed.
Lemma unicode_text_scalars t : unicode_text t -> scalars t.
Proof. apply Forall_impl. unfold is_scalar. intros; lia. Qed.

(** C05: building a string object and reading it back is the identity, for
    every IV, on text without characters above U+FFFF. *)
Theorem C05_string_roundtrip_bmp :
  forall aes iv t, block_cipher aes -> length iv = 4%nat -> bytes iv ->
    bmp_text t -> zlen t < 2 ^ 31 ->
    wzstring_get aes (wzstring_from_str aes t iv) = Ok t.
Proof. intros. apply from_str_roundtrip; auto. apply bmp_text_bmp; assumption. Qed.
Print Assumptions C05_string_roundtrip_bmp.

Example C05_ex :
  let aes := fun b => map (fun x => (x * 5 + 1) mod 256) b in
  bmp_text [0x6E2C; 0x8A66; 97] /\
  wzstring_get aes (wzstring_from_str aes [0x6E2C; 0x8A66; 97] [1; 2; 3; 4]) = Ok [0x6E2C; 0x8A66; 97] /\
  fst (fst (wzstring_from_str aes [0x6E2C; 0x8A66; 97] [1; 2; 3; 4])) <> [0x2C; 0x6E; 0x66; 0x8A; 97; 0].
Proof.
  split; [repeat constructor; lia|]. split; [vm_compute; reflexivity|vm_compute; discriminate].
Qed.

(** C49: the same for every Unicode text.  False: a character above U+FFFF takes
    two code units but is counted once, so the end of the text is lost. *)
Theorem C49_string_roundtrip_unicode_refuted :
  exists t, unicode_text t /\ zlen t < 2 ^ 31 /\
    forall aes, wzstring_get aes (wzstring_from_str aes t [0; 0; 0; 0]) <> Ok t.
Proof.
  exists [0x1F600; 97]. split; [repeat constructor; lia|]. split; [vm_compute; reflexivity|].
  intros aes. cbv. discriminate.
Qed.
Print Assumptions C49_string_roundtrip_unicode_refuted.

Theorem C49_pkg2_dir_unicode_refuted :
  exists t, unicode_text t /\ zlen t < 2 ^ 31 /\
    wzstring_pkg2_get (wzstring_from_pkg2_dir t) <> Ok t.
Proof.
  exists [0x1F600; 97]. split; [repeat constructor; lia|]. split; [vm_compute; reflexivity|].
  cbv. discriminate.
Qed.
Print Assumptions C49_pkg2_dir_unicode_refuted.

(** C44: package-2 directory names. *)
Theorem C44_pkg2_dir_roundtrip_bmp :
  forall t, bmp_text t -> zlen t < 2 ^ 31 ->
    wzstring_pkg2_get (wzstring_from_pkg2_dir t) = Ok t.
Proof.
  intros t H1 H2. destruct t as [|c t]; [reflexivity|].
  apply pkg2_dir_roundtrip; [apply bmp_text_bmp; assumption|discriminate|assumption].
Qed.
Print Assumptions C44_pkg2_dir_roundtrip_bmp.

Example C44_ex : fst (wzstring_from_pkg2_dir [116; 101]) <> [116; 0; 101; 0] /\
  wzstring_pkg2_get (wzstring_from_pkg2_dir [116; 101]) = Ok [116; 101] /\ bmp_text [116; 101].
Proof.
  split; [vm_compute; discriminate|]. split; [vm_compute; reflexivity|repeat constructor; lia].
Qed.
