(** C60: the package-2 name key. *)
From Coq Require Import ZArith List Bool Lia.
From Verif.Model Require Import Base Keys Reader.
From Verif.Spec Require Import Version Stream.
From Verif.Proofs Require Import BaseL WireL KeysL VersionL.

(** C60: byte [i] of a name is XORed with byte number ceil((i mod 8) / 2) of the
    64-bit key. *)
Theorem C60_pkg2_key_schedule :
  forall key i data, 0 <= key < 2 ^ 64 ->
    xored (fun j => (key / 2 ^ (8 * Z.of_nat ((j mod 8 + 1) / 2))) mod 256)
          i data (pkg2_decrypt (pkg2_keys key) i data).
Proof.
  intros key i data Hk. rewrite pkg2_decrypt_xor.
  assert (E : forall j, nth (j mod 8) (pkg2_keys key) 0 = (key / 2 ^ (8 * Z.of_nat ((j mod 8 + 1) / 2))) mod 256).
  { intro j. unfold pkg2_keys. rewrite (wrap_small 64) by assumption. rewrite <- enc_le_eq.
    unfold Wire.enc_le. cbn [seq map].
    assert (H : (j mod 8 < 8)%nat) by (apply Nat.mod_upper_bound; lia).
    generalize dependent (j mod 8)%nat. intros n H.
    do 8 (destruct n as [|n]; [reflexivity|]). lia. }
  assert (X : forall data i, xor_ks (fun j => nth (j mod 8) (pkg2_keys key) 0) i data
            = xor_ks (fun j => (key / 2 ^ (8 * Z.of_nat ((j mod 8 + 1) / 2))) mod 256) i data).
  { induction data0 as [|b l IH]; intro k; cbn [xor_ks]; [reflexivity|]. rewrite E, IH. reflexivity. }
  rewrite X. apply xor_ks_xored.
Qed.
Print Assumptions C60_pkg2_key_schedule.

(** C60: derivation of the key from the header hash and the version hash. *)
Theorem C60_pkg2_key_derivation :
  forall h v,
    kmst1199_key h v = mix32 (Z.lxor (mix32 (Z.lxor (Z.lxor h v) 0x6D4C3B2A)) 0x4F4CB34A) /\
    Z.lxor (kmst1202_key h v) (Z.lxor h v) = 0x66B57FEE317FD3DF.
Proof.
  intros h v. split.
  - unfold kmst1199_key. rewrite !mix_spec. reflexivity.
  - unfold kmst1202_key. rewrite Z.lxor_comm, lxor_cancel_l. reflexivity.
Qed.
Print Assumptions C60_pkg2_key_derivation.

Example C60_ex :
  pkg2_decrypt (pkg2_keys 0x0706050403020100) 0 (repeat 0 10) = [0; 1; 1; 2; 2; 3; 3; 4; 0; 1] /\
  kmst1199_key 1 2 = 711970463.
Proof. vm_compute. split; reflexivity. Qed.
