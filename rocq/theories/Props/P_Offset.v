(** C08: stored directory offsets. *)
From Coq Require Import ZArith List Bool Lia.
From Verif.Model Require Import Base Keys Header Offset.
From Verif.Spec Require Import Version.
From Verif.Proofs Require Import BaseL VersionL Pkg1L.

(** C08: for each scheme the stored value is decoded by a bijection of the
    32-bit values. *)
Theorem C08_offset_bijection :
  forall v fstart hash1 hash pos, u32 fstart ->
    (forall enc, u32 (off_calc v fstart hash1 hash enc pos)) /\
    (forall y, u32 y -> exists enc, u32 enc /\ off_calc v fstart hash1 hash enc pos = y /\
       forall enc', u32 enc' -> off_calc v fstart hash1 hash enc' pos = y -> enc' = enc).
Proof.
  intros. split; [intro; apply off_u32|]. apply off_bijection. assumption.
Qed.
Print Assumptions C08_offset_bijection.

(** C08: the classic scheme, computed with 64-bit integers and masks, is plain
    32-bit arithmetic: ((~(pos - start) * hash - C) rotated by itself) xor
    stored, plus twice the start. *)
Theorem C08_classic_formula :
  forall fstart hash1 hash enc pos, u32 fstart -> u32 hash -> u32 enc ->
    exists a r,
      a = ((2 ^ 32 - 1 - (pos - fstart) mod 2 ^ 32) * hash - 0x581C3F6D) mod 2 ^ 32 /\
      rotated a (a mod 32) r /\
      off_calc OPkg1 fstart hash1 hash enc pos = (Z.lxor r enc + 2 * fstart) mod 2 ^ 32.
Proof.
  intros fstart hash1 hash enc pos Hf Hh He.
  set (a := ((2 ^ 32 - 1 - (pos - fstart) mod 2 ^ 32) * hash - 0x581C3F6D) mod 2 ^ 32).
  exists a, (rotl32 a (a mod 32)). split; [reflexivity|]. split.
  - apply rotl32_rotated, u32_mod.
  - cbn [off_calc]. rewrite off_pkg1_eq by assumption. unfold pkg1_mask. rewrite Zminus_mod_idemp_l.
    fold a. rewrite rotl32_mod. reflexivity.
Qed.
Print Assumptions C08_classic_formula.

(** Position relative to the start of the content, complemented, as 32 bits. *)
Definition back (fstart pos : Z) : Z := 2 ^ 32 - 1 - (pos - fstart) mod 2 ^ 32.

Lemma back_eq fstart pos : u32 fstart -> not32 (wrap 32 (wrap 32 pos - wrap 32 fstart)) = back fstart pos.
Proof.
  intro. unfold not32, back. rewrite wrap_sub_l, (wrap_small 32 fstart) by (assumption || lia). reflexivity.
Qed.

(** C08: the four package-2 schemes; [m] is the multiplier, [k] the xor mask and
    [d] the rotation of the scheme. *)
Theorem C08_pkg2_formula :
  forall v fstart hash1 hash enc pos, v <> OPkg1 -> u32 fstart -> u32 hash -> u32 hash1 -> u32 enc ->
    exists m k d r,
      match v with
      | OPkg2V1 => m = hash /\ k = hash1 * 0x01010101 mod 2 ^ 32 /\ d = Z.lxor hash hash1 mod 32
      | OPkg2V2 => m = Z.lxor hash hash1 /\ k = hash1 * 0x01010101 mod 2 ^ 32 /\ d = Z.lxor hash hash1 mod 32
      | OPkg2V3 =>
          let x := Z.lxor (mix32 (Z.lxor (Z.lxor hash1 hash) 0x6D4C3B2A)) 0x91E10DA5 in
          m = Z.lxor hash1 hash + Z.lxor x 0xA7E3C093 /\
          k = Z.lxor (hash1 * 0x01010101 mod 2 ^ 32) (x * 0x9E3779B9 mod 2 ^ 32) /\
          d = Z.lxor (Z.lxor hash1 hash) x mod 32
      | _ =>
          let x := Z.lxor (Z.lxor hash1 hash) 0x33BBBB33 in
          m = Z.lxor hash1 hash + Z.lxor x 0xA7E3C093 /\
          k = Z.lxor (hash1 * 0x01010101 mod 2 ^ 32) (x * 0x9E3779B9 mod 2 ^ 32) /\
          d = 19
      end /\
      rotated (Z.lxor ((back fstart pos * m - 0x581C3F6D) mod 2 ^ 32) k) d r /\
      off_calc v fstart hash1 hash enc pos =
        (Z.lxor r (if match v with OPkg2V1 => true | _ => false end then enc else 2 ^ 32 - 1 - enc) + fstart) mod 2 ^ 32.
Proof.
  intros v fstart hash1 hash enc pos Hv Hf Hh H1 He.
  assert (P : forall a m, wrap 32 (wrap 32 (a * wrap 32 m) - WZ_OFFSET) = (a * m - 0x581C3F6D) mod 2 ^ 32).
  { intros. rewrite wrap_sub_l by lia. unfold wrap, WZ_OFFSET.
    rewrite Zminus_mod, Z.mul_mod_idemp_r, <- Zminus_mod by (change (2 ^ 32) with 4294967296; lia). reflexivity. }
  assert (P' : forall a m, wrap 32 (wrap 32 (a * m) - WZ_OFFSET) = (a * m - 0x581C3F6D) mod 2 ^ 32).
  { intros. rewrite wrap_sub_l by lia. reflexivity. }
  destruct v; [congruence| | | |]; cbn [off_calc];
    unfold off_pkg2_v1, off_pkg2_v2, off_pkg2_v3, off_pkg2_64;
    rewrite (back_eq fstart pos Hf), (wrap_small 32 hash), (wrap_small 32 hash1), (wrap_small 32 fstart) by assumption.
  - rewrite P'. change 0x1F with 31. rewrite land_31.
    do 4 eexists. split; [repeat split; reflexivity|]. split; [apply rotl32_rotated, u32_lxor; apply u32_mod|reflexivity].
  - rewrite P'. change 0x1F with 31. rewrite land_31.
    do 4 eexists. split; [repeat split; reflexivity|]. split; [apply rotl32_rotated, u32_lxor; apply u32_mod|reflexivity].
  - rewrite P. change 0x1F with 31. rewrite land_31, mix_spec, (Z.lxor_assoc (_ mod _)).
    do 4 eexists. split; [repeat split; reflexivity|]. split; [apply rotl32_rotated, u32_lxor; [|apply u32_lxor]; apply u32_mod|reflexivity].
  - rewrite P, (Z.lxor_assoc (_ mod _)).
    do 4 eexists. split; [repeat split; reflexivity|]. split; [apply rotl32_rotated, u32_lxor; [|apply u32_lxor]; apply u32_mod|reflexivity].
Qed.
Print Assumptions C08_pkg2_formula.

Example C08_ex :
  off_calc OPkg1 60 0 59192 0x11223344 100 = 3424634616 /\
  off_calc OPkg2V3 60 0xDEADBEEF 12345 0x11223344 100 <> off_calc OPkg2V3 60 0xDEADBEEF 12345 0x11223345 100.
Proof. vm_compute. split; [reflexivity|discriminate]. Qed.
