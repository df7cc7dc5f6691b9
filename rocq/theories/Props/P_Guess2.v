(** C194-C196: finding the string key, continued. *)
From Coq Require Import ZArith List Bool Lia ZifyBool ZifyNat.
From Coq Require String Ascii.
From Verif.Model Require Import Base Utf Keys Reader WzStr Header Directory Image Media Guess.
From Verif.Spec Require Import Wire Stream StrWire HeaderSpec Media PropWire DirWire Aes KeyFind.
From Verif.Proofs Require Import BaseL WireL KeysL StringL ReaderL StrWireL AtL MediaL StrictL ImageL GuessL.
From Verif.Props Require Import P_Media P_Header P_Strict P_Guess.
Import ListNotations. Import String.StringSyntax.
Open Scope Z_scope.

Lemma right_iv_fits aes buf h p iv t :
  bytes buf -> zlen buf < 2 ^ 31 -> block_cipher aes -> length iv = 4%nat -> bytes iv ->
  read_header buf = Ok (h, p) -> first_name (classic h) buf (hd_data_start h) (enc_str (iv_key aes iv) t) ->
  unicode t -> t <> [] -> verify_iv_file (iv_key aes) buf iv = Ok tt.
Proof.
  intros Hb Hs Ha Li Bi Hd Fn U Tn. destruct (asc t) eqn:E.
  - assert (T : plain_ascii t).
    { split; [exact Tn|]. unfold asc in E. rewrite forallb_forall in E. unfold unicode in U. rewrite Forall_forall in U |- *.
      intros x I. specialize (E x I). specialize (U x I). lia. }
    destruct (C136_key_accepted aes buf h p (iv_key aes iv) t iv Hb Hs Ha (fun j => iv_key_byte aes iv j Ha Li Bi) Li Bi Hd Fn T) as [V _].
    specialize (V (fun i _ => eq_refl)). unfold verify_decr, verify_with_meta in V. unfold verify_iv_file.
    destruct (first_meta buf) as [m| | |]; cbn [rbind] in *; try discriminate.
    destruct (header_of buf); cbn [rbind] in *; try discriminate.
    destruct (try_resolve_meta _ _ _ _); cbn [rbind] in *; try discriminate. reflexivity.
  - apply (C140_foreign_name aes buf h p iv t); auto. apply Exists_exists.
    destruct (existsb (fun c => negb (c <? 128)) t) eqn:X.
    + apply existsb_exists in X. destruct X as (c & I & C). exists c. split; [exact I|lia].
    + exfalso. assert (asc t = true); [|congruence]. apply forallb_forall. intros c I.
      destruct (c <? 128) eqn:Y; [reflexivity|]. assert (existsb (fun c => negb (c <? 128)) t = true); [|congruence].
      apply existsb_exists. exists c. rewrite Y. auto.
Qed.

(** *** C194: [guess_iv_from_wz_file] finds an IV for every package written under one of the three standard keys, whatever its
    first name; it is the right one or one that comes earlier, so a package with open names is always recognised. *)
Theorem C194_iv_found : forall aes buf h p r t,
  bytes buf -> zlen buf < 2 ^ 31 -> block_cipher aes -> read_header buf = Ok (h, p) ->
  first_name (classic h) buf (hd_data_start h) (enc_str (iv_key aes (region_iv r)) t) -> unicode t -> t <> [] ->
  exists r', guess_iv_file (iv_key aes) buf = Ok (Some (region_iv r')) /\ (r' = r \/ r' = Open_ \/ (r' = Global /\ r = Sea)).
Proof.
  intros aes buf h p r t Hb Hs Ha Hd Fn U Tn. destruct (region_bytes r) as [Li Bi].
  pose proof (right_iv_fits aes buf h p (region_iv r) t Hb Hs Ha Li Bi Hd Fn U Tn) as V.
  unfold guess_iv_file.
  change (map iv_of_version [MBMS; MGMS; MEMS]) with (map region_iv [Open_; Global; Sea]). cbn [map first_file_iv].
  assert (Nb : forall iv, verify_iv_file (iv_key aes) buf iv = Ok tt \/ exists e, verify_iv_file (iv_key aes) buf iv = Err e).
  { intro iv. destruct (C144_no_panic (iv_key aes) buf pkg2_default iv 0 None) as (_ & _ & _ & _ & X & _). exact X. }
  destruct (Nb (region_iv Open_)) as [V1|[e1 V1]]; rewrite V1; [exists Open_; auto|].
  destruct r; [congruence| |].
  - rewrite V. exists Global. auto.
  - destruct (Nb (region_iv Global)) as [V2|[e2 V2]]; rewrite V2; [exists Global; auto|]. rewrite V. exists Sea. auto.
Qed.
Print Assumptions C194_iv_found.
Example C194_example :
  guess_iv_file (iv_key (aes256 user_key)) (small (key_of Sea) (codes "Mob.img")) = Ok (Some [185; 125; 99; 233]) /\
  guess_iv_file (iv_key (aes256 user_key)) (small (key_of Global) (codes "Mob.img")) = Ok (Some [77; 35; 199; 43]) /\
  guess_iv_file (iv_key (aes256 user_key)) (small (key_of Open_) [54620; 44397]) = Ok (Some [0; 0; 0; 0]).
Proof. vm_compute. repeat split. Qed.

(** *** C195 (false): it is always the right one.  A name that is not ASCII reads as some text under the open key too. *)
Theorem C195_iv_right_refuted : exists buf h p t,
  bytes buf /\ zlen buf < 2 ^ 31 /\ read_header buf = Ok (h, p) /\
  first_name (classic h) buf (hd_data_start h) (enc_str (iv_key (aes256 user_key) (region_iv Global)) t) /\ unicode t /\ (2 <= length t)%nat /\
  guess_iv_file (iv_key (aes256 user_key)) buf = Ok (Some (region_iv Open_)).
Proof.
  exists foreign, (mkHeader IV1 40 16 18 (Some 125) 0 0 FNone), 16, [54620; 44397].
  split; [byte_list|]. split; [reflexivity|]. split; [vm_compute; reflexivity|]. split.
  - exists 19, 25, 1, 4. split; [|split; [|split; [|split]]].
    + split; [lia|]. stands foreign 18%nat 19%nat.
    + lia.
    + stands foreign 19%nat 20%nat.
    + now right.
    + stands foreign 20%nat 25%nat.
  - split; [repeat constructor; lia|]. split; [cbn; lia|]. vm_compute. reflexivity.
Qed.
Print Assumptions C195_iv_right_refuted.

(** *** C196: in a package without a version field the key is also found if the first entry stands elsewhere (C152 shows that it is
    not with one). *)
Theorem C196_entry_elsewhere : forall buf h p r t a n off q,
  bytes buf -> zlen buf < 2 ^ 31 -> read_header buf = Ok (h, p) -> hd_ident h = IV1 -> hd_data_start h = hd_fstart h ->
  int_at buf (hd_fstart h) a n -> 1 <= n <= 1000000 -> - 2 ^ 31 <= off < 2 ^ 31 -> at_ buf a (a + 5) (2 :: enc_le 4 off) ->
  at_ buf (hd_fstart h + off + 1) q (enc_str (iv_key (aes256 user_key) (region_iv r)) t) ->
  plain_ascii t -> (r = Sea -> (2 <= length t)%nat) ->
  guess_decr (iv_key (aes256 user_key)) buf = Ok (Some (DEcb (region_iv r))).
Proof.
  intros buf h p r t a n off q Hb Hs Hd Id Hst I N Hoff A B T L. set (ks := iv_key (aes256 user_key) (region_iv r)) in *.
  pose proof (header_was _ _ _ Hd) as Hh. pose proof (ascii_form t T) as E. pose proof T as [Tn Ta].
  pose proof user_key_cipher as Ha.
  assert (Hk : forall r j, byte (iv_key (aes256 user_key) (region_iv r) j)) by (intros r' j; destruct (region_bytes r'); apply iv_key_byte; auto).
  assert (M : exists o e, at_ buf o e (body_ascii ks t) /\ first_meta buf = Ok (mkMeta o (zlen t) SAscii)).
  { destruct (meta_shape (plain_rd buf) ks _ q t Hs Tn B) as (o & O & M). rewrite zlen_body, E in M. unfold body in O. rewrite E in O.
    exists o, q. split; [exact O|]. unfold first_meta. rewrite Hh. cbn [rbind]. rewrite Hst.
    rewrite (bind_ok _ _ _ _ _ (at_wzint (plain_rd buf) Hs _ _ _ I)). rewrite Id.
    replace ((n <? 0) || (1000000 <? n)) with false by lia. rewrite (bind_ok _ _ _ n a) by reflexivity.
    replace (n =? 0) with false by lia. apply at_cons in A. destruct A as [A0 A1].
    destruct (at_u8 (plain_rd buf) Hs _ _ 2 ltac:(lia) A0) as [U _]. rewrite (bind_ok _ _ _ _ _ U). change (dtype_of 2) with DMeta. cbv iota.
    replace (a + 5) with (a + 1 + 4) in A1 by lia.
    destruct (at_i32 (plain_rd buf) Hs _ _ off ltac:(pows; lia) A1) as [R _]. rewrite (bind_ok _ _ _ _ _ R).
    pose proof (at_range _ _ _ _ B) as (B1 & B2 & B3).
    pose proof (zlen_nonneg (enc_str ks t)).
    unfold read_wz_string_meta_at, at_offset.
    assert (W : wrap 64 (wrap 64 (hd_fstart h + wrap 64 off) + 1) = hd_fstart h + off + 1).
    { unfold wrap. rewrite Zplus_mod_idemp_r, Zplus_mod_idemp_l. apply Z.mod_small. pows; lia. }
    rewrite W, M. reflexivity. }
  destruct M as (o & e & O & M).
  assert (V : forall r', (alike ks (iv_key (aes256 user_key) (region_iv r')) (length t) ->
                verify_with_meta (iv_key (aes256 user_key)) buf (DEcb (region_iv r')) (mkMeta o (zlen t) SAscii) = Ok tt) /\
              (~ alike ks (iv_key (aes256 user_key) (region_iv r')) (length t) ->
                exists x, verify_with_meta (iv_key (aes256 user_key)) buf (DEcb (region_iv r')) (mkMeta o (zlen t) SAscii) = Err x)).
  { intro r'. apply (verify_ascii (iv_key (aes256 user_key)) buf h Hs Hh ks t o e); auto; apply Hk. }
  assert (L1 : (1 <= length t)%nat) by (destruct t; [congruence|cbn; lia]).
  assert (D : forall r r' i, (i < length t)%nat -> (iv_key (aes256 user_key) (region_iv r) i / 128 =? iv_key (aes256 user_key) (region_iv r') i / 128) = false ->
    ~ alike (iv_key (aes256 user_key) (region_iv r)) (iv_key (aes256 user_key) (region_iv r')) (length t)).
  { intros r1 r2 i Hi X Al. specialize (Al i Hi). lia. }
  unfold guess_decr. rewrite M. cbn [try_all sm_type].
  change (map decr_of_version [MBMS; MGMS; MEMS]) with (map (fun r => DEcb (region_iv r)) [Open_; Global; Sea]). cbn [map first_verified].
  assert (S : forall i, ks i = iv_key (aes256 user_key) (region_iv r) i) by reflexivity.
  destruct r.
  - rewrite (proj1 (V Open_)) by (intros i _; reflexivity). reflexivity.
  - destruct (proj2 (V Open_)) as [x ->]; [apply (D Global Open_ 0%nat L1); vm_compute; reflexivity|].
    rewrite (proj1 (V Global)) by (intros i _; reflexivity). reflexivity.
  - specialize (L eq_refl). destruct (proj2 (V Open_)) as [x ->]; [apply (D Sea Open_ 0%nat L1); vm_compute; reflexivity|].
    destruct (proj2 (V Global)) as [y ->]; [apply (D Sea Global 1%nat L); vm_compute; reflexivity|].
    rewrite (proj1 (V Sea)) by (intros i _; reflexivity). reflexivity.
Qed.
Print Assumptions C196_entry_elsewhere.

(** One image, its type and name six bytes further on, behind size, checksum and stored offset. *)
Definition elsewhere (ks : nat -> Z) (name : list Z) : list Z :=
  PKG1 ++ enc_le 8 40 ++ enc_le 4 16 ++ [1; 2] ++ enc_le 4 12 ++ [9; 0; 1; 2; 3; 4; 4] ++ enc_str ks name ++ [115; 0; 0].
Example C196_example :
  first_meta (elsewhere (key_of Global) (codes "Mob.img")) = Ok (mkMeta 30 7 SAscii) /\
  read_header (elsewhere (key_of Global) (codes "Mob.img")) = Ok (mkHeader IV1 40 16 16 None 0 0 FNone, 16) /\
  guess_decr (iv_key (aes256 user_key)) (elsewhere (key_of Global) (codes "Mob.img")) = Ok (Some (DEcb [77; 35; 199; 43])).
Proof. vm_compute. repeat split. Qed.
