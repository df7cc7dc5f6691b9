(** Lemmas on UTF-8, sealed scripts and exported sounds. *)
From Coq Require Import ZArith List Bool Lia Arith ZifyBool.
From Verif.Model Require Import Base Utf Keys Reader Image Png Media.
From Verif.Spec Require Import Wire Stream PropWire Media.
From Verif.Proofs Require Import BaseL KeysL StringL AtL RawL.
From Verif.Props Require Import P_Keys.
Ltac Zify.zify_post_hook ::= idtac.

(** *** UTF-8 *)
Lemma cont_byte b : is_cont b = true -> exists a, b = 0x80 + a /\ 0 <= a < 64.
Proof. unfold is_cont, inr_. intros H. exists (b - 128). lia. Qed.
Lemma step_sound l c r : bytes l -> utf8_step l = Some (Some c, r) -> exists b, l = b ++ r /\ utf8_char c b /\ b <> [].
Proof.
  intros B H. unfold utf8_step in H. destruct l as [|b0 r0]; [discriminate|]. inversion_clear B as [|? ? B0 Br].
  unfold byte in B0.
  destruct (b0 <? 128) eqn:E0.
  { assert (c = b0 /\ r = r0) as [-> ->] by (split; congruence). exists [b0]. split; [reflexivity|]. split; [|discriminate]. constructor. lia. }
  destruct (inr_ 194 223 b0) eqn:E1.
  { destruct r0 as [|b1 r1]; [discriminate|]. destruct (is_cont b1) eqn:C1; [|discriminate].
    assert (r = r1) by congruence. assert (c = (b0 - 192) * 64 + (b1 - 128)) by congruence. subst.
    destruct (cont_byte _ C1) as (a & -> & A). exists [b0; 128 + a]. split; [reflexivity|]. split; [|discriminate].
    unfold inr_ in E1. replace ((b0 - 192) * 64 + (128 + a - 128)) with (64 * (b0 - 192) + a) by lia.
    replace b0 with (192 + (b0 - 192)) at 2 by lia. constructor; lia. }
  destruct (inr_ 224 239 b0) eqn:E2.
  { destruct r0 as [|b1 r1]; [discriminate|].
    destruct (if b0 =? 224 then inr_ 160 191 b1 else if b0 =? 237 then inr_ 128 159 b1 else is_cont b1) eqn:K; [|discriminate].
    destruct r1 as [|b2 r2]; [discriminate|]. destruct (is_cont b2) eqn:C2; [|discriminate].
    assert (r = r2) by congruence. assert (c = (b0 - 224) * 4096 + (b1 - 128) * 64 + (b2 - 128)) by congruence. subst.
    destruct (cont_byte _ C2) as (b & -> & Bb). exists [b0; b1; 128 + b]. split; [reflexivity|]. split; [|discriminate].
    unfold inr_ in E2.
    replace ((b0 - 224) * 4096 + (b1 - 128) * 64 + (128 + b - 128)) with (64 * (64 * (b0 - 224) + (b1 - 128)) + b) by lia.
    replace [b0; b1; 128 + b] with [0xE0 + (b0 - 224); 0x80 + (b1 - 128); 0x80 + b] by (repeat f_equal; lia).
    unfold is_cont, inr_ in K. destruct (Z.eqb_spec b0 224); [constructor; lia|].
    destruct (Z.eqb_spec b0 237); constructor; lia. }
  destruct (inr_ 240 244 b0) eqn:E3; [|discriminate].
  destruct r0 as [|b1 r1]; [discriminate|].
  destruct (if b0 =? 240 then inr_ 144 191 b1 else if b0 =? 244 then inr_ 128 143 b1 else is_cont b1) eqn:K; [|discriminate].
  destruct r1 as [|b2 r2]; [discriminate|]. destruct (is_cont b2) eqn:C2; [|discriminate].
  destruct r2 as [|b3 r3]; [discriminate|]. destruct (is_cont b3) eqn:C3; [|discriminate].
  assert (r = r3) by congruence.
  assert (c = (b0 - 240) * 262144 + (b1 - 128) * 4096 + (b2 - 128) * 64 + (b3 - 128)) by congruence. subst.
  destruct (cont_byte _ C2) as (b & -> & Bb). destruct (cont_byte _ C3) as (d & -> & Bd).
  exists [b0; b1; 128 + b; 128 + d]. split; [reflexivity|]. split; [|discriminate]. unfold inr_ in E3.
  replace ((b0 - 240) * 262144 + (b1 - 128) * 4096 + (128 + b - 128) * 64 + (128 + d - 128))
    with (64 * (64 * (64 * (b0 - 240) + (b1 - 128)) + b) + d) by lia.
  replace [b0; b1; 128 + b; 128 + d] with [0xF0 + (b0 - 240); 0x80 + (b1 - 128); 0x80 + b; 0x80 + d] by (repeat f_equal; lia).
  unfold is_cont, inr_ in K. destruct (Z.eqb_spec b0 240); [constructor; lia|].
  destruct (Z.eqb_spec b0 244); constructor; lia.
Qed.
Lemma go_sound f : forall l t, bytes l -> (length l <= f)%nat -> all_some (utf8_go f l) = Some t -> utf8 t l.
Proof.
  induction f as [|f IH]; intros l t B L H.
  - destruct l; [|cbn in L; lia]. cbn in H. injection H as <-. constructor.
  - cbn [utf8_go] in H. destruct (utf8_step l) as [[o r]|] eqn:E.
    + cbn [all_some] in H. destruct o as [c|]; [|discriminate].
      destruct (all_some (utf8_go f r)) as [t'|] eqn:G; [|discriminate]. injection H as <-.
      destruct (step_sound l c r B E) as (b & -> & U & N). apply bytes_app in B as [_ B].
      constructor; [exact U|]. apply IH; [exact B| |exact G].
      rewrite app_length in L. destruct b; [congruence|]. cbn in L. lia.
    + injection H as <-. destruct l as [|b0 r0]; [constructor|]. exfalso. clear -E. unfold utf8_step in E.
      repeat match type of E with
             | context [match ?x with _ => _ end] => destruct x; try discriminate
             end.
Qed.
Lemma char_enc c b : utf8_char c b -> is_scalar c = true /\ b = utf8_enc_char c.
Proof.
  Ltac Zify.zify_post_hook ::= Z.div_mod_to_equations.
  intros H. unfold utf8_enc_char, is_scalar. destruct H.
  - change (2 ^ 7) with 128 in *. split; [lia|]. replace (c <? 128) with true by lia. reflexivity.
  - change (2 ^ 5) with 32 in *. split; [lia|]. replace (64 * h + a <? 128) with false by lia.
    replace (64 * h + a <? 2048) with true by lia. f_equal; [lia|]. f_equal. lia.
  - change (2 ^ 4) with 16 in *. change (2 ^ 11) with 2048 in *. split; [lia|].
    set (c := 64 * (64 * h + a) + b) in *.
    replace (c <? 128) with false by lia. replace (c <? 2048) with false by lia. replace (c <? 65536) with true by lia.
    f_equal; [lia|]. f_equal; [lia|]. f_equal. lia.
  - change (2 ^ 3) with 8 in *. change (2 ^ 16) with 65536 in *. split; [lia|].
    set (v := 64 * (64 * (64 * h + a) + b) + c) in *.
    replace (v <? 128) with false by lia. replace (v <? 2048) with false by lia. replace (v <? 65536) with false by lia.
    f_equal; [lia|]. f_equal; [lia|]. f_equal; [lia|]. f_equal. lia.
  Ltac Zify.zify_post_hook ::= idtac.
Qed.
Lemma utf8_is_enc t l : utf8 t l -> scalars t /\ l = utf8_enc t.
Proof.
  induction 1 as [|c cs b bs C U (S & ->)]; [split; [constructor|reflexivity]|].
  destruct (char_enc _ _ C) as [Sc ->]. split; [constructor; assumption|reflexivity].
Qed.
Lemma strict_some l t : bytes l -> utf8_strict l = Some t <-> utf8 t l.
Proof.
  intros B. split; intros H.
  - apply (go_sound (length l)); [exact B|apply Nat.le_refl|exact H].
  - destruct (utf8_is_enc _ _ H) as [S ->]. apply utf8_strict_roundtrip, S.
Qed.

(** *** Slices *)
Lemma range_at buf p q l : at_ buf p q l -> range buf p q = Ok l.
Proof.
  intros (pre & post & -> & -> & ->). unfold range, slice.
  assert (zlen (pre ++ l ++ post) = Z.of_nat (length pre) + Z.of_nat (length l) + zlen post)
    by (unfold zlen; rewrite !app_length; lia).
  pose proof (zlen_nonneg post).
  replace (_ && _ && _) with true by (symmetry; lia). rewrite Nat2Z.id, skipn_app, skipn_all, Nat.sub_diag. cbn [skipn app].
  replace (Z.to_nat _) with (length l) by lia. rewrite firstn_app, firstn_all, Nat.sub_diag, firstn_O, app_nil_r. reflexivity.
Qed.
Lemma at_here buf p q : 0 <= p -> p <= q -> q <= zlen buf -> exists l, at_ buf p q l /\ zlen l = q - p.
Proof.
  intros. exists (firstn (Z.to_nat (q - p)) (skipn (Z.to_nat p) buf)).
  assert (L : length (firstn (Z.to_nat (q - p)) (skipn (Z.to_nat p) buf)) = Z.to_nat (q - p))
    by (unfold zlen in *; rewrite firstn_length, skipn_length; lia).
  split; [|unfold zlen; rewrite L; lia].
  exists (firstn (Z.to_nat p) buf), (skipn (Z.to_nat (q - p)) (skipn (Z.to_nat p) buf)).
  split; [rewrite !firstn_skipn; reflexivity|]. rewrite L, firstn_length. unfold zlen in *. lia.
Qed.
Lemma at_bytes buf p q l : bytes buf -> at_ buf p q l -> bytes l.
Proof. intros B (pre & post & -> & _). apply bytes_app in B as [_ B]. apply bytes_app in B. apply B. Qed.
Lemma range_none (buf : list Z) p q : ~ (0 <= p /\ p <= q /\ q <= zlen buf) -> range buf p q = Panic.
Proof. intros H. unfold range, slice. replace (_ && _ && _) with false by lia. reflexivity. Qed.

(** *** Key cells *)
(** A decryptor made for an IV and used any number of times. *)
Definition in_use (aes : list Z -> list Z) (iv : list Z) (d : ecb) : Prop :=
  exists ops, Forall op_ok ops /\ d = fold_left (run_op aes) ops (ecb_from_iv iv).
Definition cells_in_use (aes : list Z -> list Z) (cs : cells) : Prop :=
  in_use aes WZ_GMSIV (c_gms cs) /\ in_use aes WZ_MSEAIV (c_kms cs) /\ in_use aes [0; 0; 0; 0] (c_general cs).
Lemma fresh_in_use aes : cells_in_use aes fresh_cells.
Proof. repeat split; exists []; split; constructor. Qed.
Definition iv_of (v : lua_iv) : list Z := match v with Msea => WZ_MSEAIV | Gms => WZ_GMSIV | NoIv => [0; 0; 0; 0] end.
Definition seal_of (v : lua_iv) : seal := match v with Msea => SealSea | Gms => SealGms | NoIv => SealNone end.

Lemma in_use_ensure aes iv d n : in_use aes iv d -> 0 <= n -> in_use aes iv (ecb_ensure aes d n).
Proof.
  intros (ops & F & ->) Hn. exists (ops ++ [OpEnsure n]). split; [apply Forall_app; split; [exact F|repeat constructor; exact Hn]|].
  rewrite fold_left_app. reflexivity.
Qed.
Lemma iv_bytes v : length (iv_of v) = 4%nat /\ bytes (iv_of v).
Proof. split; destruct v; [reflexivity..| | |]; repeat constructor; discriminate. Qed.
Lemma plain_stays aes : forall ops d, ecb_plain d = true -> ecb_plain (fold_left (run_op aes) ops d) = true.
Proof.
  induction ops as [|o ops IH]; intros d H; [exact H|]. cbn [fold_left]. apply IH.
  assert (P : forall n, ecb_ensure aes d n = d) by (intro n; unfold ecb_ensure, ecb_is_enough; rewrite H; reflexivity).
  destruct o; cbn [run_op].
  - rewrite P. exact H.
  - unfold ecb_get_decrypt_slice. cbn [snd]. destruct (ecb_is_enough _ _); rewrite ?P; exact H.
  - unfold ecb_at. cbn [snd]. destruct (_ <=? _); rewrite ?P; exact H.
Qed.
Lemma ensure_decrypt aes v d data n : block_cipher aes -> in_use aes (iv_of v) d -> zlen data <= n ->
  ecb_decrypt (ecb_ensure aes d n) data = Ok (xor_ks (seal_key aes (seal_of v)) 0 data).
Proof.
  intros A (ops & F & ->) L. pose proof (zlen_nonneg data). destruct (iv_bytes v) as [Lv Bv].
  assert (C : v = NoIv \/ sext 32 (le_val (iv_of v)) <> 0) by (destruct v; [right|right|left]; [discriminate..|reflexivity]).
  destruct C as [-> |C].
  - rewrite (xor_ks_ext (seal_key aes (seal_of NoIv)) (fun _ => 0)) by reflexivity. rewrite xor_ks_zero. cbn [iv_of].
    set (d := fold_left (run_op aes) ops (ecb_from_iv [0; 0; 0; 0])) in *.
    assert (P : ecb_plain d = true) by (apply plain_stays; reflexivity).
    unfold ecb_ensure, ecb_is_enough. rewrite P. cbn [orb]. unfold ecb_decrypt. rewrite P. reflexivity.
  - assert (K : kinv aes (iv_of v) (fold_left (run_op aes) ops (ecb_from_iv (iv_of v)))).
    { apply run_ops_kinv; try assumption. apply kinv_init; assumption. }
    destruct (kinv_ensure aes A (iv_of v) Lv Bv _ n K ltac:(lia)) as (K1 & K2 & _).
    rewrite (kinv_decrypt aes A (iv_of v) Lv Bv _ data K1) by lia. f_equal. apply xor_ks_ext. intros j.
    destruct v; try reflexivity. destruct (C eq_refl).
Qed.
Lemma cell_in_use aes cs v : cells_in_use aes cs -> in_use aes (iv_of v) (cell_of cs v).
Proof. intros (G & K & N). destruct v; assumption. Qed.
Lemma set_in_use aes cs v d : cells_in_use aes cs -> in_use aes (iv_of v) d -> cells_in_use aes (set_cell cs v d).
Proof. intros (G & K & N) H. destruct v; repeat split; assumption. Qed.
Lemma seal_key_byte aes s i : block_cipher aes -> byte (seal_key aes s i).
Proof.
  intros A. destruct s; cbn [seal_key]; [| |split; reflexivity];
    (apply key_byte_byte; [exact A|reflexivity|repeat constructor; discriminate]).
Qed.

(** *** Scripts *)
Lemma sealed_open aes s t data : block_cipher aes -> bytes data ->
  sealed aes s t data <-> utf8_strict (xor_ks (seal_key aes s) 0 data) = Some t.
Proof.
  intros A B. assert (Bx : bytes (xor_ks (seal_key aes s) 0 data)) by (apply xor_ks_bytes; [intro; apply seal_key_byte, A|exact B]).
  rewrite (strict_some _ _ Bx). split.
  - intros (plain & U & X).
    assert (E : data = xor_ks (seal_key aes s) 0 plain) by apply (xored_unique _ _ _ _ X).
    rewrite E, xor_ks_twice. exact U.
  - intros U. eexists. split; [exact U|]. pose proof (xor_ks_xored (seal_key aes s) 0 (xor_ks (seal_key aes s) 0 data)) as X.
    rewrite xor_ks_twice in X. exact X.
Qed.
Lemma readable_open aes s data : block_cipher aes -> bytes data ->
  readable aes s data <-> utf8_strict (xor_ks (seal_key aes s) 0 data) <> None.
Proof.
  intros A B. unfold readable. split.
  - intros (t & S). apply sealed_open in S; [congruence|assumption..].
  - intros H. destruct (utf8_strict (xor_ks (seal_key aes s) 0 data)) as [t|] eqn:E; [|congruence].
    exists t. apply sealed_open; assumption.
Qed.

Lemma guess_spec aes probe : block_cipher aes -> bytes probe -> forall ivs cs, cells_in_use aes cs ->
  exists cs', cells_in_use aes cs' /\
    ((exists pre v post, ivs = pre ++ v :: post /\ (forall u, In u pre -> ~ readable aes (seal_of u) probe) /\
        readable aes (seal_of v) probe /\ lua_guess aes ivs cs probe = (Ok (Some v), cs')) \/
     ((forall u, In u ivs -> ~ readable aes (seal_of u) probe) /\ lua_guess aes ivs cs probe = (Ok None, cs'))).
Proof.
  intros A B. pose proof (zlen_nonneg probe). induction ivs as [|v ivs IH]; intros cs C.
  - exists cs. split; [exact C|]. right. split; [intros u []|reflexivity].
  - cbn [lua_guess]. rewrite (ensure_decrypt aes v) by (try apply cell_in_use; try assumption; lia).
    set (cs1 := set_cell cs v _).
    assert (C1 : cells_in_use aes cs1) by (apply set_in_use; [exact C|apply in_use_ensure; [apply cell_in_use, C|assumption]]).
    destruct (utf8_strict (xor_ks (seal_key aes (seal_of v)) 0 probe)) as [t|] eqn:E.
    + exists cs1. split; [exact C1|]. left. exists [], v, ivs. split; [reflexivity|]. split; [intros u []|].
      split; [|reflexivity]. apply readable_open; [assumption..|congruence].
    + assert (N : ~ readable aes (seal_of v) probe) by (rewrite readable_open by assumption; congruence).
      destruct (IH cs1 C1) as (cs' & C' & [(pre & w & post & -> & P & R & G)|[P G]]).
      * exists cs'. split; [exact C'|]. left. exists (v :: pre), w, post. split; [reflexivity|]. split; [|auto].
        intros u [<-|I]; auto.
      * exists cs'. split; [exact C'|]. right. split; [|exact G]. intros u [<-|I]; auto.
Qed.
Lemma first_three pre v post : lua_ivs = pre ++ v :: post ->
  forall s, earlier s (seal_of v) -> exists u, In u pre /\ seal_of u = s.
Proof.
  intros E s H. destruct pre as [|a [|b [|c [|]]]]; cbn in E; injection E; intros; subst; try discriminate;
    destruct s; cbn in H; try contradiction;
    first [exists Msea; split; [cbn; tauto|reflexivity]|exists Gms; split; [cbn; tauto|reflexivity]].
Qed.
