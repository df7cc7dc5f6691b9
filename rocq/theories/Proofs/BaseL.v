(** Lemmas on machine integers, buffers, and cursor computations. *)
From Coq Require Import ZArith List Bool Lia ZifyBool ZifyNat.
From Verif.Model Require Import Base.
Ltac Zify.zify_post_hook ::= Z.div_mod_to_equations.

Definition byte (b : Z) : Prop := 0 <= b < 256.
Definition bytes (l : list Z) : Prop := Forall byte l.

(** *** wrap / sext *)
Lemma pow2_pos n : 0 <= n -> 0 < 2 ^ n.
Proof. intros; apply Z.pow_pos_nonneg; lia. Qed.

Lemma wrap_range n x : 0 <= n -> 0 <= wrap n x < 2 ^ n.
Proof. intros; unfold wrap; apply Z.mod_pos_bound; apply pow2_pos; lia. Qed.

Lemma wrap_small n x : 0 <= x < 2 ^ n -> wrap n x = x.
Proof. intros; unfold wrap; apply Z.mod_small; lia. Qed.

Lemma wrap_wrap n x : 0 <= n -> wrap n (wrap n x) = wrap n x.
Proof. intros; apply wrap_small, wrap_range; lia. Qed.

Lemma wrap_add_l n a b : 0 <= n -> wrap n (wrap n a + b) = wrap n (a + b).
Proof. intros; unfold wrap; rewrite Zplus_mod_idemp_l; reflexivity. Qed.
Lemma wrap_add_r n a b : 0 <= n -> wrap n (a + wrap n b) = wrap n (a + b).
Proof. intros; unfold wrap; rewrite Zplus_mod_idemp_r; reflexivity. Qed.
Lemma wrap_sub_l n a b : 0 <= n -> wrap n (wrap n a - b) = wrap n (a - b).
Proof. intros; unfold wrap; rewrite Zminus_mod_idemp_l; reflexivity. Qed.
Lemma wrap_sub_r n a b : 0 <= n -> wrap n (a - wrap n b) = wrap n (a - b).
Proof. intros; unfold wrap; rewrite Zminus_mod_idemp_r; reflexivity. Qed.

Lemma wrap_wrap_le m n x : 0 <= m <= n -> wrap m (wrap n x) = wrap m x.
Proof.
  intros; unfold wrap.
  replace (2 ^ n) with (2 ^ (n - m) * 2 ^ m) by (rewrite <- Z.pow_add_r by lia; f_equal; lia).
  rewrite Z.mul_comm, Z.rem_mul_r by (try apply Z.pow_nonzero; try apply pow2_pos; lia).
  rewrite Z.mul_comm, Z_mod_plus_full, Z.mod_mod by (apply Z.pow_nonzero; lia).
  reflexivity.
Qed.

Lemma pow2_half n : 1 <= n -> 2 ^ n = 2 * 2 ^ (n - 1).
Proof. intros; rewrite <- Z.pow_succ_r by lia; f_equal; lia. Qed.

Lemma sext_range n x : 1 <= n -> - 2 ^ (n - 1) <= sext n x < 2 ^ (n - 1).
Proof.
  intros; unfold sext.
  pose proof (wrap_range n x ltac:(lia)); pose proof (pow2_half n H).
  destruct (Z.ltb_spec (wrap n x) (2 ^ (n - 1))); lia.
Qed.

Lemma sext_wrap n x : 1 <= n -> - 2 ^ (n - 1) <= x < 2 ^ (n - 1) -> sext n (wrap n x) = x.
Proof.
  intros; unfold sext. rewrite wrap_wrap by lia.
  pose proof (pow2_half n H); pose proof (pow2_pos (n - 1) ltac:(lia)).
  destruct (Z.leb_spec 0 x).
  - rewrite wrap_small by lia. destruct (Z.ltb_spec x (2 ^ (n - 1))); lia.
  - assert (wrap n x = x + 2 ^ n).
    { unfold wrap. symmetry. apply (Z.mod_unique_pos _ _ (-1)); lia. }
    rewrite H4. destruct (Z.ltb_spec (x + 2 ^ n) (2 ^ (n - 1))); lia.
Qed.

Lemma sext_small n x : 1 <= n -> - 2 ^ (n - 1) <= x < 2 ^ (n - 1) -> sext n x = x.
Proof.
  intros. rewrite <- (sext_wrap n x) at 2 by lia.
  unfold sext. rewrite wrap_wrap by lia. reflexivity.
Qed.

Lemma wrap_sext n x : 1 <= n -> wrap n (sext n x) = wrap n x.
Proof.
  intros; unfold sext.
  destruct (Z.ltb_spec (wrap n x) (2 ^ (n - 1))).
  - apply wrap_wrap; lia.
  - unfold wrap. replace (x mod 2 ^ n - 2 ^ n) with (x mod 2 ^ n + (-1) * 2 ^ n) by lia.
    rewrite Z_mod_plus_full, Z.mod_mod by (apply Z.pow_nonzero; lia). reflexivity.
Qed.

(** *** bit operations stay in range *)
Lemma lxor_mod a b n : 0 <= n -> (Z.lxor a b) mod 2 ^ n = Z.lxor (a mod 2 ^ n) (b mod 2 ^ n).
Proof.
  intros; apply Z.bits_inj'; intros i Hi.
  rewrite Z.lxor_spec. destruct (Z.ltb_spec i n).
  - rewrite !Z.mod_pow2_bits_low by lia. apply Z.lxor_spec.
  - rewrite !Z.mod_pow2_bits_high by lia. reflexivity.
Qed.

Lemma lxor_range n a b : 0 <= n -> 0 <= a < 2 ^ n -> 0 <= b < 2 ^ n -> 0 <= Z.lxor a b < 2 ^ n.
Proof.
  intros. rewrite <- (Z.mod_small a (2 ^ n)), <- (Z.mod_small b (2 ^ n)) by lia.
  rewrite <- lxor_mod by lia. apply Z.mod_pos_bound, pow2_pos; lia.
Qed.

Lemma lor_mod a b n : 0 <= n -> (Z.lor a b) mod 2 ^ n = Z.lor (a mod 2 ^ n) (b mod 2 ^ n).
Proof.
  intros; apply Z.bits_inj'; intros i Hi.
  rewrite Z.lor_spec. destruct (Z.ltb_spec i n).
  - rewrite !Z.mod_pow2_bits_low by lia. apply Z.lor_spec.
  - rewrite !Z.mod_pow2_bits_high by lia. reflexivity.
Qed.

Lemma lor_range n a b : 0 <= n -> 0 <= a < 2 ^ n -> 0 <= b < 2 ^ n -> 0 <= Z.lor a b < 2 ^ n.
Proof.
  intros. rewrite <- (Z.mod_small a (2 ^ n)), <- (Z.mod_small b (2 ^ n)) by lia.
  rewrite <- lor_mod by lia. apply Z.mod_pos_bound, pow2_pos; lia.
Qed.

Lemma lxor_cancel_r a b : Z.lxor (Z.lxor a b) b = a.
Proof. rewrite Z.lxor_assoc, Z.lxor_nilpotent, Z.lxor_0_r; reflexivity. Qed.
Lemma lxor_cancel_l a b : Z.lxor a (Z.lxor a b) = b.
Proof. rewrite <- Z.lxor_assoc, Z.lxor_nilpotent, Z.lxor_0_l; reflexivity. Qed.

Lemma lxor_inj_r a b c : Z.lxor a c = Z.lxor b c -> a = b.
Proof. intro H. rewrite <- (lxor_cancel_r a c), <- (lxor_cancel_r b c), H. reflexivity. Qed.

Lemma byte_lxor a b : byte a -> byte b -> byte (Z.lxor a b).
Proof. unfold byte; intros; apply (lxor_range 8); lia. Qed.

(** *** lists *)
Lemma zlen_app {A} (a b : list A) : zlen (a ++ b) = zlen a + zlen b.
Proof. unfold zlen; rewrite app_length; lia. Qed.
Lemma zlen_cons {A} (a : A) l : zlen (a :: l) = 1 + zlen l.
Proof. unfold zlen; cbn [length]; lia. Qed.
Lemma zlen_nil {A} : zlen (@nil A) = 0.
Proof. reflexivity. Qed.
Lemma zlen_nonneg {A} (l : list A) : 0 <= zlen l.
Proof. unfold zlen; lia. Qed.

Lemma slice_app {A} (p m q : list A) (a b : Z) :
  a = zlen p -> b = zlen p + zlen m -> slice (p ++ m ++ q) a b = Some m.
Proof.
  intros -> ->. unfold slice.
  pose proof (zlen_nonneg p); pose proof (zlen_nonneg m); pose proof (zlen_nonneg q).
  rewrite !zlen_app.
  replace (_ && _ && _) with true by (symmetry; lia).
  replace (Z.to_nat (zlen p)) with (length p) by (unfold zlen; lia).
  replace (Z.to_nat (zlen p + zlen m - zlen p)) with (length m) by (unfold zlen; lia).
  f_equal. rewrite skipn_app, skipn_all, Nat.sub_diag. cbn [app skipn].
  rewrite firstn_app, firstn_all, Nat.sub_diag. cbn [firstn]. apply app_nil_r.
Qed.

Lemma slice_some {A} (buf : list A) a b l :
  slice buf a b = Some l ->
  0 <= a /\ a <= b /\ b <= zlen buf /\ zlen l = b - a /\
  exists p q, buf = p ++ l ++ q /\ zlen p = a.
Proof.
  unfold slice. destruct ((0 <=? a) && (a <=? b) && (b <=? zlen buf)) eqn:E; [|discriminate].
  intro H; injection H as <-.
  assert (0 <= a /\ a <= b /\ b <= zlen buf) as (H1 & H2 & H3) by lia.
  unfold zlen in *.
  assert (Hl : length (firstn (Z.to_nat (b - a)) (skipn (Z.to_nat a) buf)) = Z.to_nat (b - a)).
  { rewrite firstn_length, skipn_length. lia. }
  repeat split; try lia.
  exists (firstn (Z.to_nat a) buf), (skipn (Z.to_nat (b - a)) (skipn (Z.to_nat a) buf)).
  split.
  - rewrite firstn_skipn, firstn_skipn. reflexivity.
  - rewrite firstn_length. lia.
Qed.

Lemma slice_none {A} (buf : list A) a b :
  slice buf a b = None <-> ~ (0 <= a /\ a <= b /\ b <= zlen buf).
Proof.
  unfold slice. destruct ((0 <=? a) && (a <=? b) && (b <=? zlen buf)) eqn:E.
  - split; [discriminate|]. intro. exfalso. apply H. lia.
  - split; [|reflexivity]. intros _. lia.
Qed.

Lemma slice_total {A} (buf : list A) a b :
  0 <= a -> a <= b -> b <= zlen buf -> exists l, slice buf a b = Some l /\ zlen l = b - a.
Proof.
  intros. destruct (slice buf a b) eqn:E.
  - exists l. split; [reflexivity|]. apply slice_some in E. tauto.
  - apply slice_none in E. tauto.
Qed.

Lemma slice_bytes buf a b l : bytes buf -> slice buf a b = Some l -> bytes l.
Proof.
  intros H E. apply slice_some in E as (_ & _ & _ & _ & p & q & -> & _).
  unfold bytes in *. rewrite !Forall_app in H. tauto.
Qed.

(** *** little endian *)
Lemma le_bytes_length n x : length (le_bytes n x) = n.
Proof. revert x; induction n; intros; cbn [le_bytes length]; auto. Qed.

Lemma le_bytes_bytes n x : bytes (le_bytes n x).
Proof.
  unfold bytes. revert x; induction n; intros; cbn [le_bytes]; constructor; auto.
  unfold byte. lia.
Qed.

Lemma le_val_le_bytes n x : le_val (le_bytes n x) = wrap (8 * Z.of_nat n) x.
Proof.
  revert x; induction n; intros; cbn [le_bytes le_val].
  - unfold wrap. cbn. rewrite Z.mod_1_r. reflexivity.
  - rewrite IHn. unfold wrap.
    replace (8 * Z.of_nat (S n)) with (8 + 8 * Z.of_nat n) by lia.
    rewrite Z.pow_add_r by lia.
    rewrite Z.rem_mul_r by (try apply Z.pow_nonzero; try apply pow2_pos; lia).
    reflexivity.
Qed.

Lemma le_val_range l : bytes l -> 0 <= le_val l < 2 ^ (8 * zlen l).
Proof.
  induction 1; cbn [le_val].
  - cbn. lia.
  - rewrite zlen_cons. replace (8 * (1 + zlen l)) with (8 + 8 * zlen l) by lia.
    pose proof (zlen_nonneg l). rewrite Z.pow_add_r by lia. unfold byte in H. nia.
Qed.

Lemma le_bytes_le_val l : bytes l -> le_bytes (length l) (le_val l) = l.
Proof.
  induction 1; cbn [length le_bytes le_val]; [reflexivity|].
  unfold byte in H.
  replace ((x + 256 * le_val l) mod 256) with x by lia.
  replace ((x + 256 * le_val l) / 256) with (le_val l) by lia.
  f_equal; assumption.
Qed.

Lemma bytes_app a b : bytes (a ++ b) <-> bytes a /\ bytes b.
Proof. apply Forall_app. Qed.

Lemma list_ind2 (A : Type) (P : list A -> Prop) :
  P [] -> (forall a, P [a]) -> (forall a b l, P l -> P (a :: b :: l)) -> forall l, P l.
Proof.
  intros H0 H1 H2. fix IH 1. intros [|a [|b l]]; [exact H0 | exact (H1 a) | exact (H2 a b l (IH l))].
Qed.
