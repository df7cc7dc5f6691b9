(** Version hashes: classic scan, closed forms, bit search. *)
From Coq Require Import ZArith List Bool Lia ZifyBool ZifyNat FinFun.
From Verif.Model Require Import Base Keys Header Offset VersionPkg1 VersionPkg2.
From Verif.Spec Require Import Version.
From Verif.Proofs Require Import BaseL.
Ltac Zify.zify_post_hook ::= Z.div_mod_to_equations.

(** *** rotation *)
Lemma testbit_wrap n x i : 0 <= n -> Z.testbit (wrap n x) i = (i <? n) && Z.testbit x i.
Proof.
  intros. unfold wrap. destruct (Z.ltb_spec i n).
  - rewrite Z.mod_pow2_bits_low by lia. reflexivity.
  - rewrite Z.mod_pow2_bits_high by lia. reflexivity.
Qed.

Lemma u32_bits_high x i : u32 x -> 32 <= i -> Z.testbit x i = false.
Proof.
  intros [H1 H2] Hi. rewrite <- (Z.mod_small x (2 ^ 32)) by lia.
  apply Z.mod_pow2_bits_high. lia.
Qed.

Lemma rotl32_bit x k j : u32 x -> 0 <= j < 32 ->
  Z.testbit (rotl32 x k) j = Z.testbit x ((j - k) mod 32).
Proof.
  intros Hx Hj. unfold rotl32.
  pose proof (Z.mod_pos_bound k 32 ltac:(lia)) as Hs. remember (k mod 32) as s eqn:Es.
  rewrite Z.lor_spec, testbit_wrap by lia.
  replace (j <? 32) with true by lia. cbn [andb].
  rewrite Z.shiftr_spec by lia.
  assert (Hm : (j - k) mod 32 = if s <=? j then j - s else j + 32 - s) by (destruct (s <=? j) eqn:?; lia).
  rewrite Hm. destruct (Z.leb_spec s j).
  - rewrite Z.shiftl_spec by lia. rewrite (u32_bits_high x (j + (32 - s))) by (auto; lia).
    rewrite orb_false_r. reflexivity.
  - rewrite Z.shiftl_spec by lia. rewrite (Z.testbit_neg_r x (j - s)) by lia.
    cbn [orb]. f_equal. lia.
Qed.

Lemma rotl32_u32 x k : u32 x -> u32 (rotl32 x k).
Proof.
  intros Hx. unfold rotl32. apply (lor_range 32); [lia|apply wrap_range; lia|].
  rewrite Z.shiftr_div_pow2 by lia.
  pose proof (Z.mod_pos_bound k 32 ltac:(lia)).
  destruct Hx. pose proof (pow2_pos (32 - k mod 32) ltac:(lia)).
  split; [apply Z.div_pos; lia|].
  apply Z.le_lt_trans with x; [|lia]. apply Z.div_le_upper_bound; [lia|]. nia.
Qed.

Lemma rotl32_rotated x k : u32 x -> rotated x k (rotl32 x k).
Proof.
  intros Hx. split; [apply rotl32_u32; assumption|]. intros i Hi.
  rewrite rotl32_bit by (auto; apply Z.mod_pos_bound; lia).
  f_equal. rewrite Zminus_mod_idemp_l. replace (i + k - k) with i by lia. apply Z.mod_small; lia.
Qed.

Lemma u32_ext a b : u32 a -> u32 b ->
  (forall i, 0 <= i < 32 -> Z.testbit a i = Z.testbit b i) -> a = b.
Proof.
  intros Ha Hb H. apply Z.bits_inj'. intros i Hi. destruct (Z.ltb_spec i 32).
  - apply H; lia.
  - rewrite !u32_bits_high by (auto; lia). reflexivity.
Qed.

Lemma rotated_unique x k y z : rotated x k y -> rotated x k z -> y = z.
Proof.
  intros [Hy Ey] [Hz Ez]. apply u32_ext; auto. intros i Hi.
  specialize (Ey ((i - k) mod 32) ltac:(apply Z.mod_pos_bound; lia)).
  specialize (Ez ((i - k) mod 32) ltac:(apply Z.mod_pos_bound; lia)).
  rewrite Zplus_mod_idemp_l in Ey, Ez. replace (i - k + k) with i in Ey, Ez by lia.
  rewrite Z.mod_small in Ey, Ez by lia. congruence.
Qed.

Lemma rotated_iff x k y : u32 x -> rotated x k y <-> y = rotl32 x k.
Proof.
  intro Hx. split.
  - intro H. apply (rotated_unique x k); [exact H|apply rotl32_rotated, Hx].
  - intros ->. apply rotl32_rotated, Hx.
Qed.

Lemma rotl32_mod x k : rotl32 x (k mod 32) = rotl32 x k.
Proof. unfold rotl32. rewrite Z.mod_mod by lia. reflexivity. Qed.

Lemma u32_lxor a b : u32 a -> u32 b -> u32 (Z.lxor a b).
Proof. unfold u32. intros; apply lxor_range; lia. Qed.
Lemma u32_wrap x : u32 (wrap 32 x).
Proof. apply wrap_range. lia. Qed.
Lemma u32_mod x : u32 (x mod 2 ^ 32).
Proof. apply (wrap_range 32). lia. Qed.
Lemma not32_u32 x : u32 x -> u32 (not32 x).
Proof. unfold u32, not32. lia. Qed.
Lemma land_31 x : Z.land x 31 = x mod 32.
Proof. change 31 with (Z.ones 5). rewrite Z.land_ones by lia. reflexivity. Qed.
Lemma land_15 x : Z.land x 15 = x mod 16.
Proof. change 15 with (Z.ones 4). rewrite Z.land_ones by lia. reflexivity. Qed.
Lemma land_255 x : Z.land x 255 = x mod 256.
Proof. change 255 with (Z.ones 8). rewrite Z.land_ones by lia. reflexivity. Qed.
Lemma lxor_eq_iff a b c : Z.lxor a b = c <-> b = Z.lxor a c.
Proof.
  split; intro H.
  - rewrite <- H, lxor_cancel_l. reflexivity.
  - rewrite H, lxor_cancel_l. reflexivity.
Qed.

(** *** header equations = verifiers *)
Lemma verify_v1_iff h1 h2 v : u32 h1 -> verify_v1 h1 h2 v = true <-> eq_v1 h1 h2 v.
Proof.
  intros H. unfold verify_v1, eq_v1. rewrite Z.eqb_eq. split.
  - intros <-. eexists; split; [apply rotl32_rotated, H|reflexivity].
  - intros (r & Hr & ->). apply rotated_iff in Hr; [|assumption]. subst. reflexivity.
Qed.

Lemma base_u32 h1 v : u32 h1 -> u32 (Z.lxor h1 (wrap 32 (v + VERIFY_KEY))).
Proof. intros; apply u32_lxor; [assumption|apply u32_wrap]. Qed.

Lemma verify_v2_iff h1 h2 v : u32 h1 -> verify_v2 h1 h2 v = true <-> eq_v2 h1 h2 v.
Proof.
  intros H. unfold verify_v2, eq_v2. rewrite Z.eqb_eq, land_31.
  change ((v + 0x1A2B3C4D) mod 2 ^ 32) with (wrap 32 (v + VERIFY_KEY)). split.
  - intros <-. eexists; split; [apply rotl32_rotated, base_u32, H|reflexivity].
  - intros (r & Hr & ->). apply rotated_iff in Hr; [|apply base_u32, H]. subst. reflexivity.
Qed.

Lemma wrap_add16 a b : wrap 32 (a mod 16 + b mod 16) = a mod 16 + b mod 16.
Proof. apply wrap_small. change (2 ^ 32) with 4294967296. lia. Qed.

Lemma verify_v3_iff h1 h2 v : u32 h1 -> verify_v3 h1 h2 v = true <-> eq_v3 h1 h2 v.
Proof.
  intros H. unfold verify_v3, eq_v3. rewrite Z.eqb_eq, !land_15, wrap_add16.
  change ((v + 0x1A2B3C4D) mod 2 ^ 32) with (wrap 32 (v + VERIFY_KEY)). split.
  - intros <-. eexists; split; [apply rotl32_rotated, base_u32, H|reflexivity].
  - intros (r & Hr & ->). apply rotated_iff in Hr; [|apply base_u32, H]. subst. reflexivity.
Qed.

Lemma mix_spec x : mix_kmst1199 x = mix32 x.
Proof.
  unfold mix_kmst1199, mix32. rewrite !Z.shiftr_div_pow2 by lia. reflexivity.
Qed.

Lemma lhs_v45_iff h1 v out : u32 h1 -> lhs_v45 h1 v = out <-> scrambled_v45 h1 v out.
Proof.
  intros H. unfold lhs_v45, scrambled_v45, VERIFY_KEY_V4. rewrite mix_spec, !land_15, wrap_add16.
  rewrite wrap_add_l by lia. unfold VERIFY_KEY.
  set (m := Z.lxor (mix32 _) _).
  change ((m mod 65536 + v + 0x1A2B3C4D) mod 2 ^ 32) with (wrap 32 (wrap 16 m + v + 0x1A2B3C4D)).
  change ((Z.lxor h1 v + m) mod 2 ^ 32) with (wrap 32 (Z.lxor h1 v + m)).
  split.
  - intros <-. eexists; split; [apply rotl32_rotated, u32_lxor; [assumption|apply u32_wrap]|reflexivity].
  - intros (r & Hr & ->). apply rotated_iff in Hr; [|apply u32_lxor; [assumption|apply u32_wrap]].
    subst. reflexivity.
Qed.

Lemma verify_v4_iff h1 h2 v : u32 h1 -> verify_v4 h1 h2 v = true <-> eq_v4 h1 h2 v.
Proof. intros H. unfold verify_v4, eq_v4. rewrite Z.eqb_eq. apply lhs_v45_iff, H. Qed.

Lemma verify_v5_iff h1 h2 v : u32 h1 -> verify_v5 h1 h2 v = true <-> eq_v5 h1 h2 v.
Proof.
  intros H. unfold verify_v5, eq_v5. rewrite Z.eqb_eq, <- (lhs_v45_iff h1 v _ H).
  unfold VERIFY_KEY_V5. split; intro E.
  - rewrite <- E, lxor_cancel_r. reflexivity.
  - rewrite E, lxor_cancel_r. reflexivity.
Qed.

Lemma verify_v6_iff h1 h2 v : verify_v6 h1 h2 v = true <-> eq_v6 h1 h2 v.
Proof.
  unfold verify_v6, eq_v6. rewrite Z.eqb_eq. unfold VERIFY_KEY_V6. symmetry. apply lxor_eq_iff.
Qed.

Lemma zrange_In a b x : In x (zrange a b) <-> a <= x < b.
Proof.
  unfold zrange. rewrite in_map_iff. split.
  - intros (i & <- & Hi). apply in_seq in Hi. lia.
  - intros H. exists (Z.to_nat (x - a)). split; [lia|]. apply in_seq. lia.
Qed.
Lemma zrange_NoDup a b : NoDup (zrange a b).
Proof.
  unfold zrange. apply Injective_map_NoDup; [|apply seq_NoDup].
  intros i j E. lia.
Qed.

(** *** bits *)
Lemma bit_b2z x i : 0 <= i -> Z.land (Z.shiftr x i) 1 = Z.b2z (Z.testbit x i).
Proof.
  intros. change 1 with (Z.ones 1). rewrite Z.land_ones by lia. change (2 ^ 1) with 2.
  rewrite <- Z.bit0_mod, Z.shiftr_spec by lia. reflexivity.
Qed.

Lemma mod_succ x i : 0 <= i -> x mod 2 ^ (i + 1) = x mod 2 ^ i + Z.b2z (Z.testbit x i) * 2 ^ i.
Proof.
  intros. rewrite Z.testbit_spec' by lia. rewrite Z.pow_add_r by lia. change (2 ^ 1) with 2.
  pose proof (pow2_pos i ltac:(lia)). rewrite Z.rem_mul_r; [ring| |]; clear -H0; lia.
Qed.

Definition carry (v k i : Z) : Z := (v mod 2 ^ i + k mod 2 ^ i) / 2 ^ i.

Lemma carry_range v k i : 0 <= i -> 0 <= carry v k i <= 1.
Proof.
  intros. unfold carry. pose proof (pow2_pos i ltac:(lia)).
  pose proof (Z.mod_pos_bound v (2 ^ i) ltac:(lia)). pose proof (Z.mod_pos_bound k (2 ^ i) ltac:(lia)).
  generalize dependent (v mod 2 ^ i). generalize dependent (k mod 2 ^ i). intros a Ha b Hb.
  split; [apply Z.div_pos; lia|]. apply Z.lt_succ_r. apply Z.div_lt_upper_bound; lia.
Qed.

Definition colsum (v k i : Z) : Z :=
  Z.b2z (Z.testbit v i) + Z.b2z (Z.testbit k i) + carry v k i.

Lemma carry_succ v k i : 0 <= i -> carry v k (i + 1) = colsum v k i / 2.
Proof.
  intros. unfold colsum. unfold carry at 1. rewrite !mod_succ by lia. rewrite Z.pow_add_r by lia.
  pose proof (pow2_pos i ltac:(lia)). unfold carry.
  rewrite <- Z.div_div by lia. f_equal.
  replace (v mod 2 ^ i + Z.b2z (Z.testbit v i) * 2 ^ i + (k mod 2 ^ i + Z.b2z (Z.testbit k i) * 2 ^ i))
    with ((v mod 2 ^ i + k mod 2 ^ i) + (Z.b2z (Z.testbit v i) + Z.b2z (Z.testbit k i)) * 2 ^ i) by lia.
  rewrite Z.div_add by lia. lia.
Qed.

Lemma sum_bit v k i : 0 <= i -> Z.b2z (Z.testbit (v + k) i) = colsum v k i mod 2.
Proof.
  intros. rewrite Z.testbit_spec' by lia. unfold colsum, carry. rewrite !Z.testbit_spec' by lia.
  pose proof (pow2_pos i ltac:(lia)).
  rewrite (Z.div_mod v (2 ^ i)) at 1 by lia. rewrite (Z.div_mod k (2 ^ i)) at 1 by lia.
  replace (2 ^ i * (v / 2 ^ i) + v mod 2 ^ i + (2 ^ i * (k / 2 ^ i) + k mod 2 ^ i))
    with ((v mod 2 ^ i + k mod 2 ^ i) + (v / 2 ^ i + k / 2 ^ i) * 2 ^ i) by lia.
  rewrite Z.div_add by lia. generalize ((v mod 2 ^ i + k mod 2 ^ i) / 2 ^ i). intro c.
  generalize (v / 2 ^ i), (k / 2 ^ i). intros. lia.
Qed.

Lemma carry_low v k i p : 0 <= i -> p mod 2 ^ i = v mod 2 ^ i -> carry p k i = carry v k i.
Proof. intros. unfold carry. rewrite H0. reflexivity. Qed.

(** *** the bit search *)
Ltac Zify.zify_post_hook ::= idtac.
Ltac dlia := Z.div_mod_to_equations; lia.
Lemma bits_of_mod v i p j : 0 <= j < i -> p = v mod 2 ^ i -> Z.testbit p j = Z.testbit v j.
Proof. intros H ->. apply Z.mod_pow2_bits_low. lia. Qed.

Lemma testbit_add_mod v k i p j : 0 <= j < i -> p mod 2 ^ i = v mod 2 ^ i ->
  Z.testbit (p + k) j = Z.testbit (v + k) j.
Proof.
  intros H E.
  rewrite <- (Z.mod_pow2_bits_low (p + k) i j), <- (Z.mod_pow2_bits_low (v + k) i j) by lia.
  rewrite <- (Zplus_mod_idemp_l p), E, Zplus_mod_idemp_l. reflexivity.
Qed.

Lemma b2z_eqb a b : (Z.b2z a =? Z.b2z b) = Bool.eqb a b.
Proof. destruct a, b; reflexivity. Qed.
Lemma lxor_b2z a b : Z.lxor (Z.b2z a) (Z.b2z b) = Z.b2z (xorb a b).
Proof. destruct a, b; reflexivity. Qed.

Lemma set_nth_length l i v : (i < length l)%nat -> length (set_nth l i v) = length l.
Proof.
  intros. unfold set_nth. rewrite app_length. cbn [length].
  rewrite firstn_length, skipn_length. lia.
Qed.
Lemma set_nth_same l i v d : (i < length l)%nat -> nth i (set_nth l i v) d = v.
Proof.
  intros. unfold set_nth. rewrite app_nth2; rewrite firstn_length, Nat.min_l by lia; [|lia].
  rewrite Nat.sub_diag. reflexivity.
Qed.
Lemma nth_firstn_lt {A} (l : list A) : forall n j d, (j < n)%nat -> nth j (firstn n l) d = nth j l d.
Proof.
  induction l; intros [|n] j d Hj; [lia|reflexivity|lia|]. rewrite firstn_cons.
  destruct j; [reflexivity|]. cbn [nth]. apply IHl. lia.
Qed.
Lemma set_nth_other l i j v d : (i < length l)%nat -> (j < i)%nat -> nth j (set_nth l i v) d = nth j l d.
Proof.
  intros. unfold set_nth. rewrite app_nth1 by (rewrite firstn_length; lia).
  apply nth_firstn_lt. assumption.
Qed.

Lemma bt_dec (P F idx low_len : Z) (vx lP L vF tF lF pF ti : bool) :
  (F < idx -> pF = vF) -> (F = idx -> pF = false) -> (F = idx -> tF = ti) ->
  ((P < idx -> vx = lP) /\ (F < idx -> L = xorb vF tF) /\
   (idx < F -> F < low_len -> L = xorb lF tF) /\ (F = idx -> L = ti)) <->
  ((P <? idx) && negb (Bool.eqb vx lP) = false /\
   (if F <=? idx then negb (Bool.eqb L (xorb pF tF))
    else if F <? low_len then negb (Bool.eqb L (xorb lF tF)) else false) = false).
Proof.
  intros H1 H2 H3.
  assert (A : (P < idx -> vx = lP) <-> (P <? idx) && negb (Bool.eqb vx lP) = false).
  { destruct (Z.ltb_spec P idx); cbn [andb].
    - rewrite negb_false_iff, Bool.eqb_true_iff. split; auto.
    - split; [auto|]. intros _ X. exfalso. lia. }
  rewrite <- A. apply and_iff_compat_l.
  destruct (Z.leb_spec F idx).
  - rewrite negb_false_iff, Bool.eqb_true_iff. destruct (Z.eq_dec F idx).
    + rewrite (H2 e), (H3 e), xorb_false_l. split; [intros (_ & _ & X); auto|].
      intros ->. split; [|split]; intros; auto; exfalso; lia.
    + rewrite H1 by lia. split; [intros (X & _); apply X; lia|].
      intros ->. split; [|split]; intros; auto; exfalso; lia.
  - destruct (Z.ltb_spec F low_len).
    + rewrite negb_false_iff, Bool.eqb_true_iff. split; [intros (_ & X & _); auto|].
      intros ->. split; [|split]; intros; auto; exfalso; lia.
    + split; [auto|]. intros _. split; [|split]; intros; exfalso; lia.
Qed.

Section Backtrack.
  Variable validator : Z -> Z -> Z -> bool.
  Variables h1 h2 s low_len low target : Z.
  Hypothesis Hs : 0 <= s < 2 ^ 31.

  Let prev (i : Z) := (i - s) mod 32.
  Let fut (i : Z) := (i + s) mod 32.
  Let K := VERIFY_KEY.
  Definition Lb (v i : Z) : bool := xorb (Z.testbit h1 i) (Z.testbit (v + VERIFY_KEY) i).

  Definition bt_ok (v i : Z) : Prop :=
    (prev i < i -> xorb (Z.testbit v i) (Z.testbit target i) = Lb v (prev i)) /\
    (fut i < i -> Lb v i = xorb (Z.testbit v (fut i)) (Z.testbit target (fut i))) /\
    (i < fut i -> fut i < low_len -> Lb v i = xorb (Z.testbit low (fut i)) (Z.testbit target (fut i))) /\
    (fut i = i -> Lb v i = Z.testbit target i).

  Definition bt_inv (idx p : Z) (st : bt) : Prop :=
    length (bt_lhs st) = 32%nat /\ length (bt_carries st) = 33%nat /\
    (forall j, 0 <= j < idx -> nth (Z.to_nat j) (bt_lhs st) 0 = Z.b2z (Lb p j)) /\
    nth (Z.to_nat idx) (bt_carries st) 0 = carry p VERIFY_KEY idx.

  Definition bt_frame (idx : Z) (st st' : bt) : Prop :=
    length (bt_lhs st') = length (bt_lhs st) /\ length (bt_carries st') = length (bt_carries st) /\
    (forall j, 0 <= j < idx -> nth (Z.to_nat j) (bt_lhs st') 0 = nth (Z.to_nat j) (bt_lhs st) 0) /\
    (forall j, 0 <= j <= idx -> nth (Z.to_nat j) (bt_carries st') 0 = nth (Z.to_nat j) (bt_carries st) 0).

  Lemma bt_frame_refl idx st : bt_frame idx st st.
  Proof. repeat split; auto. Qed.
  Lemma bt_frame_trans idx a b c : bt_frame idx a b -> bt_frame idx b c -> bt_frame idx a c.
  Proof.
    intros (A1 & A2 & A3 & A4) (B1 & B2 & B3 & B4). repeat split; try congruence.
    - intros j Hj. rewrite B3, A3 by lia. reflexivity.
    - intros j Hj. rewrite B4, A4 by lia. reflexivity.
  Qed.
  Lemma bt_inv_frame idx p st st' : 0 <= idx -> bt_frame idx st st' -> bt_inv idx p st -> bt_inv idx p st'.
  Proof.
    intros Hi (A1 & A2 & A3 & A4) (B1 & B2 & B3 & B4). repeat split; try congruence.
    - intros j Hj. rewrite A3, B3 by lia. reflexivity.
    - rewrite A4 by lia. exact B4.
  Qed.

  Definition good_from (idx : Z) (v : Z) : Prop :=
    (forall i, idx <= i < 32 -> bt_ok v i) /\
    (forall i, idx <= i < 32 -> i < low_len -> Z.testbit v i = Z.testbit low i).

  Definition rec_spec (idx : Z) (rec : Z -> bt -> bt) : Prop :=
    forall p st, 0 <= p < 2 ^ idx -> bt_inv idx p st ->
      bt_frame idx st (rec p st) /\
      exists new, bt_results (rec p st) = bt_results st ++ new /\
        forall v, In v new <-> u32 v /\ v mod 2 ^ idx = p /\ good_from idx v /\ validator h1 h2 v = true.

  Lemma ext_bits p (vb : bool) idx : 0 <= idx -> 0 <= p < 2 ^ idx ->
    let p' := p + Z.b2z vb * 2 ^ idx in
    0 <= p' < 2 ^ (idx + 1) /\ p' mod 2 ^ idx = p /\ Z.testbit p' idx = vb.
  Proof.
    intros Hi Hp p'. subst p'. rewrite Z.pow_add_r by lia. change (2 ^ 1) with 2.
    pose proof (pow2_pos idx Hi). split; [destruct vb; cbn [Z.b2z]; lia|]. split.
    - rewrite Z.mod_add by lia. apply Z.mod_small. lia.
    - apply Z.b2z_inj. rewrite Z.testbit_spec' by lia. rewrite Z.div_add by lia.
      rewrite Z.div_small by lia. destruct vb; reflexivity.
  Qed.

  Lemma mod_pow_lt v p i j : 0 <= j <= i -> v mod 2 ^ i = p mod 2 ^ i -> v mod 2 ^ j = p mod 2 ^ j.
  Proof.
    intros H E. pose proof (wrap_wrap_le j i v H) as A. pose proof (wrap_wrap_le j i p H) as B.
    unfold wrap in *. rewrite <- A, <- B, E. reflexivity.
  Qed.

  Lemma Lb_ext v p i j : 0 <= j < i -> v mod 2 ^ i = p mod 2 ^ i -> Lb v j = Lb p j.
  Proof.
    intros H E. unfold Lb. f_equal. apply (testbit_add_mod p VERIFY_KEY i v j); assumption.
  Qed.

  Lemma wrap_mod32 x : wrap 32 x mod 32 = x mod 32.
  Proof. exact (wrap_wrap_le 5 32 x ltac:(lia)). Qed.
  Lemma wrap_idx i : Z.land (wrap 32 (wrap 32 (i - s) + 32)) 31 = prev i.
  Proof.
    rewrite land_31. rewrite wrap_add_l by lia. rewrite wrap_mod32. unfold prev.
    replace (i - s + 32) with (i - s + 1 * 32) by lia. apply Z.mod_add. lia.
  Qed.
  Lemma wrap_idx2 i : Z.land (wrap 32 (i + s)) 31 = fut i.
  Proof. rewrite land_31. apply wrap_mod32. Qed.

  Lemma step_ok idx rec p st vb : 0 <= idx < 32 -> rec_spec (idx + 1) rec ->
    0 <= p < 2 ^ idx -> bt_inv idx p st ->
    (idx < low_len -> vb = Z.testbit low idx) ->
    let st' := bt_step rec h1 s low_len low target idx p st (Z.b2z vb) in
    bt_frame idx st st' /\
    exists new, bt_results st' = bt_results st ++ new /\
      forall v, In v new <-> u32 v /\ v mod 2 ^ idx = p /\ Z.testbit v idx = vb /\
                             good_from idx v /\ validator h1 h2 v = true.
  Proof.
    intros Hi Hrec Hp Hinv Hlow st'. subst st'.
    pose proof Hinv as (I1 & I2 & I3 & I4).
    pose proof (ext_bits p vb idx ltac:(lia) Hp) as (E1 & E2 & E3).
    remember (p + Z.b2z vb * 2 ^ idx) as p' eqn:Ep.
    assert (Hcarry : carry p' VERIFY_KEY idx = carry p VERIFY_KEY idx).
    { unfold carry. rewrite E2, (Z.mod_small p) by lia. reflexivity. }
    assert (Hprev : 0 <= prev idx < 32) by (apply Z.mod_pos_bound; lia).
    assert (Hfut : 0 <= fut idx < 32) by (apply Z.mod_pos_bound; lia).
    unfold bt_step. change 0x1f with 31. rewrite wrap_idx, wrap_idx2, !bit_b2z by lia.
    rewrite lxor_b2z, I4.
    assert (Hsum : Z.b2z vb + Z.b2z (Z.testbit VERIFY_KEY idx) + carry p VERIFY_KEY idx = colsum p' VERIFY_KEY idx).
    { unfold colsum. rewrite E3, Hcarry. reflexivity. }
    rewrite Hsum.
    assert (Hcur : Z.land (Z.lxor (colsum p' VERIFY_KEY idx) (Z.shiftr h1 idx)) 1 = Z.b2z (Lb p' idx)).
    { replace (Z.lxor (colsum p' VERIFY_KEY idx) (Z.shiftr h1 idx))
        with (Z.shiftr (Z.lxor (colsum p' VERIFY_KEY idx) (Z.shiftr h1 idx)) 0) by (apply Z.shiftr_0_r).
      rewrite bit_b2z by lia. rewrite Z.lxor_spec, Z.shiftr_spec by lia. f_equal.
      unfold Lb. rewrite xorb_comm. f_equal.
      apply Z.b2z_inj. rewrite sum_bit by lia. rewrite Z.testbit_spec' by lia.
      change (2 ^ 0) with 1. rewrite Z.div_1_r. reflexivity. }
    rewrite Hcur, !lxor_b2z, !b2z_eqb.
    (* facts about a final v extending p' *)
    assert (Hext : forall v, v mod 2 ^ idx = p -> Z.testbit v idx = vb -> v mod 2 ^ (idx + 1) = p').
    { intros v A B. rewrite mod_succ by lia. rewrite A, B. lia. }
    assert (HLb : forall v j, v mod 2 ^ (idx + 1) = p' -> 0 <= j <= idx -> Lb v j = Lb p' j).
    { intros v j A Hj. apply (Lb_ext v p' (idx + 1)); [lia|]. rewrite A. symmetry. apply Z.mod_small; lia. }
    assert (HLp : forall j, 0 <= j < idx -> Lb p' j = Lb p j).
    { intros j Hj. apply (Lb_ext p' p idx); [lia|]. rewrite E2. symmetry. apply Z.mod_small; lia. }
    assert (Hpb : forall v j, v mod 2 ^ idx = p -> 0 <= j < idx -> Z.testbit p j = Z.testbit v j).
    { intros v j A Hj. apply (bits_of_mod v idx); [lia|congruence]. }
    assert (Hphi : forall j, idx <= j -> Z.testbit p j = false).
    { intros j Hj. rewrite <- (Z.mod_small p (2 ^ idx)) by lia. apply Z.mod_pow2_bits_high. lia. }
    (* the decision equals bt_ok for every extension *)
    set (r1 := (prev idx <? idx) && negb (_ =? _)).
    set (r2 := if fut idx <=? idx then _ else _).
    assert (Hdec : forall v, v mod 2 ^ idx = p -> Z.testbit v idx = vb ->
              (bt_ok v idx <-> r1 = false /\ r2 = false)).
    { intros v A B. pose proof (Hext v A B) as C.
      unfold bt_ok, r1, r2.
      assert (L1 : prev idx < idx -> nth (Z.to_nat (prev idx)) (bt_lhs st) 0 = Z.b2z (Lb v (prev idx))).
      { intro. rewrite I3 by lia. rewrite (HLb v) by (auto; lia). rewrite HLp by lia. reflexivity. }
      assert (L2 : (prev idx <? idx) && negb (Z.b2z (xorb vb (Z.testbit target idx)) =?
                     nth (Z.to_nat (prev idx)) (bt_lhs st) 0) =
                   (prev idx <? idx) && negb (Bool.eqb (xorb vb (Z.testbit target idx)) (Lb v (prev idx)))).
      { destruct (Z.ltb_spec (prev idx) idx) as [P|P]; [|reflexivity]. rewrite (L1 P), b2z_eqb. reflexivity. }
      rewrite L2. rewrite (HLb v idx C) by (split; [apply Hi|apply Z.le_refl]). rewrite B.
      assert (Q1 : fut idx < idx -> Z.testbit p (fut idx) = Z.testbit v (fut idx)).
      { intro. apply Hpb; [exact A|]. split; [apply Hfut|assumption]. }
      assert (Q2 : fut idx = idx -> Z.testbit p (fut idx) = false).
      { intro Fe. apply Hphi. rewrite Fe. apply Z.le_refl. }
      apply bt_dec; [exact Q1|exact Q2|]. intros ->. reflexivity. }
    clearbody r1 r2.
    assert (Hsplit : forall v, v mod 2 ^ (idx + 1) = p' <-> v mod 2 ^ idx = p /\ Z.testbit v idx = vb).
    { intro v. split; [|intros []; apply Hext; assumption]. intro A. split.
      - rewrite (mod_pow_lt v p' (idx + 1) idx ltac:(lia)); [exact E2|]. rewrite A. symmetry. apply Z.mod_small; lia.
      - rewrite <- E3, <- A. symmetry. apply Z.mod_pow2_bits_low. lia. }
    assert (Hgood : forall v, v mod 2 ^ idx = p -> Z.testbit v idx = vb ->
              (good_from idx v <-> bt_ok v idx /\ good_from (idx + 1) v)).
    { intros v A B. unfold good_from. split.
      - intros [X Y]. split; [apply X; lia|]. split; intros; [apply X|apply Y]; lia.
      - intros [X [Y W]]. split; intros i Hi'.
        + destruct (Z.eq_dec i idx) as [->|]; [assumption|]. apply Y; lia.
        + intro. destruct (Z.eq_dec i idx) as [->|]; [rewrite B; apply Hlow; assumption|]. apply W; lia. }
    assert (Hno : r1 = true \/ r2 = true -> bt_frame idx st st /\
      exists new, bt_results st = bt_results st ++ new /\
        forall v, In v new <-> u32 v /\ v mod 2 ^ idx = p /\ Z.testbit v idx = vb /\
                               good_from idx v /\ validator h1 h2 v = true).
    { intro Hr. split; [apply bt_frame_refl|]. exists []. split; [symmetry; apply app_nil_r|].
      intro v. split; [intros []|]. intros (_ & A & B & C & _). apply Hgood in C as [C _]; auto.
      apply Hdec in C as [C1 C2]; auto. destruct Hr; congruence. }
    destruct r1; [apply Hno; auto|]. destruct r2; [apply Hno; auto|]. clear Hno.
    (* the new state satisfies the invariant for p' *)
    assert (Hv' : Z.lor p (wrap 32 (Z.shiftl (Z.b2z vb) idx)) = p').
    { rewrite Ep. rewrite Z.shiftl_mul_pow2 by lia.
      assert (Z.b2z vb * 2 ^ idx < 2 ^ 32).
      { apply Z.le_lt_trans with (2 ^ idx); [destruct vb; cbn [Z.b2z]; lia|]. apply Z.pow_lt_mono_r; lia. }
      rewrite wrap_small by (destruct vb; cbn [Z.b2z] in *; lia).
      enough (Hl0 : Z.land p (Z.b2z vb * 2 ^ idx) = 0)
        by (rewrite <- Z.lxor_lor, <- Z.add_nocarry_lxor by exact Hl0; reflexivity).
      apply Z.bits_inj'. intros j Hj. rewrite Z.land_spec, Z.bits_0.
      destruct (Z.ltb_spec j idx).
      - rewrite Z.mul_pow2_bits by lia. rewrite (Z.testbit_neg_r _ (j - idx)) by lia. apply andb_false_r.
      - rewrite Hphi by lia. reflexivity. }
    rewrite Hv'.
    set (st1 := mkBt _ _ _).
    assert (Hinv1 : bt_inv (idx + 1) p' st1).
    { subst st1. clear Hdec Hgood Hsplit Hext HLb Hpb Hphi Hcur Hsum Hrec Hlow Hv'. unfold bt_inv. cbn [bt_lhs bt_carries].
      rewrite !set_nth_length by lia. split; [assumption|]. split; [assumption|]. split.
      - intros j Hj. destruct (Z.eq_dec j idx) as [->|].
        + apply set_nth_same. lia.
        + rewrite set_nth_other by lia. rewrite I3 by lia. rewrite HLp by lia. reflexivity.
      - replace (Z.to_nat (idx + 1)) with (S (Z.to_nat idx)) by lia.
        rewrite set_nth_same by lia. rewrite carry_succ by lia.
        rewrite Z.shiftr_div_pow2 by lia. reflexivity. }
    destruct (Hrec p' st1 E1 Hinv1) as (F & new & Hnew & Hin).
    split.
    - clear Hdec Hgood Hsplit Hext HLb Hpb Hphi Hcur Hsum Hrec Hlow Hv' Hinv1 Hin. destruct F as (F1 & F2 & F3 & F4). subst st1. cbn [bt_lhs bt_carries] in *.
      rewrite set_nth_length in F1, F2 by lia. split; [assumption|]. split; [assumption|]. split.
      + intros j Hj. rewrite F3 by lia. apply set_nth_other; lia.
      + intros j Hj. rewrite F4 by lia. apply set_nth_other; lia.
    - exists new. split; [exact Hnew|]. intro v. rewrite Hin. rewrite Hsplit. split.
      + intros (A & (B & C) & D & E). split; [exact A|]. split; [exact B|]. split; [exact C|]. split; [|exact E].
        apply (proj2 (Hgood v B C)). split; [apply (proj2 (Hdec v B C)); auto|exact D].
      + intros (A & B & C & D & E). split; [exact A|]. split; [auto|]. split; [|exact E].
        apply Hgood in D as [_ D]; auto.
  Qed.

  Lemma backtrack_spec n : (n <= 32)%nat ->
    rec_spec (32 - Z.of_nat n) (backtrack validator h1 h2 s low_len low target n).
  Proof.
    induction n as [|n IH]; intros Hn p st Hp Hinv.
    - cbn [backtrack]. change (32 - Z.of_nat 0) with 32 in *.
      split.
      { destruct (validator h1 h2 p); [|apply bt_frame_refl]. repeat split; auto. }
      exists (if validator h1 h2 p then [p] else []). split.
      { destruct (validator h1 h2 p); [reflexivity|symmetry; apply app_nil_r]. }
      intro v. split.
      + destruct (validator h1 h2 p) eqn:E; [|intros []]. intros [<-|[]].
        split; [exact Hp|]. split; [apply Z.mod_small; exact Hp|]. split; [|exact E].
        split; intros; lia.
      + intros (A & B & _ & C). rewrite Z.mod_small in B by exact A. subst. rewrite C. left. reflexivity.
    - cbn [backtrack]. set (idx := 32 - Z.of_nat (S n)) in *.
      assert (Hi : 0 <= idx < 32) by lia.
      assert (Hrec : rec_spec (idx + 1) (backtrack validator h1 h2 s low_len low target n)).
      { replace (idx + 1) with (32 - Z.of_nat n) by lia. apply IH. lia. }
      destruct (Z.ltb_spec idx low_len) as [L|L].
      + rewrite bit_b2z by lia. cbn [fold_left].
        destruct (step_ok idx _ p st (Z.testbit low idx) Hi Hrec Hp Hinv ltac:(auto)) as (F & new & E & Hin).
        split; [exact F|]. exists new. split; [exact E|]. intro v. rewrite Hin.
        split; [tauto|]. intros (A & B & C & D). split; [exact A|]. split; [exact B|]. split; [apply C; lia|]. tauto.
      + change [0; 1] with [Z.b2z false; Z.b2z true]. cbn [fold_left].
        destruct (step_ok idx _ p st false Hi Hrec Hp Hinv ltac:(lia)) as (F & new & E & Hin).
        set (st1 := bt_step _ _ _ _ _ _ _ _ st (Z.b2z false)) in *.
        assert (Hinv1 : bt_inv idx p st1) by (eapply bt_inv_frame; eauto; lia).
        destruct (step_ok idx _ p st1 true Hi Hrec Hp Hinv1 ltac:(lia)) as (F1 & new1 & E1 & Hin1).
        split; [eapply bt_frame_trans; eauto|]. exists (new ++ new1).
        split; [rewrite E1, E, app_assoc; reflexivity|].
        intro v. rewrite in_app_iff, Hin, Hin1. split; [tauto|].
        intros (A & B & C & D). destruct (Z.testbit v idx) eqn:T; [right|left]; tauto.
  Qed.

  Lemma backtrack_run results :
    exists new, bt_results (backtrack validator h1 h2 s low_len low target 32 0
                             (mkBt (repeat 0 33) (repeat 0 32) results)) = results ++ new /\
      forall v, In v new <-> u32 v /\ good_from 0 v /\ validator h1 h2 v = true.
  Proof.
    destruct (backtrack_spec 32 ltac:(lia) 0 (mkBt (repeat 0 33) (repeat 0 32) results)) as (_ & new & E & Hin).
    - change (32 - Z.of_nat 32) with 0. lia.
    - split; [reflexivity|]. split; [reflexivity|]. split.
      + change (32 - Z.of_nat 32) with 0. intros; lia.
      + reflexivity.
    - exists new. split; [exact E|]. intro v. rewrite Hin.
      change (32 - Z.of_nat 32) with 0. change (2 ^ 0) with 1. rewrite Z.mod_1_r. tauto.
  Qed.

  (** When the validator implies the rotation equation bit by bit, the checks
      only cost solutions when the rotation is a multiple of 32. *)
  Lemma good_iff v :
    (forall i, 0 <= i < low_len -> i < 32 -> Z.testbit v i = Z.testbit low i) -> low_len <= 32 ->
    u32 v ->
    (forall i, 0 <= i < 32 -> Lb v ((i - s) mod 32) = xorb (Z.testbit v i) (Z.testbit target i)) ->
    (good_from 0 v <-> (s mod 32 <> 0 \/ v = 0)).
  Proof.
    intros Hlow Hll Hv Heq. unfold good_from. split.
    - intros [G _]. destruct (Z.eq_dec (s mod 32) 0) as [Z0|Z0]; [right|left; exact Z0].
      apply u32_ext; [assumption|unfold u32; lia|]. intros i Hi. rewrite Z.bits_0.
      destruct (G i Hi) as (_ & _ & _ & X).
      assert (Hf : fut i = i) by (unfold fut; dlia). specialize (X Hf).
      specialize (Heq i Hi). replace ((i - s) mod 32) with i in Heq by dlia.
      rewrite Heq in X. destruct (Z.testbit v i), (Z.testbit target i); cbn in X; congruence.
    - intros Hc. split; [|intros; apply Hlow; lia].
      intros i Hi. unfold bt_ok.
      assert (Hf : 0 <= fut i < 32) by (apply Z.mod_pos_bound; lia).
      assert (Hback : Lb v i = xorb (Z.testbit v (fut i)) (Z.testbit target (fut i))).
      { rewrite <- Heq by assumption. f_equal. unfold fut. rewrite Zminus_mod_idemp_l.
        replace (i + s - s) with i by lia. symmetry. apply Z.mod_small. lia. }
      split; [intros _; symmetry; apply Heq; assumption|].
      split; [auto|]. split.
      + intros _ Hlt. rewrite Hback, Hlow by lia. reflexivity.
      + intros Hfi. rewrite Hback, Hfi. destruct Hc as [Hc| ->]; [unfold fut in Hfi; dlia|].
        rewrite Z.bits_0. apply xorb_false_l.
  Qed.
End Backtrack.

Lemma rot_eqn_bits h1 v r k t : u32 h1 -> u32 v ->
  r = rotl32 (Z.lxor h1 (wrap 32 (v + VERIFY_KEY))) k -> Z.lxor r v = t ->
  forall i, 0 <= i < 32 -> Lb h1 v ((i - k) mod 32) = xorb (Z.testbit v i) (Z.testbit t i).
Proof.
  intros H1 Hv Hr Ht i Hi. subst t. rewrite Z.lxor_spec. subst r.
  rewrite rotl32_bit by (auto; apply base_u32; assumption).
  assert (Hm : 0 <= (i - k) mod 32 < 32) by (apply Z.mod_pos_bound; lia).
  unfold Lb. rewrite Z.lxor_spec, testbit_wrap by lia.
  replace ((i - k) mod 32 <? 32) with true by lia. cbn [andb].
  destruct (xorb _ _), (Z.testbit v i); reflexivity.
Qed.

Lemma low_bits_mod v n i : 0 <= n -> 0 <= i < n -> Z.testbit (v mod 2 ^ n) i = Z.testbit v i.
Proof. intros. apply Z.mod_pow2_bits_low. lia. Qed.

Lemma low_bits_inj v c n : 0 <= n -> 0 <= c < 2 ^ n ->
  (forall i, 0 <= i < n -> Z.testbit v i = Z.testbit c i) -> v mod 2 ^ n = c.
Proof.
  intros Hn Hc H. rewrite <- (Z.mod_small c (2 ^ n)) by assumption.
  apply Z.bits_inj'. intros i Hi. destruct (Z.ltb_spec i n).
  - rewrite !Z.mod_pow2_bits_low by lia. apply H. lia.
  - rewrite !Z.mod_pow2_bits_high by lia. reflexivity.
Qed.

(** All runs together. *)
Lemma bt_runs_In validator h1 h2 low_len target s_of cands :
  (forall c, In c cands -> 0 <= s_of (Z.of_nat c) < 2 ^ 31) ->
  forall v, In v (bt_runs validator h1 h2 low_len target s_of cands) <->
    exists c, In c cands /\ u32 v /\
      good_from h1 (s_of (Z.of_nat c)) low_len (Z.of_nat c) target 0 v /\ validator h1 h2 v = true.
Proof.
  intros Hs. unfold bt_runs.
  assert (G : forall cs acc, (forall c, In c cs -> In c cands) ->
    forall v, In v (fold_left (fun results c =>
      bt_results (backtrack validator h1 h2 (s_of (Z.of_nat c)) low_len (Z.of_nat c) target
                          32 0 (mkBt (repeat 0 33) (repeat 0 32) results))) cs acc) <->
     In v acc \/ exists c, In c cs /\ u32 v /\
      good_from h1 (s_of (Z.of_nat c)) low_len (Z.of_nat c) target 0 v /\ validator h1 h2 v = true).
  { induction cs as [|c cs IH]; intros acc Hsub v; cbn [fold_left].
    - split; [auto|]. intros [H|(c & [] & _)]. exact H.
    - rewrite IH by (intros; apply Hsub; right; assumption).
      destruct (backtrack_run validator h1 h2 (s_of (Z.of_nat c)) low_len (Z.of_nat c) target
                  (Hs c ltac:(apply Hsub; left; reflexivity)) acc) as (new & E & Hin).
      rewrite E, in_app_iff, Hin. split.
      + intros [[A|A]|(c' & B & C)]; [auto| |].
        * right. exists c. split; [left; reflexivity|]. tauto.
        * right. exists c'. split; [right; exact B|exact C].
      + intros [A|(c' & [<-|B] & C)]; [auto| |].
        * left. right. tauto.
        * right. exists c'. tauto. }
  intro v. rewrite (G cands [] ltac:(auto)). split; [intros [[]|H]; exact H|auto].
Qed.

Theorem calc_v2_exact h1 h2 v : u32 h1 -> u32 h2 ->
  In v (calc_v2 h1 h2) <-> u32 v /\ verify_v2 h1 h2 v = true /\ (v mod 32 <> 0 \/ v = 0).
Proof.
  intros H1 H2. unfold calc_v2. rewrite bt_runs_In.
  2:{ intros c Hc. apply in_seq in Hc. change (2 ^ 31) with 2147483648. lia. }
  assert (Hbits : forall c, u32 v -> verify_v2 h1 h2 v = true -> v mod 32 = c ->
            forall i, 0 <= i < 32 -> Lb h1 v ((i - c) mod 32) = xorb (Z.testbit v i) (Z.testbit h2 i)).
  { intros c Hv E Hc. unfold verify_v2 in E. apply Z.eqb_eq in E. rewrite land_31, Hc in E.
    eapply rot_eqn_bits; eauto. }
  split.
  - intros (c & Hc & Hv & G & E). apply in_seq in Hc. split; [exact Hv|]. split; [exact E|].
    assert (Hm : v mod 32 = Z.of_nat c).
    { change 32 with (2 ^ 5). apply low_bits_inj; [lia|change (2 ^ 5) with 32; lia|].
      intros i Hi. apply G; lia. }
    rewrite Hm.
    apply (good_iff verify_v2 h1 (Z.of_nat c) 5 (Z.of_nat c) h2) in G; auto; try lia.
    intros i Hi _. rewrite <- Hm. change 32 with (2 ^ 5). symmetry. apply low_bits_mod; lia.
  - intros (Hv & E & Hc).
    pose proof (Z.mod_pos_bound v 32 ltac:(lia)) as Hr.
    exists (Z.to_nat (v mod 32)). split; [apply in_seq; lia|]. split; [exact Hv|]. split; [|exact E].
    rewrite Z2Nat.id by lia.
    apply (good_iff verify_v2 h1 (v mod 32) 5 (v mod 32) h2); auto; try lia.
    intros i Hi _. change 32 with (2 ^ 5). symmetry. apply low_bits_mod; lia.
Qed.

Theorem calc_v3_exact h1 h2 v : u32 h1 -> u32 h2 ->
  In v (calc_v3 h1 h2) <->
  u32 v /\ verify_v3 h1 h2 v = true /\ (v mod 16 + h1 mod 16 <> 0 \/ v = 0).
Proof.
  intros H1 H2. unfold calc_v3. rewrite bt_runs_In.
  2:{ intros c Hc. apply in_seq in Hc. rewrite land_15.
      change (2 ^ 31) with 2147483648. rewrite wrap_small; change (2 ^ 32) with 4294967296; lia. }
  assert (Hw : forall c : nat, (c < 16)%nat -> wrap 32 (Z.of_nat c + Z.land h1 0xf) = Z.of_nat c + h1 mod 16).
  { intros. rewrite land_15. apply wrap_small. change (2 ^ 32) with 4294967296. lia. }
  assert (Hbits : forall c, u32 v -> verify_v3 h1 h2 v = true -> v mod 16 = c ->
            forall i, 0 <= i < 32 -> Lb h1 v ((i - (c + h1 mod 16)) mod 32) =
                       xorb (Z.testbit v i) (Z.testbit (Z.lxor (not32 h2) h1) i)).
  { intros c Hv E Hc. unfold verify_v3 in E. apply Z.eqb_eq in E.
    rewrite !land_15, wrap_add16, Hc in E.
    eapply (rot_eqn_bits h1 v _ (c + h1 mod 16)); eauto.
    set (r := rotl32 _ _) in *. rewrite <- E. unfold not32.
    replace (2 ^ 32 - 1 - (2 ^ 32 - 1 - Z.lxor (Z.lxor r v) h1)) with (Z.lxor (Z.lxor r v) h1) by lia.
    symmetry. apply lxor_cancel_r. }
  split.
  - intros (c & Hc & Hv & G & E). apply in_seq in Hc. split; [exact Hv|]. split; [exact E|].
    rewrite Hw in G by lia.
    assert (Hm : v mod 16 = Z.of_nat c).
    { change 16 with (2 ^ 4). apply low_bits_inj; [lia|change (2 ^ 4) with 16; lia|].
      intros i Hi. apply G; lia. }
    rewrite Hm.
    apply (good_iff verify_v3 h1 (Z.of_nat c + h1 mod 16) 4 (Z.of_nat c) (Z.lxor (not32 h2) h1)) in G; auto; try lia.
    intros i Hi _. rewrite <- Hm. change 16 with (2 ^ 4). symmetry. apply low_bits_mod; lia.
  - intros (Hv & E & Hc).
    pose proof (Z.mod_pos_bound v 16 ltac:(lia)) as Hr.
    exists (Z.to_nat (v mod 16)). split; [apply in_seq; lia|]. split; [exact Hv|]. split; [|exact E].
    rewrite Hw by lia. rewrite Z2Nat.id by lia.
    apply (good_iff verify_v3 h1 (v mod 16 + h1 mod 16) 4 (v mod 16) (Z.lxor (not32 h2) h1)); auto; try lia.
    intros i Hi _. change 16 with (2 ^ 4). symmetry. apply low_bits_mod; lia.
Qed.
