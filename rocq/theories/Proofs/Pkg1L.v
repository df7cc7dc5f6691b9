(** Classic version hash, scan and offsets. *)
From Coq Require Import ZArith List Bool Lia ZifyBool ZifyNat Sorted.
From Verif.Model Require Import Base Keys Header Offset VersionPkg1 VersionPkg2.
From Verif.Spec Require Import Version.
From Verif.Proofs Require Import BaseL VersionL.
Ltac Zify.zify_post_hook ::= Z.div_mod_to_equations.

(** *** decimal digits *)
Lemma horner_snoc ds : forall a d, horner a (ds ++ [d]) = horner a ds * 10 + d.
Proof. induction ds; intros; cbn [horner app]; auto. Qed.

Lemma horner_lower ds : forall a, 0 <= a -> Forall (fun d => 0 <= d < 10) ds ->
  a * 10 ^ zlen ds <= horner a ds.
Proof.
  induction ds as [|d ds IH]; intros a Ha H; cbn [horner].
  - rewrite zlen_nil. change (10 ^ 0) with 1. lia.
  - inversion_clear H. specialize (IH (a * 10 + d) ltac:(lia) H1).
    rewrite zlen_cons. rewrite Z.pow_add_r by (try apply zlen_nonneg; lia). change (10 ^ 1) with 10.
    pose proof (Z.pow_pos_nonneg 10 (zlen ds) ltac:(lia) (zlen_nonneg ds)). nia.
Qed.

Lemma digits_go_decimal ds : forall fuel acc,
  ds <> [] -> Forall (fun d => 0 <= d < 10) ds -> (hd 0 ds = 0 -> ds = [0]) ->
  (length ds <= fuel)%nat ->
  digits_go fuel (horner 0 ds) acc = map (Z.add 48) ds ++ acc.
Proof.
  induction ds as [|d ds IH] using rev_ind; intros fuel acc Hne Hd Hh Hl; [congruence|].
  rewrite app_length in Hl. cbn [length] in Hl. destruct fuel as [|fuel]; [lia|].
  apply Forall_app in Hd as [Hd Hd1]. inversion_clear Hd1.
  cbn [digits_go]. rewrite horner_snoc.
  replace ((horner 0 ds * 10 + d) mod 10) with d by lia.
  replace ((horner 0 ds * 10 + d) / 10) with (horner 0 ds) by lia.
  rewrite map_app, <- app_assoc. cbn [map app].
  destruct ds as [|c ds'].
  - reflexivity.
  - assert (Hc : c <> 0).
    { intro E. subst c. specialize (Hh eq_refl). destruct ds'; discriminate. }
    assert (0 < horner 0 (c :: ds')).
    { cbn [horner]. inversion_clear Hd. pose proof (horner_lower ds' (0 * 10 + c) ltac:(lia) H2).
      pose proof (Z.pow_pos_nonneg 10 (zlen ds') ltac:(lia) (zlen_nonneg ds')). nia. }
    replace (horner 0 (c :: ds') =? 0) with false by lia.
    apply IH; [discriminate|assumption| |lia].
    intro E. cbn [hd] in E. congruence.
Qed.

Lemma decimal_length v ds k : decimal v ds -> v < 10 ^ Z.of_nat k -> (1 <= k)%nat -> (length ds <= k)%nat.
Proof.
  intros (Hne & Hd & Hv & Hh) Hk H1. destruct ds as [|c ds]; [congruence|].
  destruct (Z.eq_dec c 0) as [->|Hc].
  - specialize (Hh eq_refl). injection Hh as ->. cbn. lia.
  - inversion_clear Hd. cbn [horner] in Hv. pose proof (horner_lower ds (0 * 10 + c) ltac:(lia) H0).
    destruct (le_lt_dec (length (c :: ds)) k) as [|G]; [assumption|exfalso]. cbn [length] in G.
    pose proof (Z.pow_le_mono_r 10 (Z.of_nat k) (zlen ds) ltac:(lia) ltac:(unfold zlen; lia)). nia.
Qed.

Lemma to_string_decimal v ds : decimal v ds -> v < 2 ^ 31 -> to_string v = map (Z.add 48) ds.
Proof.
  intros D Hv. pose proof D as (Hne & Hd & E & Hh). unfold to_string.
  assert (0 <= v).
  { pose proof (horner_lower ds 0 ltac:(lia) Hd). lia. }
  replace (v <? 0) with false by lia. rewrite <- E, digits_go_decimal; auto.
  - apply app_nil_r.
  - eapply decimal_length; [exact D| |lia]. change (10 ^ Z.of_nat 10) with 10000000000.
    change (2 ^ 31) with 2147483648 in Hv. lia.
Qed.

Lemma hash_fold ds : forall a b, a = wrap 32 b ->
  fold_left (fun h c => wrap 32 (wrap 32 (wrap 32 (h * 32) + c) + 1)) (map (Z.add 48) ds) a
  = wrap 32 (digit_hash b ds).
Proof.
  induction ds as [|d ds IH]; intros a b E; cbn [map fold_left digit_hash]; [assumption|].
  apply IH. subst a. rewrite wrap_add_l by lia. rewrite <- Z.add_assoc, wrap_add_l by lia.
  unfold wrap. rewrite Z.add_mod, Z.mul_mod_idemp_l, <- Z.add_mod by (change (2 ^ 32) with 4294967296; lia).
  f_equal. lia.
Qed.

Lemma version_hash_decimal v ds : decimal v ds -> v < 2 ^ 31 ->
  version_hash v = digit_hash 0 ds mod 2 ^ 32.
Proof.
  intros D Hv. unfold version_hash. rewrite (to_string_decimal v ds D Hv). apply (hash_fold ds 0 0). reflexivity.
Qed.

Lemma digit_hash_bounds ds : forall a, 0 <= a -> Forall (fun d => 0 <= d < 10) ds ->
  a <= digit_hash a ds /\ 31 * digit_hash a ds + 58 <= (31 * a + 58) * 32 ^ zlen ds.
Proof.
  induction ds as [|d ds IH]; intros a Ha H; cbn [digit_hash].
  - rewrite zlen_nil. change (32 ^ 0) with 1. lia.
  - inversion_clear H. specialize (IH (32 * a + (48 + d) + 1) ltac:(lia) H1).
    rewrite zlen_cons, Z.pow_add_r by (try apply zlen_nonneg; lia). change (32 ^ 1) with 32.
    pose proof (Z.pow_pos_nonneg 32 (zlen ds) ltac:(lia) (zlen_nonneg ds)). split; [lia|]. nia.
Qed.

Lemma digit_hash_range v ds : decimal v ds -> v < 1000000 -> 0 < digit_hash 0 ds < 2 ^ 32.
Proof.
  intros D Hv. pose proof (decimal_length v ds 6 D Hv ltac:(lia)) as Hl.
  destruct D as (Hne & Hd & _ & _). destruct ds as [|d ds]; [congruence|].
  pose proof (digit_hash_bounds (d :: ds) 0 ltac:(lia) Hd) as [_ B]. cbn [digit_hash] in *.
  inversion_clear Hd. pose proof (digit_hash_bounds ds (32 * 0 + (48 + d) + 1) ltac:(lia) H0) as [A _].
  assert (32 ^ zlen (d :: ds) <= 32 ^ 6) by (apply Z.pow_le_mono_r; unfold zlen; lia).
  change (32 ^ 6) with 1073741824 in H1. change (2 ^ 32) with 4294967296. lia.
Qed.

Lemma version_hash_exact v ds : decimal v ds -> v < 1000000 -> version_hash v = digit_hash 0 ds.
Proof.
  intros D Hv. rewrite (version_hash_decimal v ds D) by (change (2 ^ 31) with 2147483648; lia).
  apply Z.mod_small. pose proof (digit_hash_range v ds D Hv). lia.
Qed.

(** every non-negative number has a decimal representation *)
Lemma decimal_exists v : 0 <= v -> exists ds, decimal v ds.
Proof.
  intro Hv. assert (G : forall n : nat, forall v, 0 <= v < Z.of_nat n -> exists ds, decimal v ds).
  { induction n; intros w Hw; [lia|]. destruct (Z.ltb_spec w 10).
    - exists [w]. repeat split; try discriminate; [repeat constructor; lia|]. cbn. congruence.
    - destruct (IHn (w / 10) ltac:(lia)) as (ds & Hne & Hd & E & Hh).
      exists (ds ++ [w mod 10]). split; [destruct ds; discriminate|].
      split; [apply Forall_app; split; [assumption|repeat constructor; lia]|].
      split; [rewrite horner_snoc, E; lia|].
      destruct ds as [|c ds]; [congruence|]. cbn [app hd]. cbn [hd] in Hh. intro X.
      specialize (Hh X). injection Hh as -> ->. cbn [horner] in E. lia. }
  apply (G (Z.to_nat (v + 1))). lia.
Qed.

Lemma check_enc h : 
  Z.lxor (Z.lxor (Z.lxor (Z.lxor 0xff
        (Z.land (Z.shiftr h 24) 0xff)) (Z.land (Z.shiftr h 16) 0xff))
        (Z.land (Z.shiftr h 8) 0xff)) (Z.land h 0xff) = folded h.
Proof.
  unfold folded. rewrite !land_255, !Z.shiftr_div_pow2 by lia.
  change (2 ^ 24) with 16777216. change (2 ^ 16) with 65536. change (2 ^ 8) with 256.
  generalize (h mod 256), (h / 256 mod 256), (h / 65536 mod 256), (h / 16777216 mod 256). intros a b c d.
  apply Z.bits_inj'. intros i _. rewrite !Z.lxor_spec.
  destruct (Z.testbit 255 i), (Z.testbit a i), (Z.testbit b i), (Z.testbit c i), (Z.testbit d i); reflexivity.
Qed.

Lemma check_version_spec e v h : version_hash v = h -> 0 < h -> 0 <= e < 2 ^ 32 ->
  (check_version e v <> 0 <-> folded h = e \/ v = e) /\
  (check_version e v <> 0 -> check_version e v = h).
Proof.
  intros E Hh He. unfold check_version. rewrite E, check_enc, (wrap_small 32 e) by lia.
  destruct (Z.eqb_spec e v).
  - split; [|auto]. split; intros; [auto|lia].
  - destruct (Z.eqb_spec (folded h) e).
    + split; [|auto]. split; intros; [auto|lia].
    + split; [|lia]. split; [lia|]. intros [|]; congruence.
Qed.

(** *** the scan *)
Lemma zrange_cons a b : a < b -> zrange a b = a :: zrange (a + 1) b.
Proof.
  intro H. unfold zrange. replace (Z.to_nat (b - a)) with (S (Z.to_nat (b - (a + 1)))) by lia.
  cbn [seq map]. f_equal; [lia|]. rewrite <- seq_shift, map_map. apply map_ext. intro. lia.
Qed.
Lemma zrange_nil a b : b <= a -> zrange a b = [].
Proof. intro H. unfold zrange. replace (Z.to_nat (b - a)) with 0%nat by lia. reflexivity. Qed.

Lemma version_scan_eq e a b :
  version_scan e a b = map (fun v => (v, check_version e v)) (zrange a (b + 1)).
Proof.
  unfold version_scan. remember (Z.to_nat (b - a + 1)) as n eqn:En.
  revert a En. induction n; intros a En; cbn [version_items].
  - rewrite zrange_nil by lia. reflexivity.
  - replace (b <? a) with false by lia. rewrite zrange_cons by lia. cbn [map]. f_equal.
    apply IHn. lia.
Qed.

Lemma zrange_sorted a b : StronglySorted Z.lt (zrange a b).
Proof.
  remember (Z.to_nat (b - a)) as n eqn:En. revert a En. induction n; intros a En.
  - rewrite zrange_nil by lia. constructor.
  - rewrite zrange_cons by lia. constructor; [apply IHn; lia|].
    apply Forall_forall. intros x Hx. apply zrange_In in Hx. lia.
Qed.

Lemma usable_sorted e l : StronglySorted Z.lt l ->
  StronglySorted Z.lt (map fst (usable (map (fun v => (v, check_version e v)) l))).
Proof.
  induction 1; cbn [map usable filter fst snd]; [constructor|].
  destruct (negb _); [|assumption]. cbn [map fst]. constructor; [assumption|].
  rewrite Forall_forall in *. intros x Hx. apply in_map_iff in Hx as ([v h] & <- & Hx).
  apply filter_In in Hx as [Hx _]. apply in_map_iff in Hx as (w & E & Hw). injection E as <- <-.
  cbn [fst]. auto.
Qed.

Lemma usable_scan_In e a b v h :
  In (v, h) (usable (version_scan e a b)) <-> a <= v <= b /\ h = check_version e v /\ h <> 0.
Proof.
  unfold usable. rewrite filter_In, version_scan_eq, in_map_iff. cbn [snd]. split.
  - intros [(w & E & Hw) Hn]. injection E as <- <-. apply zrange_In in Hw. split; [lia|]. split; [reflexivity|]. lia.
  - intros (Hv & -> & Hn). split; [|lia]. exists v. split; [reflexivity|]. apply zrange_In. lia.
Qed.

(** *** offsets *)
Lemma xor_add_bijection X c : u32 X ->
  forall y, u32 y -> exists e, u32 e /\ wrap 32 (Z.lxor X e + c) = y /\
    forall e', u32 e' -> wrap 32 (Z.lxor X e' + c) = y -> e' = e.
Proof.
  intros HX y Hy. exists (Z.lxor X (wrap 32 (y - c))). split; [apply u32_lxor; [exact HX|apply u32_wrap]|].
  split.
  - rewrite lxor_cancel_l, wrap_add_l by lia. replace (y - c + c) with y by lia. apply wrap_small, Hy.
  - intros e' He' E. subst y. rewrite wrap_sub_l by lia.
    replace (Z.lxor X e' + c - c) with (Z.lxor X e') by lia.
    rewrite wrap_small by (apply u32_lxor; assumption). symmetry. apply lxor_cancel_l.
Qed.

Lemma not32_lxor x : u32 x -> not32 x = Z.lxor x (2 ^ 32 - 1).
Proof.
  intro Hx. unfold not32. change (2 ^ 32 - 1) with (Z.ones 32).
  assert (Z.land (Z.ones 32 - x) x = 0).
  { rewrite <- (Z.add_opp_r _ x). replace (Z.ones 32 + - x) with (Z.lnot x + 2 ^ 32) by (unfold Z.lnot; rewrite Z.ones_equiv; lia).
    apply Z.bits_inj'. intros i Hi. rewrite Z.land_spec, Z.bits_0. destruct (Z.ltb_spec i 32).
    - rewrite <- (Z.mod_pow2_bits_low _ 32) by lia. rewrite Z.add_mod, Z.mod_same, Z.add_0_r, Z.mod_mod by (change (2^32) with 4294967296; lia).
      rewrite Z.mod_pow2_bits_low, Z.lnot_spec by lia. destruct (Z.testbit x i); reflexivity.
    - rewrite (u32_bits_high x) by (auto; lia). apply andb_false_r. }
  rewrite <- (Z.sub_add x (Z.ones 32)) at 2. rewrite Z.add_nocarry_lxor by assumption.
  rewrite (Z.lxor_comm (Z.ones 32 - x) x), lxor_cancel_l. reflexivity.
Qed.

Lemma xor_not_bijection X c : u32 X ->
  forall y, u32 y -> exists e, u32 e /\ wrap 32 (Z.lxor X (not32 e) + c) = y /\
    forall e', u32 e' -> wrap 32 (Z.lxor X (not32 e') + c) = y -> e' = e.
Proof.
  intros HX y Hy. destruct (xor_add_bijection X c HX y Hy) as (e & He & E & U).
  exists (not32 e). split; [apply not32_u32, He|].
  assert (N : forall z, not32 (not32 z) = z) by (intro; unfold not32; lia).
  split; [rewrite N; exact E|]. intros e' He' E'. apply U in E'; [|apply not32_u32, He'].
  rewrite <- E', N. reflexivity.
Qed.

Lemma mix_u32 x : u32 x -> u32 (mix_kmst1199 x).
Proof.
  intro Hx. unfold mix_kmst1199.
  assert (S : forall y k, 0 <= k -> u32 y -> u32 (Z.shiftr y k)).
  { intros y k Hk [A B]. rewrite Z.shiftr_div_pow2 by lia. pose proof (pow2_pos k Hk).
    split; [apply Z.div_pos; lia|]. apply Z.le_lt_trans with y; [|lia]. apply Z.div_le_upper_bound; [lia|]. nia. }
  apply u32_lxor; [apply u32_wrap|]. apply S; [lia|apply u32_wrap].
Qed.

(** 64-bit computation of the classic scheme = plain 32-bit arithmetic *)
Lemma wrap_lxor n a b : 0 <= n -> wrap n (Z.lxor a b) = Z.lxor (wrap n a) (wrap n b).
Proof. apply lxor_mod. Qed.
Lemma wrap_mul_l n a b : 0 <= n -> wrap n (wrap n a * b) = wrap n (a * b).
Proof. intros. unfold wrap. apply Z.mul_mod_idemp_l. pose proof (pow2_pos n H). lia. Qed.

Definition pkg1_mask (fstart hash pos : Z) : Z :=
  let a := (2 ^ 32 - 1 - (pos - fstart) mod 2 ^ 32) * hash mod 2 ^ 32 in
  let b := (a - 0x581C3F6D) mod 2 ^ 32 in
  rotl32 b b.

Lemma off_pkg1_eq fstart h1 hash enc pos : 0 <= fstart < 2 ^ 32 -> u32 hash -> u32 enc ->
  off_pkg1 fstart h1 hash enc pos =
  (Z.lxor (pkg1_mask fstart hash pos) enc + 2 * fstart) mod 2 ^ 32.
Proof.
  intros Hf Hh He. unfold off_pkg1, pkg1_mask. cbv zeta. rewrite (wrap_small 32 hash) by exact Hh.
  rewrite !wrap_wrap_le by lia.
  set (x := Z.lxor (wrap 64 (pos - fstart)) 0xFFFFFFFF).
  assert (Hx : wrap 32 x = 2 ^ 32 - 1 - (pos - fstart) mod 2 ^ 32).
  { subst x. rewrite wrap_lxor, wrap_wrap_le by lia.
    pose proof (not32_lxor (wrap 32 (pos - fstart)) (u32_wrap _)) as N.
    unfold not32 in N. rewrite <- N || idtac. change (wrap 32 0xFFFFFFFF) with (2 ^ 32 - 1).
    rewrite <- N. reflexivity. }
  assert (Hy : wrap 32 (x * hash) = (2 ^ 32 - 1 - (pos - fstart) mod 2 ^ 32) * hash mod 2 ^ 32).
  { rewrite <- wrap_mul_l by lia. rewrite Hx. reflexivity. }
  rewrite Hy. set (a := _ * hash mod 2 ^ 32).
  change (wrap 32 (a - WZ_OFFSET)) with ((a - 0x581C3F6D) mod 2 ^ 32).
  set (b := (a - 0x581C3F6D) mod 2 ^ 32). assert (Hb : u32 b) by apply u32_mod.
  rewrite wrap_sext by lia. change 0x1F with 31. rewrite land_31, rotl32_mod.
  assert (Hr : u32 (rotl32 b b)) by (apply rotl32_u32; exact Hb).
  rewrite (wrap_small 32 (rotl32 b b)) by exact Hr.
  rewrite (wrap_small 32 (Z.lxor _ enc)) by (apply u32_lxor; assumption).
  rewrite (wrap_small 64 (fstart * 2)) by (change (2 ^ 64) with 18446744073709551616; change (2 ^ 32) with 4294967296 in Hf; lia).
  unfold wrap. f_equal. lia.
Qed.

Lemma off_u32 v fstart h1 hash enc pos : u32 (off_calc v fstart h1 hash enc pos).
Proof. destruct v; apply u32_wrap. Qed.

Lemma off_bijection v fstart h1 hash pos :
  0 <= fstart < 2 ^ 32 ->
  forall y, u32 y -> exists e, u32 e /\ off_calc v fstart h1 hash e pos = y /\
    forall e', u32 e' -> off_calc v fstart h1 hash e' pos = y -> e' = e.
Proof.
  intros Hf y Hy. destruct v; cbn [off_calc].
  - assert (E : forall e, u32 e -> off_pkg1 fstart h1 hash e pos =
              wrap 32 (Z.lxor (pkg1_mask fstart (wrap 32 hash) pos) e + 2 * fstart)).
    { intros e He. replace (off_pkg1 fstart h1 hash e pos) with (off_pkg1 fstart h1 (wrap 32 hash) e pos)
        by (unfold off_pkg1; rewrite wrap_wrap by lia; reflexivity).
      apply off_pkg1_eq; auto. apply u32_wrap. }
    destruct (xor_add_bijection (pkg1_mask fstart (wrap 32 hash) pos) (2 * fstart)) with (y := y) as (e & He & Ee & U); auto.
    { apply rotl32_u32, u32_mod. }
    exists e. split; [exact He|]. split; [rewrite E; auto|]. intros e' He'. rewrite E by auto. auto.
  - unfold off_pkg2_v1. apply xor_add_bijection; [|exact Hy]. apply rotl32_u32, u32_lxor; apply u32_wrap.
  - unfold off_pkg2_v2. apply xor_not_bijection; [|exact Hy]. apply rotl32_u32, u32_lxor; apply u32_wrap.
  - unfold off_pkg2_v3. apply xor_not_bijection; [|exact Hy].
    apply rotl32_u32, u32_lxor; [apply u32_lxor|]; apply u32_wrap.
  - unfold off_pkg2_64. apply xor_not_bijection; [|exact Hy].
    apply rotl32_u32, u32_lxor; [apply u32_lxor|]; apply u32_wrap.
Qed.
