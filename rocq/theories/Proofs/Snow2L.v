(** The Snow2 decryptor computes SNOW 2.0 with signed key words. *)
From Coq Require Import ZArith List Bool Lia.
From Verif.Model Require Import Base Snow2.
From Verif.Spec Require Import Wire Aes Snow2.
From Verif.Proofs Require Import BaseL WireL Pkg1L.
Import ListNotations.
Open Scope Z_scope.
Ltac Zify.zify_post_hook ::= idtac.
Ltac dlia := Z.div_mod_to_equations; lia.

Definition bytes256 : list Z := map Z.of_nat (seq 0 256).
Lemma in_bytes256 b : 0 <= b < 256 -> In b bytes256.
Proof.
  intros H. unfold bytes256. apply in_map_iff. exists (Z.to_nat b). split; [lia|].
  apply in_seq. lia.
Qed.
Lemma byte_all (f : Z -> bool) : forallb f bytes256 = true -> forall b, 0 <= b < 256 -> f b = true.
Proof. intros H b Hb. rewrite forallb_forall in H. apply H, in_bytes256, Hb. Qed.

Lemma alpha_tab_ok b : 0 <= b < 256 -> look alpha_tab b = beta_word b 23 245 48 239.
Proof.
  intros H. apply Z.eqb_eq. revert b H.
  apply (byte_all (fun b => look alpha_tab b =? beta_word b 23 245 48 239)).
  vm_compute. reflexivity.
Qed.
Lemma alphainv_tab_ok b : 0 <= b < 256 -> look alphainv_tab b = beta_word b 16 39 6 64.
Proof.
  intros H. apply Z.eqb_eq. revert b H.
  apply (byte_all (fun b => look alphainv_tab b =? beta_word b 16 39 6 64)).
  vm_compute. reflexivity.
Qed.

Definition w32 (x : Z) : Prop := 0 <= x < 2 ^ 32.

Lemma a_mul_ok w : w32 w -> a_mul w = alpha w.
Proof.
  intros H. unfold w32 in H. unfold a_mul, alpha. f_equal.
  - unfold wrap. rewrite Z.shiftl_mul_pow2 by lia. change (2 ^ 8) with 256. change (2 ^ 32) with (2 ^ 24 * 256).
    rewrite Z.mul_mod_distr_r; lia.
  - rewrite Z.shiftr_div_pow2 by lia. apply alpha_tab_ok. change (2 ^ 32) with 4294967296 in H. change (2 ^ 24) with 16777216. dlia.
Qed.
Lemma ainv_mul_ok w : w32 w -> ainv_mul w = alpha_inv w.
Proof.
  intros H. unfold w32 in H. unfold ainv_mul, alpha_inv.
  rewrite Z.shiftr_div_pow2 by lia. change 0xff with (Z.ones 8). rewrite Z.land_ones by lia.
  change (2 ^ 8) with 256. f_equal. apply alphainv_tab_ok. dlia.
Qed.

(** The S tables. *)
Definition word_of (l : list Z) : Z :=
  match l with [a; b; c; d] => a + b * 2 ^ 8 + c * 2 ^ 16 + d * 2 ^ 24 | _ => 0 end.
Lemma t_tabs_ok b : 0 <= b < 256 ->
  look t0_tab b = word_of (mix_column [sub b; 0; 0; 0]) /\
  look t1_tab b = word_of (mix_column [0; sub b; 0; 0]) /\
  look t2_tab b = word_of (mix_column [0; 0; sub b; 0]) /\
  look t3_tab b = word_of (mix_column [0; 0; 0; sub b]) /\ 0 <= sub b < 256.
Proof.
  intros H.
  assert (E := byte_all (fun b =>
    (look t0_tab b =? word_of (mix_column [sub b; 0; 0; 0])) &&
    (look t1_tab b =? word_of (mix_column [0; sub b; 0; 0])) &&
    (look t2_tab b =? word_of (mix_column [0; 0; sub b; 0])) &&
    (look t3_tab b =? word_of (mix_column [0; 0; 0; sub b])) && (0 <=? sub b) && (sub b <? 256))).
  specialize (E ltac:(vm_compute; reflexivity) b H). cbv beta in E.
  rewrite !andb_true_iff, !Z.eqb_eq, Z.leb_le, Z.ltb_lt in E. intuition lia.
Qed.

Lemma lxor_range n a b : 0 <= n -> 0 <= a < 2 ^ n -> 0 <= b < 2 ^ n -> 0 <= Z.lxor a b < 2 ^ n.
Proof.
  intros Hn Ha Hb. split; [apply Z.lxor_nonneg; lia|].
  destruct (Z.eq_dec (Z.lxor a b) 0) as [-> |N]; [lia|].
  assert (0 <= Z.lxor a b) by (apply Z.lxor_nonneg; lia).
  apply Z.log2_lt_pow2; [lia|].
  eapply Z.le_lt_trans; [apply Z.log2_lxor; lia|].
  destruct (Z.eq_dec n 0) as [-> |Nn].
  { change (2 ^ 0) with 1 in *. assert (a = 0) by lia. assert (b = 0) by lia. subst. contradiction N. reflexivity. }
  apply Z.max_lub_lt.
  - destruct (Z.eq_dec a 0) as [-> |]; [cbn; lia|]. apply Z.log2_lt_pow2; lia.
  - destruct (Z.eq_dec b 0) as [-> |]; [cbn; lia|]. apply Z.log2_lt_pow2; lia.
Qed.

(** Adding a disjoint high part is an exclusive or, so words are joined byte by byte. *)
Lemma add_lxor a b n : 0 <= n -> 0 <= a < 2 ^ n -> 0 <= b -> a + b * 2 ^ n = Z.lxor a (Z.shiftl b n).
Proof.
  intros Hn Ha Hb. rewrite Z.shiftl_mul_pow2 by lia.
  apply Z.add_nocarry_lxor. apply Z.bits_inj'. intros k Hk. rewrite Z.land_spec, Z.bits_0.
  destruct (Z.ltb_spec k n).
  - rewrite Z.mul_pow2_bits_low by lia. apply andb_false_r.
  - replace (Z.testbit a k) with false; [reflexivity|]. symmetry.
    destruct (Z.eq_dec a 0) as [-> |]; [apply Z.bits_0|].
    apply Z.bits_above_log2; [lia|]. apply Z.log2_lt_pow2; [lia|].
    eapply Z.lt_le_trans; [apply Ha|]. apply Z.pow_le_mono_r; lia.
Qed.
Lemma word_of_xor a b c d :
  0 <= a < 256 -> 0 <= b < 256 -> 0 <= c < 256 -> 0 <= d < 256 ->
  word_of [a; b; c; d] =
  Z.lxor (Z.lxor (Z.lxor a (Z.shiftl b 8)) (Z.shiftl c 16)) (Z.shiftl d 24).
Proof.
  intros. cbn [word_of].
  rewrite (add_lxor a b 8) by lia.
  assert (0 <= Z.lxor a (Z.shiftl b 8) < 2 ^ 16).
  { apply lxor_range; [lia|lia|]. rewrite Z.shiftl_mul_pow2 by lia. lia. }
  rewrite (add_lxor _ c 16) by lia.
  assert (0 <= Z.lxor (Z.lxor a (Z.shiftl b 8)) (Z.shiftl c 16) < 2 ^ 24).
  { apply lxor_range; [lia|lia|]. rewrite Z.shiftl_mul_pow2 by lia. lia. }
  rewrite (add_lxor _ d 24) by lia. reflexivity.
Qed.
Lemma lxor4 a b c d a' b' c' d' :
  Z.lxor (Z.lxor (Z.lxor (Z.lxor a a') (Z.lxor b b')) (Z.lxor c c')) (Z.lxor d d') =
  Z.lxor (Z.lxor (Z.lxor (Z.lxor a b) c) d) (Z.lxor (Z.lxor (Z.lxor a' b') c') d').
Proof. apply Z.bits_inj'. intros k _. rewrite !Z.lxor_spec. destruct (Z.testbit a k), (Z.testbit b k), (Z.testbit c k), (Z.testbit d k), (Z.testbit a' k), (Z.testbit b' k), (Z.testbit c' k), (Z.testbit d' k); reflexivity. Qed.
Definition b8 (x : Z) : Prop := 0 <= x < 256.
Lemma b8_lxor a b : b8 a -> b8 b -> b8 (Z.lxor a b).
Proof. apply (lxor_range 8); lia. Qed.
Lemma word_of_lxor a b c d a' b' c' d' :
  b8 a -> b8 b -> b8 c -> b8 d -> b8 a' -> b8 b' -> b8 c' -> b8 d' ->
  word_of [Z.lxor a a'; Z.lxor b b'; Z.lxor c c'; Z.lxor d d'] =
  Z.lxor (word_of [a; b; c; d]) (word_of [a'; b'; c'; d']).
Proof.
  unfold b8. intros.
  rewrite !word_of_xor by (assumption || (apply b8_lxor; assumption)).
  rewrite !Z.shiftl_lxor. apply lxor4.
Qed.
Lemma xtime_all : forallb (fun a => forallb (fun b => (xtime (Z.lxor a b) =? Z.lxor (xtime a) (xtime b))) bytes256) bytes256 = true.
Proof. vm_compute. reflexivity. Qed.
Lemma xtime_b8 a : b8 a -> b8 (xtime a).
Proof.
  intros H. assert (E := byte_all (fun a => (0 <=? xtime a) && (xtime a <? 256)) ltac:(vm_compute; reflexivity) a H).
  cbv beta in E. rewrite andb_true_iff, Z.leb_le, Z.ltb_lt in E. exact E.
Qed.
Lemma xtime_lxor a b : b8 a -> b8 b -> xtime (Z.lxor a b) = Z.lxor (xtime a) (xtime b).
Proof.
  intros Ha Hb. assert (E := byte_all _ xtime_all a Ha). cbv beta in E.
  assert (E2 := byte_all _ E b Hb). cbv beta in E2. now apply Z.eqb_eq in E2.
Qed.
Definition mixf (w x y z : Z) : Z := Z.lxor (Z.lxor (xtime w) (Z.lxor (xtime x) x)) (Z.lxor y z).
Lemma mix_column_eq a b c d :
  mix_column [a; b; c; d] = [mixf a b c d; mixf b c d a; mixf c d a b; mixf d a b c].
Proof. reflexivity. Qed.
Lemma mixf_b8 w x y z : b8 w -> b8 x -> b8 y -> b8 z -> b8 (mixf w x y z).
Proof. intros. unfold mixf. repeat apply b8_lxor; try apply xtime_b8; assumption. Qed.
Lemma mixf_lxor w x y z w' x' y' z' : b8 w -> b8 x -> b8 w' -> b8 x' ->
  mixf (Z.lxor w w') (Z.lxor x x') (Z.lxor y y') (Z.lxor z z') = Z.lxor (mixf w x y z) (mixf w' x' y' z').
Proof.
  intros. unfold mixf. rewrite !xtime_lxor by assumption.
  apply Z.bits_inj'. intros k _. rewrite !Z.lxor_spec.
  destruct (Z.testbit (xtime w) k), (Z.testbit (xtime w') k), (Z.testbit (xtime x) k), (Z.testbit (xtime x') k),
    (Z.testbit x k), (Z.testbit x' k), (Z.testbit y k), (Z.testbit y' k); cbn;
    destruct (Z.testbit z k), (Z.testbit z' k); reflexivity.
Qed.
Lemma mix_word_lxor a b c d a' b' c' d' :
  b8 a -> b8 b -> b8 c -> b8 d -> b8 a' -> b8 b' -> b8 c' -> b8 d' ->
  word_of (mix_column [Z.lxor a a'; Z.lxor b b'; Z.lxor c c'; Z.lxor d d']) =
  Z.lxor (word_of (mix_column [a; b; c; d])) (word_of (mix_column [a'; b'; c'; d'])).
Proof.
  intros. rewrite !mix_column_eq, !mixf_lxor by assumption.
  apply word_of_lxor; apply mixf_b8; assumption.
Qed.
Lemma byte_of_eq n w : 0 <= n -> byte_of n w = w / 2 ^ (n * 8) mod 256.
Proof.
  intros H. unfold byte_of. rewrite Z.shiftr_div_pow2 by lia. change 0xFF with (Z.ones 8). now rewrite Z.land_ones by lia.
Qed.
Lemma t_mix_ok w : w32 w -> t_mix w = s_word w.
Proof.
  intros H. unfold w32 in H. unfold t_mix, s_word.
  rewrite !byte_of_eq by lia. change (0 * 8) with 0. change (1 * 8) with 8. change (2 * 8) with 16. change (3 * 8) with 24.
  change (2 ^ 0) with 1. rewrite Z.div_1_r.
  change (2 ^ 24) with 16777216. change (2 ^ 16) with 65536. change (2 ^ 8) with 256. change (2 ^ 32) with 4294967296 in H.
  assert (E3 : w / 16777216 mod 256 = w / 16777216) by (apply Z.mod_small; dlia). rewrite E3.
  set (b0 := w mod 256). set (b1 := w / 256 mod 256). set (b2 := w / 65536 mod 256). set (b3 := w / 16777216).
  assert (H0 : b8 b0) by (unfold b8, b0; dlia). assert (H1 : b8 b1) by (unfold b8, b1; dlia).
  assert (H2 : b8 b2) by (unfold b8, b2; dlia). assert (H3 : b8 b3) by (unfold b8, b3; dlia).
  destruct (t_tabs_ok b0 H0) as (E & _ & _ & _ & S0). rewrite E.
  destruct (t_tabs_ok b1 H1) as (_ & E' & _ & _ & S1). rewrite E'.
  destruct (t_tabs_ok b2 H2) as (_ & _ & E'' & _ & S2). rewrite E''.
  destruct (t_tabs_ok b3 H3) as (_ & _ & _ & E''' & S3). rewrite E'''.
  assert (Z0 : b8 0) by (unfold b8; lia).
  fold (b8 (sub b0)) in S0. fold (b8 (sub b1)) in S1. fold (b8 (sub b2)) in S2. fold (b8 (sub b3)) in S3.
  rewrite <- !mix_word_lxor by (assumption || (repeat apply b8_lxor; assumption)).
  rewrite !Z.lxor_0_l, !Z.lxor_0_r. reflexivity.
Qed.

(** One block of either loop is one clock; the registers of the code stay in place and the oldest one
    moves along them. *)
Lemma alpha_w32 w : w32 w -> w32 (alpha w).
Proof.
  intros H. rewrite <- a_mul_ok by assumption. unfold a_mul.
  apply (lxor_range 32); [lia| |].
  - unfold wrap. apply Z.mod_pos_bound. lia.
  - unfold w32 in H. change (2 ^ 32) with 4294967296 in *.
    assert (B : 0 <= Z.shiftr w 24 < 256).
    { rewrite Z.shiftr_div_pow2 by lia. change (2 ^ 24) with 16777216. dlia. }
    assert (E := byte_all (fun b => (0 <=? look alpha_tab b) && (look alpha_tab b <? 4294967296)) ltac:(vm_compute; reflexivity) _ B).
    cbv beta in E. rewrite andb_true_iff, Z.leb_le, Z.ltb_lt in E. exact E.
Qed.
Lemma alpha_inv_w32 w : w32 w -> w32 (alpha_inv w).
Proof.
  intros H. rewrite <- ainv_mul_ok by assumption. unfold ainv_mul.
  unfold w32 in H. change 0xff with (Z.ones 8). rewrite Z.land_ones by lia. rewrite Z.shiftr_div_pow2 by lia.
  apply (lxor_range 32); [lia| |].
  - change (2 ^ 32) with 4294967296 in *. change (2 ^ 8) with 256. dlia.
  - change (2 ^ 8) with 256. change (2 ^ 32) with 4294967296.
    assert (B : 0 <= w mod 256 < 256) by dlia.
    assert (E := byte_all (fun b => (0 <=? look alphainv_tab b) && (look alphainv_tab b <? 4294967296)) ltac:(vm_compute; reflexivity) _ B).
    cbv beta in E. rewrite andb_true_iff, Z.leb_le, Z.ltb_lt in E. exact E.
Qed.
Lemma s_word_w32 w : w32 (s_word w).
Proof.
  unfold s_word. cbn [map]. rewrite mix_column_eq.
  assert (B : forall x, b8 (sub x)).
  { intros x. unfold sub.
    assert (F : Forall b8 sbox_table) by (unfold sbox_table; repeat (apply Forall_cons; [unfold b8; lia|]); apply Forall_nil).
    destruct (nth_in_or_default (Z.to_nat x) sbox_table 0) as [I|E].
    - rewrite Forall_forall in F. apply F, I.
    - rewrite E. unfold b8. lia. }
  set (a := mixf _ _ _ _). set (b := mixf _ _ _ _). set (c := mixf _ _ _ _). set (d := mixf _ _ _ _).
  assert (Ha : b8 a) by (apply mixf_b8; apply B). assert (Hb : b8 b) by (apply mixf_b8; apply B).
  assert (Hc : b8 c) by (apply mixf_b8; apply B). assert (Hd : b8 d) by (apply mixf_b8; apply B).
  clearbody a b c d. unfold b8, w32 in *. change (2 ^ 32) with 4294967296. change (2 ^ 24) with 16777216. change (2 ^ 16) with 65536. change (2 ^ 8) with 256. lia.
Qed.
Lemma w32_lxor a b : w32 a -> w32 b -> w32 (Z.lxor a b).
Proof. apply (lxor_range 32). lia. Qed.
Lemma w32_mod a : w32 (a mod 2 ^ 32).
Proof. apply Z.mod_pos_bound. lia. Qed.

Definition good (st : snow) : Prop :=
  length (lfsr st) = 16%nat /\ Forall w32 (lfsr st) /\ w32 (reg1 st) /\ w32 (reg2 st).
Lemma good_word st i : good st -> w32 (word st i).
Proof.
  intros (_ & F & _). unfold word. destruct (nth_in_or_default i (lfsr st) 0) as [I|E].
  - rewrite Forall_forall in F. apply F, I.
  - rewrite E. unfold w32. lia.
Qed.
Lemma good_clock x st : good st -> w32 x -> good (clock x st).
Proof.
  intros G Hx. assert (G' := G). destruct G' as (L & F & R1 & R2).
  unfold clock, good. cbn [lfsr reg1 reg2]. split; [|split; [|split]].
  - destruct (lfsr st) as [|y l]; [discriminate|]. cbn [tl]. rewrite app_length. cbn [length] in *. lia.
  - apply Forall_app. split.
    + destruct (lfsr st) as [|y l]; [apply Forall_nil|]. cbn [tl]. now inversion F.
    + apply Forall_cons; [|apply Forall_nil].
      apply w32_lxor; apply w32_lxor; try assumption; [apply alpha_inv_w32| |apply alpha_w32]; apply good_word, G.
  - apply w32_mod.
  - apply s_word_w32.
Qed.
Lemma good_fsm st : good st -> w32 (fsm st).
Proof. intros G. unfold fsm. apply w32_lxor; [apply w32_mod|apply G]. Qed.

Definition matches (i : nat) (c : ctx) (st : snow) : Prop :=
  lfsr st = skipn i (cs c) ++ firstn i (cs c) /\ cr1 c = reg1 st /\ cr2 c = reg2 st /\ good st /\ length (cs c) = 16%nat.

Lemma xor_order a b c d : Z.lxor (Z.lxor (Z.lxor a b) c) d = Z.lxor (Z.lxor c b) (Z.lxor a d).
Proof.
  apply Z.bits_inj'. intros k _. rewrite !Z.lxor_spec.
  destruct (Z.testbit a k), (Z.testbit b k), (Z.testbit c k), (Z.testbit d k); reflexivity.
Qed.
Lemma w32_fold : forall x, wrap 32 x = x mod 2 ^ 32.
Proof. reflexivity. Qed.

Lemma list16 {A} (l : list A) : length l = 16%nat ->
  exists a b c d e f g h i j k m n o p q, l = [a; b; c; d; e; f; g; h; i; j; k; m; n; o; p; q].
Proof.
  intros H. do 16 (destruct l as [|? l]; [discriminate|]). destruct l; [|discriminate]. repeat eexists.
Qed.

Ltac rows16 i Hr :=
  let rec go n := match n with
    | O => destruct i; discriminate Hr
    | S ?k => destruct i as [|i]; [injection Hr as <-|go k]
    end in go 16%nat.
Opaque a_mul ainv_mul t_mix alpha alpha_inv s_word Z.lxor Z.modulo Z.pow.
Lemma clocking_block_ok i c st row :
  nth_error clocking_rows i = Some row -> matches i c st ->
  matches (S i) (clocking_block c row) (clock (fsm st) st).
Proof.
  intros Hr (E & E1 & E2 & G & L).
  assert (Gc : good (clock (fsm st) st)) by (apply good_clock; [assumption|now apply good_fsm]).
  unfold matches. split; [|split; [|split; [|split; [exact Gc|]]]].
  all: assert (Ha : a_mul (word st 0) = alpha (word st 0)) by (apply a_mul_ok, good_word, G).
  all: assert (Hb : ainv_mul (word st 11) = alpha_inv (word st 11)) by (apply ainv_mul_ok, good_word, G).
  all: assert (Ht : t_mix (reg1 st) = s_word (reg1 st)) by (apply t_mix_ok, G).
  all: destruct c as [s r1 r2]; cbn [cs cr1 cr2] in *; subst r1 r2.
  all: destruct (list16 s L) as (x0&x1&x2&x3&x4&x5&x6&x7&x8&x9&x10&x11&x12&x13&x14&x15& ->).
  all: unfold clock, fsm, word in *; cbn [lfsr reg1 reg2 cs cr1 cr2] in *; rewrite E in *.
  all: rows16 i Hr.
  all: cbn [skipn firstn app tl nth clocking_block cs cr1 cr2 sreg put length word lfsr] in *.
  all: try reflexivity.
  all: unfold wrap in *.
  all: try (rewrite Ha, Hb, xor_order, (Z.add_comm (reg1 st)); reflexivity).
  all: try exact Ht.
  all: try (rewrite Z.add_comm; reflexivity).
Qed.

Lemma xor_order3 a b c : Z.lxor (Z.lxor a b) c = Z.lxor (Z.lxor c b) (Z.lxor a 0).
Proof. rewrite <- (Z.lxor_0_r (Z.lxor (Z.lxor a b) c)). apply xor_order. Qed.
Definition out_word (st : snow) : Z := Z.lxor (fsm st) (word st 0).
Lemma key_block_ok i c st row :
  nth_error key_rows i = Some row -> matches i c st ->
  matches (S i) (fst (key_block c row)) (clock 0 st) /\ snd (key_block c row) = out_word (clock 0 st).
Proof.
  intros Hr (E & E1 & E2 & G & L).
  assert (Z0 : w32 0) by (unfold w32; lia).
  assert (Gc : good (clock 0 st)) by (apply good_clock; assumption).
  unfold matches, out_word.
  assert (Ha : a_mul (word st 0) = alpha (word st 0)) by (apply a_mul_ok, good_word, G).
  assert (Hb : ainv_mul (word st 11) = alpha_inv (word st 11)) by (apply ainv_mul_ok, good_word, G).
  assert (Ht : t_mix (reg1 st) = s_word (reg1 st)) by (apply t_mix_ok, G).
  split; [split; [|split; [|split; [|split; [exact Gc|]]]]|].
  all: clear Gc G Z0.
  all: destruct c as [s r1 r2]; cbn [cs cr1 cr2] in *; subst r1 r2.
  all: destruct (list16 s L) as (x0&x1&x2&x3&x4&x5&x6&x7&x8&x9&x10&x11&x12&x13&x14&x15& ->).
  all: unfold clock, fsm, word in *; cbn [lfsr reg1 reg2 cs cr1 cr2] in *; rewrite E in *; clear E L.
  all: rows16 i Hr.
  all: cbn [skipn firstn app tl nth key_block cs cr1 cr2 sreg put length word lfsr fst snd reg1 reg2] in *.
  all: try reflexivity.
  all: unfold wrap in *.
  all: try (rewrite Ha, Hb, (xor_order3 (alpha _)); reflexivity).
  all: try exact Ht.
  all: try (rewrite Z.add_comm; reflexivity).
  all: rewrite Ha, Hb, (xor_order3 (alpha _)), Ht, (Z.add_comm (reg2 st)), (Z.add_comm _ (Z.lxor _ _)); reflexivity.
Qed.

Lemma iter_r {A} n (f : A -> A) x : Nat.iter (S n) f x = Nat.iter n f (f x).
Proof. induction n as [|n IH]; [reflexivity|]. cbn [Nat.iter nat_rect] in *. unfold Nat.iter in *. cbn in *. now rewrite IH. Qed.
Lemma fold_clocking rows i c st :
  (forall j row, nth_error rows j = Some row -> nth_error clocking_rows (i + j) = Some row) ->
  matches i c st ->
  matches (i + length rows) (fold_left clocking_block rows c)
          (Nat.iter (length rows) (fun st => clock (fsm st) st) st).
Proof.
  revert i c st. induction rows as [|row rows IH]; intros i c st H M; cbn [fold_left length].
  - rewrite Nat.add_0_r. exact M.
  - replace (i + S (length rows))%nat with (S i + length rows)%nat by lia.
    rewrite iter_r. apply IH.
    + intros j r Hj. replace (S i + j)%nat with (i + S j)%nat by lia. apply H. exact Hj.
    + apply (clocking_block_ok i); [|exact M]. replace i with (i + 0)%nat by lia. apply H. reflexivity.
Qed.
Lemma matches_16 c st : matches 16 c st <-> matches 0 c st.
Proof.
  unfold matches. split; intros (E & R & Q & G & L); (split; [|now repeat (split; [assumption|])]).
  - rewrite skipn_all2, firstn_all2 in E by lia. cbn [skipn firstn app] in *. now rewrite app_nil_r.
  - cbn [skipn firstn app] in E. rewrite app_nil_r in E. rewrite skipn_all2, firstn_all2 by lia. exact E.
Qed.
Lemma initial_clocking_ok c st : matches 0 c st ->
  matches 0 (initial_clocking c) (Nat.iter 16 (fun st => clock (fsm st) st) st).
Proof.
  intros M. apply matches_16. apply (fold_clocking clocking_rows 0 c st); [|exact M]. intros j row H. exact H.
Qed.
Lemma fold_keys rows i c st acc :
  (forall j row, nth_error rows j = Some row -> nth_error key_rows (i + j) = Some row) ->
  matches i c st ->
  let r := fold_left (fun p row => let (c', z) := key_block (fst p) row in (c', snd p ++ [z])) rows (c, acc) in
  matches (i + length rows) (fst r) (Nat.iter (length rows) (clock 0) st) /\
  snd r = acc ++ map (fun k => out_word (Nat.iter (S k) (clock 0) st)) (seq 0 (length rows)).
Proof.
  revert i c st acc. induction rows as [|row rows IH]; intros i c st acc H M.
  - cbn [fold_left length fst snd seq map]. rewrite Nat.add_0_r, app_nil_r. split; [exact M|reflexivity].
  - cbn [fold_left fst snd].
    destruct (key_block_ok i c st row) as [M' E]; [replace i with (i + 0)%nat by lia; apply H; reflexivity|exact M|].
    destruct (key_block c row) as [c' z]. cbn [fst snd] in M', E.
    specialize (IH (S i) c' (clock 0 st) (acc ++ [z])). cbv zeta in IH.
    destruct IH as [IM IE].
    { intros j r Hj. replace (S i + j)%nat with (i + S j)%nat by lia. apply H. exact Hj. }
    { exact M'. }
    cbv zeta. split.
    + cbn [length]. replace (i + S (length rows))%nat with (S i + length rows)%nat by lia.
      rewrite iter_r. exact IM.
    + rewrite IE, <- app_assoc. f_equal. cbn [length seq map app].
      f_equal; [exact E|]. rewrite <- seq_shift, map_map. apply map_ext. intros k.
      now rewrite <- iter_r.
Qed.
Lemma generate_keys_ok c st : matches 0 c st ->
  matches 0 (fst (generate_keys c)) (Nat.iter 16 (clock 0) st) /\
  snd (generate_keys c) = map (fun k => out_word (Nat.iter (S k) (clock 0) st)) (seq 0 16).
Proof.
  intros M. assert (F := fold_keys key_rows 0 c st [] (fun j row H => H) M). cbv zeta in F.
  destruct F as [F E]. split; [apply matches_16; exact F|exact E].
Qed.

(** The key words. *)
Lemma lor_add hi k y : 0 <= k -> 0 <= hi -> 0 <= y < 2 ^ k -> Z.lor (hi * 2 ^ k) y = hi * 2 ^ k + y.
Proof.
  intros Hk Hh Hy. rewrite Z.add_comm, add_lxor by lia. rewrite Z.shiftl_mul_pow2 by lia.
  rewrite Z.lor_comm. symmetry. apply Z.bits_inj'. intros j Hj. rewrite Z.lxor_spec, Z.lor_spec.
  destruct (Z.ltb_spec j k).
  - rewrite Z.mul_pow2_bits_low by lia. now destruct (Z.testbit y j).
  - replace (Z.testbit y j) with false; [now destruct (Z.testbit _ j)|]. symmetry.
    destruct (Z.eq_dec y 0) as [-> |]; [apply Z.bits_0|].
    apply Z.bits_above_log2; [lia|]. apply Z.log2_lt_pow2; [lia|].
    eapply Z.lt_le_trans; [apply Hy|]. apply Z.pow_le_mono_r; lia.
Qed.
Lemma lor_full hi k y r : 0 <= k <= 32 -> 0 <= hi -> hi * 2 ^ k < 2 ^ 32 -> 0 <= r < 2 ^ k ->
  y = 2 ^ 32 - 2 ^ k + r -> Z.lor (hi * 2 ^ k) y = y.
Proof.
  intros Hk Hh Hlt Hr Hy.
  assert (Ey : y = Z.lor (Z.shiftl (Z.ones (32 - k)) k) r).
  { rewrite Z.shiftl_mul_pow2 by lia. rewrite lor_add; [|lia| |lia].
    - rewrite Z.ones_equiv. unfold Z.pred. rewrite Z.mul_add_distr_r, <- Z.pow_add_r by lia.
      replace (32 - k + k) with 32 by lia. lia.
    - rewrite Z.ones_equiv. assert (0 < 2 ^ (32 - k)) by (apply Z.pow_pos_nonneg; lia). lia. }
  rewrite Ey. apply Z.bits_inj'. intros j Hj. rewrite !Z.lor_spec, Z.shiftl_spec by lia.
  destruct (Z.ltb_spec j k).
  - rewrite Z.mul_pow2_bits_low by lia. reflexivity.
  - rewrite Z.testbit_ones_nonneg by lia.
    destruct (Z.ltb_spec (j - k) (32 - k)).
    + now rewrite orb_true_r.
    + replace (Z.testbit (hi * 2 ^ k) j) with false; [reflexivity|]. symmetry.
      destruct (Z.eq_dec (hi * 2 ^ k) 0) as [-> |]; [apply Z.bits_0|].
      assert (0 < 2 ^ k) by (apply Z.pow_pos_nonneg; lia).
      apply Z.bits_above_log2; [lia|]. apply Z.log2_lt_pow2; [lia|].
      eapply Z.lt_le_trans; [apply Hlt|]. apply Z.pow_le_mono_r; lia.
Qed.
Transparent Z.modulo Z.pow.
Lemma sext_byte b : b8 b -> wrap 32 (sext 8 b) = if b <? 128 then b else 0xFFFFFF00 + b.
Proof.
  intros H. unfold b8 in H. unfold sext, wrap. change (2 ^ 8) with 256. change (2 ^ (8 - 1)) with 128. change (2 ^ 32) with 4294967296.
  rewrite (Z.mod_small b) by lia. destruct (Z.ltb_spec b 128); cbv zeta; dlia.
Qed.
Lemma shl_byte b k e : b8 b -> 0 <= k -> 2 ^ k * e = 2 ^ 32 -> 256 <= e ->
  wrap 32 (Z.shiftl (wrap 32 (sext 8 b)) k) = if b <? 128 then b * 2 ^ k else 2 ^ 32 - 2 ^ k * 256 + b * 2 ^ k.
Proof.
  intros H Hk He Hl. rewrite sext_byte by assumption. unfold wrap. rewrite Z.shiftl_mul_pow2 by lia.
  assert (0 < 2 ^ k) by (apply Z.pow_pos_nonneg; lia).
  set (t := 2 ^ k) in *. clearbody t. unfold b8 in H. change (2 ^ 32) with 4294967296 in *.
  destruct (b <? 128).
  - apply Z.mod_small. nia.
  - symmetry. apply (Z.mod_unique_pos _ _ (t - 1)); [nia|]. nia.
Qed.
Lemma key_word_ok b0 b1 b2 b3 : b8 b0 -> b8 b1 -> b8 b2 -> b8 b3 ->
  key_word b0 b1 b2 b3 = signed_word [b0; b1; b2; b3] 0 /\ w32 (key_word b0 b1 b2 b3).
Proof.
  intros H0 H1 H2 H3. unfold key_word.
  rewrite (shl_byte b0 24 256), (shl_byte b1 16 65536), (shl_byte b2 8 16777216), (sext_byte b3) by (assumption || reflexivity || lia).
  assert (A0 : (if b0 <? 128 then b0 * 2 ^ 24 else 2 ^ 32 - 2 ^ 24 * 256 + b0 * 2 ^ 24) = b0 * 2 ^ 24)
    by (destruct (b0 <? 128); lia). rewrite A0. clear A0.
  unfold signed_word, be_word. cbn [nth Nat.add].
  unfold b8 in *.
  assert (P1 : exists h, 0 <= h < 65536 /\
    Z.lor (b0 * 2 ^ 24) (if b1 <? 128 then b1 * 2 ^ 16 else 2 ^ 32 - 2 ^ 16 * 256 + b1 * 2 ^ 16) = h * 2 ^ 16 /\
    h = if b1 <? 128 then b0 * 256 + b1 else 0xFF00 + b1).
  { eexists. split; [|split; [|reflexivity]].
    - destruct (b1 <? 128); lia.
    - destruct (b1 <? 128).
      + rewrite lor_add by lia. lia.
      + rewrite (lor_full b0 24 _ (b1 * 2 ^ 16)) by lia. lia. }
  destruct P1 as (h & Hh & -> & Eh).
  assert (P2 : exists g, 0 <= g < 16777216 /\
    Z.lor (h * 2 ^ 16) (if b2 <? 128 then b2 * 2 ^ 8 else 2 ^ 32 - 2 ^ 8 * 256 + b2 * 2 ^ 8) = g * 2 ^ 8 /\
    g = if b2 <? 128 then h * 256 + b2 else 0xFFFF00 + b2).
  { eexists. split; [|split; [|reflexivity]].
    - destruct (b2 <? 128); lia.
    - destruct (b2 <? 128).
      + rewrite lor_add by lia. lia.
      + rewrite (lor_full h 16 _ (b2 * 2 ^ 8)) by lia. lia. }
  destruct P2 as (g & Hg & -> & Eg).
  assert (P3 : Z.lor (g * 2 ^ 8) (if b3 <? 128 then b3 else 4294967040 + b3) = if b3 <? 128 then g * 256 + b3 else 0xFFFFFF00 + b3).
  { destruct (Z.ltb_spec b3 128).
    - rewrite lor_add by lia. lia.
    - rewrite (lor_full g 8 _ b3) by lia. lia. }
  rewrite P3. rewrite !(Z.leb_antisym _ 128). subst h g. unfold w32.
  destruct (b3 <? 128), (b2 <? 128), (b1 <? 128); cbn [negb]; lia.
Qed.
Lemma not32_flip w : w32 w -> not32 w = flip w /\ w32 (not32 w).
Proof.
  intros H. split; [apply not32_lxor; exact H|]. unfold w32, not32 in *. lia.
Qed.

Lemma signed_word_at key i : (i + 4 <= length key)%nat ->
  signed_word key i = signed_word [nth i key 0; nth (i + 1) key 0; nth (i + 2) key 0; nth (i + 3) key 0] 0.
Proof. intros H. unfold signed_word, be_word. reflexivity. Qed.
Lemma key_byte_b8 key i : Forall b8 key -> b8 (nth i key 0).
Proof.
  intros F. destruct (nth_in_or_default i key 0) as [I|E].
  - rewrite Forall_forall in F. apply F, I.
  - rewrite E. unfold b8. lia.
Qed.
Lemma iter_add {A} a b (f : A -> A) x : Nat.iter (a + b) f x = Nat.iter a f (Nat.iter b f x).
Proof. induction a as [|a IH]; [reflexivity|]. cbn [Nat.add]. unfold Nat.iter in *. cbn. now rewrite IH. Qed.

Opaque generate_keys initial_clocking clock fsm mixed signed_word.
Definition key_ok (key : list Z) : Prop := length key = 16%nat /\ Forall b8 key.
Definition ms_mixed (key : list Z) : snow :=
  mixed (signed_word key 0) (signed_word key 4) (signed_word key 8) (signed_word key 12).
Lemma ms_stream_eq key n : ms_stream key n = out_word (Nat.iter (S n) (clock 0) (ms_mixed key)).
Proof. unfold ms_stream, snow_word, out_word, ms_mixed. cbv zeta. reflexivity. Qed.
Lemma start_ok k3 k2 k1 k0 : w32 k3 -> w32 k2 -> w32 k1 -> w32 k0 ->
  matches 0 (mkCtx [not32 k0; not32 k1; not32 k2; not32 k3; k0; k1; k2; k3; not32 k0; not32 k1; not32 k2; not32 k3; k0; k1; k2; k3] 0 0) (loaded k3 k2 k1 k0).
Proof.
  intros W3 W2 W1 W0.
  destruct (not32_flip k0 W0) as [N0 V0]. destruct (not32_flip k1 W1) as [N1 V1].
  destruct (not32_flip k2 W2) as [N2 V2]. destruct (not32_flip k3 W3) as [N3 V3].
  unfold matches, loaded, good. cbn [cs lfsr cr1 cr2 reg1 reg2]. rewrite N0, N1, N2, N3 in *.
  split; [reflexivity|]. split; [reflexivity|]. split; [reflexivity|]. split; [|reflexivity].
  split; [reflexivity|]. split; [repeat (apply Forall_cons; [assumption|]); apply Forall_nil|].
  unfold w32; lia.
Qed.
Lemma warm_ok c st : matches 0 c st ->
  matches 0 (initial_clocking (initial_clocking c)) (Nat.iter 32 (fun st => clock (fsm st) st) st).
Proof.
  intros M. apply initial_clocking_ok in M. apply initial_clocking_ok in M.
  rewrite <- iter_add in M. change (16 + 16)%nat with 32%nat in M. exact M.
Qed.
Lemma with_key_ok key : key_ok key ->
  matches 0 (fst (with_key key)) (Nat.iter 16 (clock 0) (ms_mixed key)) /\
  snd (with_key key) = map (ms_stream key) (seq 0 16).
Proof.
  intros [L F].
  assert (B := fun i => key_byte_b8 key i F).
  destruct (key_word_ok _ _ _ _ (B 0%nat) (B 1%nat) (B 2%nat) (B 3%nat)) as [E3 W3].
  destruct (key_word_ok _ _ _ _ (B 4%nat) (B 5%nat) (B 6%nat) (B 7%nat)) as [E2 W2].
  destruct (key_word_ok _ _ _ _ (B 8%nat) (B 9%nat) (B 10%nat) (B 11%nat)) as [E1 W1].
  destruct (key_word_ok _ _ _ _ (B 12%nat) (B 13%nat) (B 14%nat) (B 15%nat)) as [E0 W0].
  assert (S0 := signed_word_at key 0 ltac:(lia)). assert (S4 := signed_word_at key 4 ltac:(lia)).
  assert (S8 := signed_word_at key 8 ltac:(lia)). assert (S12 := signed_word_at key 12 ltac:(lia)).
  cbn [Nat.add] in S0, S4, S8, S12.
  rewrite <- E3 in S0. rewrite <- E2 in S4. rewrite <- E1 in S8. rewrite <- E0 in S12.
  assert (M := warm_ok _ _ (start_ok _ _ _ _ W3 W2 W1 W0)).
  apply generate_keys_ok in M. unfold ms_stream, ms_mixed, snow_word. cbv zeta. rewrite S0, S4, S8, S12.
  unfold with_key. cbv zeta. Transparent mixed. unfold mixed. exact M.
Qed.

(** The decryptor after [n] blocks. *)
Definition dec_at (key : list Z) (n : nat) (d : snow2) : Prop :=
  exists q i, n = (16 * q + i)%nat /\ (i < 16)%nat /\ sn_index d = i /\
    sn_keys d = map (ms_stream key) (seq (16 * q) 16) /\
    matches 0 (sn_ctx d) (Nat.iter (16 * q + 16) (clock 0) (ms_mixed key)).
Lemma snow2_new_ok key : key_ok key -> dec_at key 0 (snow2_new key).
Proof.
  intros K. destruct (with_key_ok key K) as [M E]. unfold snow2_new. destruct (with_key key) as [c ks].
  cbn [fst snd] in *. exists 0%nat, 0%nat. cbn [sn_index sn_keys sn_ctx]. repeat split; try assumption; try apply M; lia.
Qed.
Lemma decrypt_block_ok key n d x : dec_at key n d ->
  exists d', decrypt_block d x = ((x - ms_stream key n) mod 2 ^ 32, d') /\ dec_at key (S n) d'.
Proof.
  intros (q & i & En & Hi & Ei & Ek & M). unfold decrypt_block.
  assert (Nk : nth (sn_index d) (sn_keys d) 0 = ms_stream key n).
  { rewrite Ei, Ek, (nth_indep _ 0 (ms_stream key 0)) by (rewrite map_length, seq_length; exact Hi).
    rewrite map_nth, seq_nth by exact Hi. now rewrite En. }
  rewrite Nk. rewrite Ei. destruct (Nat.leb_spec 16 (S i)) as [H|H].
  - destruct (generate_keys_ok _ _ M) as [M' E']. destruct (generate_keys (sn_ctx d)) as [c ks]. cbn [fst snd] in *.
    eexists. split; [reflexivity|]. exists (S q), 0%nat. cbn [sn_index sn_keys sn_ctx].
    split; [lia|]. split; [lia|]. split; [reflexivity|].
    replace (16 * S q)%nat with (16 * q + 16)%nat by lia.
    split.
    + rewrite E'.
      transitivity (map (fun k => ms_stream key (16 * q + 16 + k)) (seq 0 16)).
      * apply map_ext. intros k. rewrite ms_stream_eq.
        replace (S (16 * q + 16 + k))%nat with (S k + (16 * q + 16))%nat by lia.
        rewrite (iter_add (S k)). reflexivity.
      * clear. generalize (16 * q + 16)%nat. intros a.
        rewrite <- (map_map (fun k => (a + k)%nat) (ms_stream key)). f_equal.
        generalize 16%nat. intros m. 
        revert a. induction m as [|m IH]; intros a; [reflexivity|].
        cbn [seq map]. rewrite Nat.add_0_r. f_equal. rewrite <- (IH (S a)).
        rewrite <- seq_shift, map_map. apply map_ext. intros k. lia.
    + rewrite (Nat.add_comm (16 * q + 16) 16), iter_add. exact M'.
  - eexists. split; [reflexivity|]. exists q, (S i). cbn [sn_index sn_keys sn_ctx].
    split; [lia|]. split; [lia|]. split; [reflexivity|]. split; [exact Ek|exact M].
Qed.

Lemma enc4 v : enc_le 4 v = le_bytes 4 v.
Proof. apply enc_le_eq. Qed.
Lemma le4_shape v : exists a b c e, le_bytes 4 v = [a; b; c; e] /\ le_val [a; b; c; e] = v mod 2 ^ 32.
Proof.
  assert (E := le_val_le_bytes 4 v). cbn [le_bytes] in *. do 4 eexists. split; [reflexivity|exact E].
Qed.
Lemma sub_add_mod w k : w32 w -> (((w + k) mod 2 ^ 32) mod 2 ^ 32 - k) mod 2 ^ 32 = w.
Proof.
  intros H. unfold w32 in H. rewrite Z.mod_mod by lia. rewrite Zminus_mod_idemp_l.
  replace (w + k - k) with w by lia. now apply Z.mod_small.
Qed.
Lemma decrypt_slice_ok key n d plain out : dec_at key n d -> added (ms_stream key) n plain out ->
  exists d', decrypt_slice d out = (plain, d', (length plain mod 4)%nat) /\
    dec_at key (n + length plain / 4) d' /\ length out = length plain.
Proof.
  intros D A. revert d D. induction A as [n rest H|n w plain out H A IH]; intros d D.
  - exists d. rewrite Nat.div_small, Nat.mod_small, Nat.add_0_r by exact H. split; [|split; [exact D|reflexivity]].
    destruct rest as [|a [|b [|c [|e r]]]]; try reflexivity. cbn [length] in H. lia.
  - rewrite !enc4. destruct (le4_shape ((w + ms_stream key n) mod 2 ^ 32)) as (a & b & c & e & -> & Ev).
    destruct (decrypt_block_ok key n d (le_val [a; b; c; e]) D) as (d1 & E1 & D1).
    destruct (IH d1 D1) as (d2 & E2 & D2 & L2).
    exists d2. cbn [app decrypt_slice]. rewrite E1, E2. split; [|split].
    + rewrite Ev, sub_add_mod by exact H. rewrite app_length, le_bytes_length.
      rewrite (Nat.add_comm 4). rewrite (Nat.add_mod (length plain) 4 4), Nat.mod_same, Nat.add_0_r, Nat.mod_mod by lia.
      reflexivity.
    + rewrite app_length, le_bytes_length.
      replace (n + (4 + length plain) / 4)%nat with (S n + length plain / 4)%nat; [exact D2|].
      replace (4 + length plain)%nat with (length plain + 1 * 4)%nat by lia. rewrite Nat.div_add by lia. lia.
    + rewrite app_length, le_bytes_length. cbn [length]. lia.
Qed.
(** Every data is some data hidden, so the above describes all calls. *)
Lemma added_total key n out : bytes out -> exists plain, added (ms_stream key) n plain out /\ bytes plain.
Proof.
  remember (length out) as m eqn:Em. revert n out Em. induction m as [m IH] using (well_founded_induction Nat.lt_wf_0).
  intros n out Em B. destruct out as [|a [|b [|c [|e r]]]].
  1-4: eexists; split; [apply added_rest; cbn [length]; lia|exact B].
  destruct (IH (length r) ltac:(cbn [length] in Em; lia) (S n) r eq_refl) as (plain & A & Bp).
  { do 4 (apply Forall_inv_tail in B). exact B. }
  assert (Bw : bytes [a; b; c; e]).
  { inversion B as [|? ? Ba B1]; inversion B1 as [|? ? Bb B2]; inversion B2 as [|? ? Bc B3]; inversion B3 as [|? ? Be B4].
    repeat (apply Forall_cons; [assumption|]). apply Forall_nil. }
  assert (R := le_val_range _ Bw). change (8 * zlen [a; b; c; e]) with 32 in R.
  set (w := (le_val [a; b; c; e] - ms_stream key n) mod 2 ^ 32).
  exists (enc_le 4 w ++ plain). split.
  - replace (a :: b :: c :: e :: r) with (enc_le 4 ((w + ms_stream key n) mod 2 ^ 32) ++ r).
    + apply added_word; [apply Z.mod_pos_bound; lia|exact A].
    + replace ((w + ms_stream key n) mod 2 ^ 32) with (le_val [a; b; c; e]).
      * rewrite enc4. assert (Eb := le_bytes_le_val _ Bw). change (length [a; b; c; e]) with 4%nat in Eb. rewrite Eb. reflexivity.
      * unfold w. rewrite Zplus_mod_idemp_l.
        replace (le_val [a; b; c; e] - ms_stream key n + ms_stream key n) with (le_val [a; b; c; e]) by lia.
        now rewrite Z.mod_small.
  - rewrite enc4. apply Forall_app. split; [apply le_bytes_bytes|exact Bp].
Qed.
