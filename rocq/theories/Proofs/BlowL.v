(** Small images on which the property parser does not come back in time. *)
From Coq Require Import ZArith List Bool Lia ZifyBool ZifyNat.
From Coq Require String.
From Verif.Model Require Import Base Utf Keys Reader WzStr VersionPkg1 Image.
From Verif.Spec Require Import Wire Stream StrWire Version PropWire PropView PropEnc PathSpec.
From Verif.Proofs Require Import BaseL WireL ReaderL AtL ImageL ParseL ScanL EncL.
Import String.StringSyntax.
Ltac Zify.zify_post_hook ::= idtac.

Definition key0 : nat -> Z := fun _ => 0.

(** *** exponential size *)
Definition level : list Z := [2; 9; 0; 0; 0; 0] ++ [0x1B; 1; 0; 0; 0; 2; 0; 127].
Definition nulls (n : nat) : list Z := concat (repeat [2; 0] n).
Definition blow_head : list Z := 0x73 :: enc_str key0 (codes "Property") ++ [0; 0].
Definition blow (m : nat) : list Z := blow_head ++ [127] ++ concat (repeat level m) ++ nulls 127.

Lemma concat_repeat_len {A} (l : list A) n : length (concat (repeat l n)) = (n * length l)%nat.
Proof. induction n; cbn [repeat concat length]; rewrite ?app_length; lia. Qed.
Lemma concat_repeat_split {A} (l : list A) a b : concat (repeat l (a + b)) = concat (repeat l a) ++ concat (repeat l b).
Proof. rewrite repeat_app, concat_app. reflexivity. Qed.

Section blow.
  Variable m : nat.
  Hypothesis Hm : (m <= 63)%nat.
  Let r := mkRd (blow m) key0 key0.

  Lemma blow_len : zlen (blow m) = 267 + 14 * Z.of_nat m.
  Proof.
    unfold blow, zlen, nulls. rewrite !app_length, !concat_repeat_len.
    change (length level) with 14%nat. change (length blow_head) with 12%nat. cbn [length]. lia.
  Qed.
  Let Hs : zlen (rd_buf r) < 2 ^ 31.
  Proof. change (rd_buf r) with (blow m). rewrite blow_len. pows. lia. Qed.
  Let Hk : forall j, byte (rd_ks r j).
  Proof. intro j. change (rd_ks r j) with 0. unfold byte. lia. Qed.

  Definition pos (j : nat) : Z := 13 + 14 * (Z.of_nat m - Z.of_nat j).

  Lemma level_at j : (S j <= m)%nat -> at_ (rd_buf r) (pos (S j)) (pos (S j) + 14) level.
  Proof.
    intro Hj. exists (blow_head ++ [127] ++ concat (repeat level (m - S j))), (concat (repeat level j) ++ nulls 127).
    split; [|split].
    - change (rd_buf r) with (blow m). unfold blow. replace m with ((m - S j) + (1 + j))%nat at 1 by lia.
      rewrite !concat_repeat_split. cbn [repeat concat]. rewrite app_nil_r, <- !app_assoc. reflexivity.
    - rewrite !app_length, concat_repeat_len. change (length level) with 14%nat. change (length blow_head) with 12%nat.
      cbn [length]. unfold pos. lia.
    - reflexivity.
  Qed.
  Lemma null_at i : (i < 127)%nat -> at_ (rd_buf r) (pos 0 + 2 * Z.of_nat i) (pos 0 + 2 * Z.of_nat i + 2) [2; 0].
  Proof.
    intro Hi. exists (blow_head ++ [127] ++ concat (repeat level m) ++ nulls i), (nulls (126 - i)).
    split; [|split].
    - change (rd_buf r) with (blow m). unfold blow, nulls. replace 127%nat with (i + (1 + (126 - i)))%nat by lia.
      rewrite !concat_repeat_split. change (concat (repeat [2; 0] 1)) with [2; 0]. rewrite <- !app_assoc. reflexivity.
    - unfold nulls. rewrite !app_length, !concat_repeat_len. change (length level) with 14%nat. change (length blow_head) with 12%nat.
      cbn [length]. unfold pos. lia.
    - reflexivity.
  Qed.
  Lemma prop_at : at_ (rd_buf r) 1 10 (enc_str key0 (codes "Property")).
  Proof. exists [0x73], ([0; 0] ++ [127] ++ concat (repeat level m) ++ nulls 127). repeat split. Qed.

  Lemma anon p q : at_ (rd_buf r) p q [2] -> read_wz_string_block r 0 p = (Ok [], p + 1).
  Proof.
    intro H. destruct (at_u8 r Hs _ _ 2 ltac:(lia) H) as [E ->]. unfold read_wz_string_block. step E. reflexivity.
  Qed.

  Lemma tail_parse : forall n i, (i + n <= 127)%nat -> exists kids, list_size kids = Z.of_nat n /\
    forall f, (n + 1 <= f)%nat -> p_entries r 0 f (Z.of_nat n) (pos 0 + 2 * Z.of_nat i) = (Ok (kids, []), pos 0 + 2 * Z.of_nat (i + n)).
  Proof.
    induction n as [|n IH]; intros i Hi.
    - exists []. split; [reflexivity|]. intros f Hf. destruct f; [lia|]. cbn [p_entries]. rewrite Nat.add_0_r. reflexivity.
    - destruct (IH (S i) ltac:(lia)) as (kids & Sz & P). exists (([], Node ONull []) :: kids). split.
      { cbn [list_size fold_right snd tree_size]. fold (list_size kids). lia. }
      intros f Hf. destruct f as [|k]; [lia|]. cbn [p_entries]. replace (Z.of_nat (S n) <=? 0) with false by lia.
      pose proof (null_at i ltac:(lia)) as A. apply at_cons in A as [A1 A2].
      step (anon _ _ A1). destruct (at_u8 r Hs _ _ 0 ltac:(lia) A2) as [E _]. step E.
      destruct k as [|k]; [lia|].
      assert (N : p_node r 0 (S k) [] 0 (pos 0 + 2 * Z.of_nat i + 2) = (Ok ([], Node ONull [], []), pos 0 + 2 * Z.of_nat i + 2)) by reflexivity.
      step N. replace (Z.of_nat (S n) - 1) with (Z.of_nat n) by lia.
      replace (pos 0 + 2 * Z.of_nat i + 2) with (pos 0 + 2 * Z.of_nat (S i)) by lia.
      step (P (S k) ltac:(lia)). replace (i + S n)%nat with (S i + n)%nat by lia. reflexivity.
  Qed.

  Lemma levels_parse : forall j n, (j <= m)%nat -> 2 * Z.of_nat j + 1 <= n <= 127 ->
    exists f0 kids us q, 2 ^ Z.of_nat j <= list_size kids /\
      forall f, (f0 <= f)%nat -> p_entries r 0 f n (pos j) = (Ok (kids, us), q).
  Proof.
    induction j as [|j IH]; intros n Hj Hn.
    - destruct (tail_parse (Z.to_nat n) 0 ltac:(lia)) as (kids & Sz & P).
      exists (Z.to_nat n + 1)%nat, kids, [], (pos 0 + 2 * Z.of_nat (0 + Z.to_nat n)). split; [cbn; lia|].
      intros f Hf. specialize (P f Hf). rewrite Z2Nat.id in P by lia. rewrite Z.add_0_r in P. exact P.
    - destruct (IH 127 ltac:(lia) ltac:(lia)) as (f1 & k1 & u1 & q1 & S1 & P1).
      destruct (IH (n - 2) ltac:(lia) ltac:(lia)) as (f2 & k2 & u2 & q2 & S2 & P2).
      exists (f1 + f2 + 5)%nat, (([], Node OSub k1) :: (codes "Property", Node (OShort 32512) []) :: k2), (under [] u1 ++ [] ++ u2), q2.
      split.
      { cbn [list_size fold_right snd tree_size]. fold (list_size k1). fold (list_size k2).
        rewrite Nat2Z.inj_succ, Z.pow_succ_r by lia. lia. }
      intros f Hf. pose proof (level_at j ltac:(lia)) as A. set (p := pos (S j)) in *.
      assert (Pp : p + 14 = pos j) by (subst p; unfold pos; lia).
      assert (R0 : 13 <= p /\ p + 14 <= zlen (rd_buf r)) by (split; [subst p; unfold pos; lia|apply at_range in A; lia]).
      unfold level in A. cbn [app] in A.
      apply at_cons in A as [A0 A]. apply at_cons in A as [A1 A].
      change [0; 0; 0; 0; 27; 1; 0; 0; 0; 2; 0; 127] with (enc_le 4 0 ++ (27 :: enc_le 4 1 ++ [2] ++ enc_le 2 32512)) in A.
      apply at_split in A as [A2 A]. rewrite zlen_enc_le in *. change (Z.of_nat 4) with 4 in *.
      apply at_cons in A as [A3 A]. apply at_split in A as [A4 A]. rewrite zlen_enc_le in *. change (Z.of_nat 4) with 4 in *.
      apply at_split in A as [A5 A6]. change (zlen [2]) with 1 in *.
      replace (p + 1 + 1) with (p + 2) in * by lia. replace (p + 2 + 4) with (p + 6) in * by lia.
      replace (p + 6 + 1) with (p + 7) in * by lia. replace (p + 7 + 4) with (p + 11) in * by lia.
      replace (p + 11 + 1) with (p + 12) in * by lia.
      assert (BL : block_at (rd_buf r) (rd_ks r) 0 (p + 6) (p + 11) (codes "Property")).
      { refine (block_ref _ _ 0 _ _ _ 27 1 10 (or_intror eq_refl) _ _ _ _ prop_at).
        - apply lit_unicode; reflexivity.
        - lia.
        - replace (p + 6 + 1) with (p + 7) by lia. exact A3.
        - replace (p + 6 + 1) with (p + 7) by lia. exact A4. }
      pose proof (proj1 (at_block r Hs Hk _ _ _ _ BL)) as B1.
      destruct f as [|[|[|f]]]; try lia. remember (S (S f)) as F eqn:EF. cbn [p_entries]. replace (n <=? 0) with false by lia.
      step (anon _ _ A0). destruct (at_u8 r Hs _ _ 9 ltac:(lia) A1) as [E1 _]. step E1.
      assert (N1 : p_node r 0 F [] 9 (p + 2) = (Ok ([], Node OSub k1, under [] u1), p + 6)).
      { subst F. rewrite p_node_ext. destruct (at_u32 r Hs _ _ 0 ltac:(lia) A2) as [E2 _]. step E2. rewrite bind_pos.
        rewrite wrap_small by (pows; lia). unfold catch_unknown.
        assert (X : p_ext r 0 (S f) [] (p + 6 + 0) (p + 6) = (Ok ([], Node OSub k1, under [] u1), q1)).
        { cbn [p_ext]. step B1. lits. assert (K : skip 2 (p + 11) = (Ok tt, p + 13)) by (rewrite skip_ok by (pows; lia); f_equal; lia). step K.
          assert (I : read_wz_int r (p + 13) = (Ok 127, p + 14)).
          { apply at_wzint; [exact Hs|]. split; [lia|]. change (enc_le 2 32512) with ([0] ++ [127]) in A6. apply at_split in A6 as [_ A7].
            change (zlen [0]) with 1 in A7. replace (p + 12 + 1) with (p + 13) in A7 by lia. exact A7. }
          step I. step (reserve_ok 127 (p + 14) ltac:(lia)). rewrite Pp. step (P1 f ltac:(lia)). reflexivity. }
        rewrite X. f_equal. lia. }
      step N1. subst F. remember (S f) as F eqn:EF.
      assert (N2 : p_entries r 0 (S F) (n - 1) (p + 6) = (Ok ((codes "Property", Node (OShort 32512) []) :: k2, [] ++ u2), q2)).
      { cbn [p_entries]. replace (n - 1 <=? 0) with false by lia. step B1.
        destruct (at_u8 r Hs _ _ 2 ltac:(lia) A5) as [E5 _]. step E5.
        assert (N3 : p_node r 0 F (codes "Property") 2 (p + 12) = (Ok (codes "Property", Node (OShort 32512) [], []), p + 14)).
        { subst F. destruct (at_i16 r Hs _ _ 32512 ltac:(lia) A6) as [E6 _]. cbn [p_node]. cbv beta iota delta [Z.eqb Pos.eqb orb]. step E6. reflexivity. }
        step N3. replace (n - 1 - 1) with (n - 2) by lia. rewrite Pp. step (P2 F ltac:(lia)). reflexivity. }
      step N2. reflexivity.
  Qed.
End blow.

(** *** endless recursion *)
(** The string in the inner list has length -28, so the cursor goes back to the outer entry. *)
Definition endless : list Z :=
  0x73 :: enc_str key0 (codes "Property") ++ [0; 0; 1] ++
  [2; 9; 0; 0; 0; 0] ++ 0x73 :: enc_str key0 (codes "Property") ++ [0; 0; 2] ++
  [2; 8; 0; 128] ++ enc_le 4 (-27).

Definition r_endless := mkRd endless key0 key0.
Lemma endless_loop : forall f, fst (p_entries r_endless 0 f 1 13) = OutOfFuel.
Proof.
  assert (B1 : read_wz_string_block r_endless 0 13 = (Ok [], 14)) by (vm_compute; reflexivity).
  assert (B2 : read_u8 r_endless 14 = (Ok 9, 15)) by (vm_compute; reflexivity).
  assert (B3 : read_u32 r_endless 15 = (Ok 0, 19)) by (vm_compute; reflexivity).
  assert (B4 : read_wz_string_block r_endless 0 19 = (Ok (codes "Property"), 29)) by (vm_compute; reflexivity).
  assert (B5 : skip 2 29 = (Ok tt, 31)) by (vm_compute; reflexivity).
  assert (B6 : read_wz_int r_endless 31 = (Ok 2, 32)) by (vm_compute; reflexivity).
  assert (B7 : read_wz_string_block r_endless 0 32 = (Ok [], 33)) by (vm_compute; reflexivity).
  assert (B8 : read_u8 r_endless 33 = (Ok 8, 34)) by (vm_compute; reflexivity).
  assert (B9 : exists m, read_wz_string_block_meta r_endless 0 34 = (Ok m, 13)) by (eexists; vm_compute; reflexivity).
  destruct B9 as [m B9].
  generalize dependent r_endless. intros r B1 B2 B3 B4 B6 B7 B8 B9.
  assert (OOF : forall A B (x : R A) (g : A -> R B) p, fst (x p) = OutOfFuel -> fst (bind x g p) = OutOfFuel).
  { intros A B x g p H. unfold bind. destruct (x p) as [[]]; cbn [fst] in *; congruence. }
  assert (CT : forall x e p, fst (x p) = OutOfFuel -> fst (catch_unknown x e p) = OutOfFuel).
  { intros x e p H. unfold catch_unknown. destruct (x p) as [[]]; cbn [fst] in *; congruence. }
  intro f. induction f as [f IH] using lt_wf_ind.
  destruct f as [|f]; [reflexivity|]. cbn [p_entries]. change (1 <=? 0) with false. cbv iota.
  step B1. step B2. apply OOF.
  destruct f as [|f]; [reflexivity|]. change (fst (p_node r 0 (S f) [] 9 15) = OutOfFuel). rewrite p_node_ext. step B3. rewrite bind_pos. apply CT.
  destruct f as [|f]; [reflexivity|]. cbn [p_ext]. step B4. lits. step B5. step B6.
  assert (RS : reserve 2 32 = (Ok tt, 32)) by reflexivity. step RS. apply OOF.
  destruct f as [|f]; [reflexivity|]. change (fst (p_entries r 0 (S f) 2 32) = OutOfFuel). cbn [p_entries].
  change (2 <=? 0) with false. cbv iota. step B7. step B8.
  destruct f as [|f]; [reflexivity|].
  assert (N : p_node r 0 (S f) [] 8 34 = (Ok ([], Node (OStr m) [], []), 13)).
  { cbn [p_node]. cbv beta iota delta [Z.eqb Pos.eqb orb]. step B9. reflexivity. }
  step N. apply OOF. apply (IH (S f)). lia.
Qed.
