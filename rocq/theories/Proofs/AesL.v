(** AES-256 gives 16 bytes for 16 bytes: the assumption about block ciphers can be met. *)
From Coq Require Import ZArith List Bool Lia Arith.
From Verif.Model Require Import Base.
From Verif.Spec Require Import Stream Aes.
From Verif.Proofs Require Import BaseL.
Ltac Zify.zify_post_hook ::= idtac.

Lemma xtime_byte a : byte a -> byte (xtime a).
Proof.
  unfold xtime, byte. intros H. destruct (Z.ltb_spec a 128); [lia|].
  assert (E : forall k, (k < 128)%nat -> 0 <= Z.lxor (2 * (128 + Z.of_nat k)) 0x11B < 256).
  { intros k Hk. do 128 (destruct k as [|k]; [cbn; lia|]). lia. }
  specialize (E (Z.to_nat (a - 128)) ltac:(lia)). replace (128 + Z.of_nat (Z.to_nat (a - 128))) with a in E by lia. exact E.
Qed.
Lemma gmul_byte n : forall a b, byte a -> byte (gmul_ n a b).
Proof.
  induction n as [|n IH]; intros a b H; [split; reflexivity|]. cbn [gmul_].
  apply byte_lxor; [destruct (Z.odd b); [exact H|split; reflexivity]|]. apply IH, xtime_byte, H.
Qed.
Lemma gmul_b a b : byte a -> byte (gmul a b).
Proof. apply gmul_byte. Qed.
Lemma sub_byte a : byte (sub a).
Proof.
  assert (F : Forall byte sbox_table).
  { apply Forall_forall. assert (B : forallb (fun x => (0 <=? x) && (x <? 256)) sbox_table = true) by (vm_compute; reflexivity).
    rewrite forallb_forall in B. intros x Hx. apply B, andb_true_iff in Hx as [? ?]. unfold byte. lia. }
  unfold sub. destruct (nth_in_or_default (Z.to_nat a) sbox_table 0) as [I|E].
  - rewrite Forall_forall in F. apply F, I.
  - rewrite E. split; reflexivity.
Qed.

Definition blk (l : list Z) : Prop := length l = 16%nat /\ Forall byte l.
Lemma xor_word_len a b : length (xor_word a b) = Nat.min (length a) (length b).
Proof. unfold xor_word. rewrite map_length. apply combine_length. Qed.
Lemma xor_word_bytes a : forall b, Forall byte a -> Forall byte b -> Forall byte (xor_word a b).
Proof.
  unfold xor_word. induction a as [|x a IH]; intros b Ha Hb; [constructor|]. destruct b as [|y b]; [constructor|].
  inversion_clear Ha. inversion_clear Hb. cbn. constructor; [apply byte_lxor; assumption|apply IH; assumption].
Qed.
Lemma xor_blk a b : blk a -> blk b -> blk (xor_word a b).
Proof. intros [? ?] [? ?]. split; [rewrite xor_word_len; lia|apply xor_word_bytes; assumption]. Qed.
Lemma sub_blk s : length s = 16%nat -> blk (map sub s).
Proof.
  intros H. split; [rewrite map_length; exact H|]. clear H. induction s; constructor; [apply sub_byte|assumption].
Qed.
Lemma shift_blk s : blk s -> blk (shift_rows s).
Proof.
  intros [L F]. split; [reflexivity|]. apply Forall_forall. intros x H. apply in_map_iff in H as (i & <- & _).
  destruct (nth_in_or_default ((i + 4 * (i mod 4)) mod 16) s 0) as [I|E].
  - rewrite Forall_forall in F. apply F, I.
  - rewrite E. split; reflexivity.
Qed.
Lemma mix_blk s : blk s -> blk (mix_columns s).
Proof.
  intros [L F]. unfold mix_columns.
  do 16 (destruct s as [|? s]; [discriminate L|]). destruct s; [|discriminate L].
  repeat match goal with H : Forall byte (_ :: _) |- _ => inversion_clear H end.
  cbn [words flat_map mix_column map app]. split; [reflexivity|].
  repeat (apply Forall_cons; [apply byte_lxor; apply byte_lxor; try apply byte_lxor; try apply xtime_byte; assumption|]). constructor.
Qed.
Lemma round_blk s k : blk s -> blk k -> blk (round s k).
Proof. intros [L _] K. apply xor_blk; [|exact K]. apply mix_blk, shift_blk, sub_blk, L. Qed.

Definition word (w : list Z) : Prop := length w = 4%nat /\ Forall byte w.
Lemma rcon_byte i : byte (rcon i).
Proof. unfold rcon. generalize (i - 1)%nat as n. induction n; [split; [discriminate|reflexivity]|]. cbn. apply xtime_byte, IHn. Qed.
Lemma xor_w a b : word a -> word b -> word (xor_word a b).
Proof. intros [? ?] [? ?]. split; [rewrite xor_word_len; lia|apply xor_word_bytes; assumption]. Qed.
Lemma sub_w w : length w = 4%nat -> word (sub_word w).
Proof.
  intros H. split; [unfold sub_word; rewrite map_length; exact H|]. unfold sub_word. clear H.
  induction w; constructor; [apply sub_byte|assumption].
Qed.
Lemma expand_words n : forall i ws, (8 <= length ws)%nat -> Forall word ws ->
  Forall word (expand n i ws) /\ length (expand n i ws) = (n + length ws)%nat.
Proof.
  induction n as [|n IH]; intros i ws L F; [auto|]. cbn [expand].
  assert (W : forall k, (k < 8)%nat -> word (nth k ws [])).
  { intros k Hk. rewrite Forall_forall in F. apply F, nth_In. lia. }
  destruct (IH (S i) (xor_word (nth 7 ws [])
    (if Nat.eqb (i mod 8) 0 then xor_word (sub_word (rot_word (nth 0 ws []))) [rcon (i / 8); 0; 0; 0]
     else if Nat.eqb (i mod 8) 4 then sub_word (nth 0 ws []) else nth 0 ws []) :: ws)) as [A B].
  - cbn [length]. lia.
  - constructor; [|exact F]. apply xor_w; [apply W; lia|].
    pose proof (W 0%nat ltac:(lia)) as W0. destruct (Nat.eqb (i mod 8) 0); [|destruct (Nat.eqb (i mod 8) 4); [|exact W0]].
    + apply xor_w; [|split; [reflexivity|]; repeat (apply Forall_cons; [first [apply rcon_byte|split; reflexivity]|]); constructor].
      apply sub_w. destruct W0 as [W0 _]. destruct (nth 0 ws []) as [|a [|b [|c [|d [|]]]]]; try discriminate W0. reflexivity.
    + apply sub_w, W0.
  - split; [exact A|]. rewrite B. cbn [length]. lia.
Qed.
Lemma round_keys_blk key : length key = 32%nat -> Forall byte key ->
  length (round_keys key) = 15%nat /\ Forall blk (round_keys key).
Proof.
  intros L F. unfold round_keys. split; [reflexivity|].
  assert (W : Forall word (words key) /\ length (words key) = 8%nat).
  { do 32 (destruct key as [|? key]; [discriminate L|]). destruct key; [|discriminate L].
    repeat match goal with H : Forall byte (_ :: _) |- _ => inversion_clear H end.
    cbn [words]. split; [|reflexivity]. repeat (apply Forall_cons; [split; [reflexivity|]; repeat (apply Forall_cons; [assumption|]); apply Forall_nil|]). apply Forall_nil. }
  destruct W as [W W8].
  destruct (expand_words 52 8 (rev (words key))) as [E EL]; [rewrite rev_length; lia|apply Forall_rev; exact W|].
  rewrite rev_length, W8 in EL. apply Forall_rev in E. rewrite <- rev_length in EL.
  set (ws := rev (expand 52 8 (rev (words key)))) in *. clearbody ws. change (52 + 8)%nat with 60%nat in EL.
  apply Forall_forall. intros k H. apply in_map_iff in H as (i & <- & Hi). apply in_seq in Hi.
  assert (F4 : Forall word (firstn 4 (skipn (4 * i) ws)) /\ length (firstn 4 (skipn (4 * i) ws)) = 4%nat).
  { split.
    - rewrite Forall_forall in *. intros x Hx. apply E. rewrite <- (firstn_skipn (4 * i) ws).
      apply in_or_app. right. rewrite <- (firstn_skipn 4 (skipn (4 * i) ws)). apply in_or_app. left. exact Hx.
    - rewrite firstn_length, skipn_length. lia. }
  destruct F4 as [F4 L4]. destruct (firstn 4 (skipn (4 * i) ws)) as [|a [|b [|c [|d [|]]]]]; try discriminate L4.
  inversion_clear F4 as [|? ? [Wa Fa] F3]. inversion_clear F3 as [|? ? [Wb Fb] F2].
  inversion_clear F2 as [|? ? [Wc Fc] F1]. inversion_clear F1 as [|? ? [Wd Fd] _].
  cbn [concat]. split; [rewrite !app_length; cbn [length]; lia|]. rewrite !Forall_app. repeat split; auto.
Qed.

Theorem aes256_block_cipher key : length key = 32%nat -> Forall byte key -> block_cipher (aes256 key).
Proof.
  intros L F b Lb Fb. destruct (round_keys_blk key L F) as [Lk Fk]. unfold aes256.
  change (blk (xor_word (shift_rows (map sub (fold_left round (firstn 13 (tl (round_keys key)))
    (xor_word b (hd [] (round_keys key)))))) (nth 14 (round_keys key) []))).
  set (ks := round_keys key) in *. clearbody ks.
  assert (K : forall k, (k < 15)%nat -> blk (nth k ks [])).
  { intros k Hk. rewrite Forall_forall in Fk. apply Fk, nth_In. lia. }
  apply xor_blk; [|apply K; lia]. apply shift_blk, sub_blk.
  assert (G : forall l s, Forall blk l -> blk s -> blk (fold_left round l s)).
  { induction l as [|k l IH]; intros s Hl Hs; [exact Hs|]. inversion_clear Hl. cbn. apply IH; [assumption|].
    apply round_blk; assumption. }
  apply G.
  - rewrite Forall_forall in *. intros x Hx. apply Fk. destruct ks as [|k ks]; [destruct Hx|]. right. cbn in Hx.
    rewrite <- (firstn_skipn 13 ks). apply in_or_app. left. exact Hx.
  - apply xor_blk; [split; assumption|]. specialize (K 0%nat ltac:(lia)). destruct ks; exact K.
Qed.
