From Coq Require Import ZArith List Bool Lia ZifyBool ZifyNat.
From Verif.Model Require Import Base Utf Keys Reader.
From Verif.Spec Require Import Wire.
From Verif.Proofs Require Import BaseL.
Ltac Zify.zify_post_hook ::= Z.div_mod_to_equations.

Lemma enc_le_shift n v k :
  map (fun i => (v / 2 ^ (8 * Z.of_nat i)) mod 256) (seq k n)
  = le_bytes n (v / 2 ^ (8 * Z.of_nat k)).
Proof.
  revert k; induction n; intros; cbn [seq map le_bytes]; [reflexivity|].
  f_equal. rewrite IHn. f_equal.
  rewrite Z.div_div by (try apply Z.pow_nonzero; try apply pow2_pos; lia).
  f_equal. replace (8 * Z.of_nat (S k)) with (8 * Z.of_nat k + 8) by lia.
  rewrite Z.pow_add_r by lia. reflexivity.
Qed.

Lemma enc_le_eq n v : enc_le n v = le_bytes n v.
Proof. unfold enc_le. rewrite enc_le_shift. cbn [Z.of_nat Z.mul]. rewrite Z.div_1_r. reflexivity. Qed.

Lemma enc_le_length n v : length (enc_le n v) = n.
Proof. rewrite enc_le_eq. apply le_bytes_length. Qed.
Lemma zlen_enc_le n v : zlen (enc_le n v) = Z.of_nat n.
Proof. unfold zlen. rewrite enc_le_length. reflexivity. Qed.

Lemma read_at_app n pre l post :
  n = zlen l -> read_at n (pre ++ l ++ post) (zlen pre) = Ok (le_val l).
Proof. intros. unfold read_at. rewrite (slice_app _ l); auto; lia. Qed.

Lemma read_at_enc (n : nat) pre post v :
  read_at (Z.of_nat n) (pre ++ enc_le n v ++ post) (zlen pre) = Ok (wrap (8 * Z.of_nat n) v).
Proof. rewrite read_at_app by (rewrite zlen_enc_le; reflexivity).
  rewrite enc_le_eq, le_val_le_bytes. reflexivity. Qed.

Lemma nth_error_le_bytes n v i :
  (i < n)%nat -> nth_error (le_bytes n v) i = Some ((v / 2 ^ (8 * Z.of_nat i)) mod 256).
Proof.
  intros. rewrite <- enc_le_eq. unfold enc_le.
  rewrite nth_error_map, (nth_error_nth' _ O) by (rewrite seq_length; lia).
  rewrite seq_nth by lia. reflexivity.
Qed.

Lemma list_ext_nth_error {A} (a b : list A) :
  (forall i, nth_error a i = nth_error b i) -> a = b.
Proof.
  revert b; induction a; intros [|y b] H; auto.
  - specialize (H O); discriminate.
  - specialize (H O); discriminate.
  - f_equal; [specialize (H O); cbn in H; congruence|].
    apply IHa. intro i. exact (H (S i)).
Qed.

Lemma stored_at_unique buf pos n v w : stored_at buf pos n v -> stored_at buf pos n w -> v = w.
Proof.
  intros [Hv Hv'] [Hw Hw'].
  rewrite <- (wrap_small _ _ Hv), <- (wrap_small _ _ Hw).
  rewrite <- !le_val_le_bytes. f_equal.
  apply list_ext_nth_error; intro i. destruct (Nat.ltb_spec i n).
  - rewrite !nth_error_le_bytes by lia. rewrite <- Hv', <- Hw' by lia. reflexivity.
  - rewrite !(proj2 (nth_error_None _ _)) by (rewrite le_bytes_length; lia). reflexivity.
Qed.

Lemma read_at_sound (n : nat) buf pos v : bytes buf ->
  read_at (Z.of_nat n) buf pos = Ok v ->
  0 <= pos /\ pos + Z.of_nat n <= zlen buf /\ stored_at buf pos n v.
Proof.
  intros Hb. unfold read_at. destruct (slice buf pos (pos + Z.of_nat n)) eqn:E; [|discriminate].
  intro H; injection H as <-.
  pose proof (slice_bytes _ _ _ _ Hb E) as Hl.
  apply slice_some in E as (H1 & H2 & H3 & H4 & p & q & -> & H5).
  split; [lia|]. split; [lia|]. split.
  - replace (8 * Z.of_nat n) with (8 * zlen l) by lia. apply le_val_range; assumption.
  - intros. assert (length l = n) by (unfold zlen in *; lia).
    replace (Z.to_nat pos) with (length p) by (unfold zlen in *; lia).
    rewrite nth_error_app2 by lia. replace (length p + i - length p)%nat with i by lia.
    rewrite nth_error_app1 by lia.
    rewrite <- nth_error_le_bytes with (n := n) by lia.
    subst n. rewrite le_bytes_le_val by assumption. reflexivity.
Qed.

Lemma read_at_total (n : nat) buf pos :
  0 <= pos -> pos + Z.of_nat n <= zlen buf -> exists v, read_at (Z.of_nat n) buf pos = Ok v.
Proof.
  intros. unfold read_at.
  destruct (slice_total buf pos (pos + Z.of_nat n)) as (l & -> & _); try lia. eauto.
Qed.

Lemma read_at_oob (n : nat) buf pos :
  ~ (0 <= pos /\ pos + Z.of_nat n <= zlen buf) -> read_at (Z.of_nat n) buf pos = Err ERead.
Proof.
  intros. unfold read_at. destruct (slice buf pos (pos + Z.of_nat n)) eqn:E; [|reflexivity].
  apply slice_some in E. lia.
Qed.

(** Cursor reads on a buffer cut at the cursor. *)
Lemma cur_read_ok {A} n (f : list Z -> Z -> res A) r p v :
  f (rd_buf r) p = v -> 0 <= p + n < 2 ^ 64 -> cur_read n f r p = (v, p + n).
Proof. intros. unfold cur_read. rewrite H, wrap_small by lia. reflexivity. Qed.

Lemma bind_ok {A B} (m : R A) (f : A -> R B) p a q :
  m p = (Ok a, q) -> bind m f p = f a q.
Proof. intro H. unfold bind. rewrite H. reflexivity. Qed.

Definition fits (r : rd) : Prop := zlen (rd_buf r) < 2 ^ 63.

Lemma sext_of_wrap n v : 1 <= n -> sext n (wrap n v) = sext n v.
Proof. intros. unfold sext. rewrite wrap_wrap by lia. reflexivity. Qed.

Lemma wz_int_gen (n : nat) (f : list Z -> Z -> res Z) r pre post v :
  (n = 4 \/ n = 8)%nat ->
  f = (fun buf pos => rmap (sext (8 * Z.of_nat n)) (read_at (Z.of_nat n) buf pos)) ->
  - 2 ^ (8 * Z.of_nat n - 1) <= v < 2 ^ (8 * Z.of_nat n - 1) ->
  fits r -> rd_buf r = pre ++ enc_wzint n v ++ post ->
  (bind (read_i8 r) (fun s => if s =? -128 then cur_read (Z.of_nat n) f r else ret s)) (zlen pre)
  = (Ok v, zlen pre + zlen (enc_wzint n v)).
Proof.
  intros Hn Hf Hv Hfit Hbuf. unfold fits in Hfit. rewrite Hbuf in Hfit.
  rewrite !zlen_app in Hfit. unfold enc_wzint in *.
  pose proof (zlen_nonneg pre); pose proof (zlen_nonneg post).
  destruct ((-127 <=? v) && (v <=? 127)) eqn:E.
  - rewrite zlen_enc_le in *. change (Z.of_nat 1) with 1 in *.
    erewrite bind_ok.
    2:{ unfold read_i8. apply cur_read_ok; [|lia]. unfold read_i8_at.
        rewrite Hbuf. rewrite (read_at_enc 1). cbn [rmap rbind]. reflexivity. }
    change (8 * Z.of_nat 1) with 8. rewrite sext_wrap by lia.
    replace (v =? -128) with false by lia. reflexivity.
  - rewrite zlen_cons, zlen_enc_le in *.
    erewrite bind_ok.
    2:{ unfold read_i8. apply cur_read_ok; [|lia]. unfold read_i8_at.
        rewrite Hbuf. cbn [app]. change (128 :: enc_le n v ++ post) with ([128] ++ enc_le n v ++ post).
        rewrite read_at_app by reflexivity. cbn [rmap rbind le_val]. reflexivity. }
    change (sext 8 (128 + 256 * 0) =? -128) with true. cbn [app].
    unfold cur_read. rewrite Hbuf, Hf.
    replace (pre ++ (128 :: enc_le n v) ++ post) with ((pre ++ [128]) ++ enc_le n v ++ post)
      by (rewrite <- app_assoc; reflexivity).
    replace (zlen pre + 1) with (zlen (pre ++ [128])) by (rewrite zlen_app; reflexivity).
    rewrite read_at_enc. cbn [rmap rbind]. rewrite zlen_app. change (zlen [128]) with 1.
    rewrite (wrap_small 64) by lia.
    rewrite sext_wrap by lia. f_equal. lia.
Qed.
