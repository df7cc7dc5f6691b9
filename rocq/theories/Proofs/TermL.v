(** Termination of the property parser. *)
From Coq Require Import ZArith List Bool Lia ZifyBool ZifyNat.
From Coq Require String.
From Verif.Model Require Import Base Utf Keys Reader WzStr VersionPkg1 Image.
From Verif.Proofs Require Import BaseL WireL ReaderL AtL ImageL ParseL ScanL.
Import String.StringSyntax.
Ltac Zify.zify_post_hook ::= idtac.

(** never out of fuel *)
Definition tot {A} (m : R A) : Prop := forall p, fst (m p) <> OutOfFuel.
Lemma tot_bind {A B} (m : R A) (f : A -> R B) : tot m -> (forall a, tot (f a)) -> tot (bind m f).
Proof. intros H1 H2 p. unfold bind. specialize (H1 p). destruct (m p) as [[a| | |] q]; try discriminate; [apply H2|contradiction]. Qed.
Lemma tot_if {A} (b : bool) (m n : R A) : tot m -> tot n -> tot (if b then m else n).
Proof. destruct b; auto. Qed.
Lemma tot_ret {A} (a : A) : tot (ret a). Proof. discriminate. Qed.
Lemma tot_fail {A} e : tot (@fail A e). Proof. discriminate. Qed.
Lemma tot_pos : tot get_pos. Proof. discriminate. Qed.
Lemma tot_skip n : tot (skip n). Proof. discriminate. Qed.
Lemma tot_panic {A} : tot (@panic A). Proof. discriminate. Qed.
Lemma tot_reserve n : tot (reserve n). Proof. unfold reserve. apply tot_if; discriminate. Qed.
Lemma tot_cur n r : tot (cur_read n (read_at n) r).
Proof. intro p. unfold cur_read, read_at. cbn [fst]. destruct (slice _ _ _); discriminate. Qed.
Lemma tot_curm {B} n (g : Z -> B) r : tot (cur_read n (fun b p => rmap g (read_at n b p)) r).
Proof. intro p. unfold cur_read, read_at. cbn [fst]. destruct (slice _ _ _); discriminate. Qed.
Lemma tot_wzint r : tot (read_wz_int r).
Proof. apply tot_bind; [apply (tot_curm 1 (sext 8))|intro]. apply tot_if; [apply (tot_curm 4 (sext 32))|apply tot_ret]. Qed.
Lemma tot_wzint64 r : tot (read_wz_int64 r).
Proof. apply tot_bind; [apply (tot_curm 1 (sext 8))|intro]. apply tot_if; [apply (tot_curm 8 (sext 64))|apply tot_ret]. Qed.
Lemma tot_lift {A} (x : res A) : x <> OutOfFuel -> tot (lift x).
Proof. intros H p. exact H. Qed.
Lemma chunks_tot x : chunks_u16 x <> OutOfFuel.
Proof.
  induction x as [| |a b x IH] using list_ind2; cbn [chunks_u16]; try discriminate.
  unfold rmap, rbind. destruct (chunks_u16 x); try discriminate. contradiction.
Qed.
Lemma resolve_tot r t o l : resolve_meta r t o l <> OutOfFuel.
Proof.
  destruct t; cbn [resolve_meta]; try discriminate;
    unfold resolve_ascii_raw, resolve_unicode_raw, resolve_pkg2_dir_raw, get_decrypt_slice, get_pkg2_decrypt_slice, rmap, rbind;
    (destruct (slice (rd_buf r) o (wrap 64 (o + l))) as [d|]; [|discriminate]); try discriminate.
  - pose proof (chunks_tot (xor_ks (rd_ks r) 0 d)). destruct (chunks_u16 _); try discriminate. contradiction.
  - pose proof (chunks_tot (xor_ks (rd_pks r) 0 d)). destruct (chunks_u16 _); try discriminate. contradiction.
Qed.
Lemma tot_str r : tot (read_wz_string r).
Proof.
  apply tot_bind; [apply (tot_curm 1 (sext 8))|intro sl].
  assert (A : tot (read_ascii_string r sl)).
  { apply tot_bind; [apply tot_if; [apply (tot_curm 4 (sext 32))|apply tot_ret]|intro].
    apply tot_if; [apply tot_ret|]. apply tot_bind; [apply tot_pos|intro].
    apply tot_bind; [apply tot_lift, resolve_tot|intro].
    apply tot_bind; [apply tot_skip|intro; apply tot_ret]. }
  destruct (string_type sl); try exact A; [|apply tot_ret].
  apply tot_bind; [apply tot_if; [apply (tot_curm 4 (sext 32))|apply tot_ret]|intro].
  apply tot_if; [apply tot_ret|]. apply tot_bind; [apply tot_pos|intro].
  apply tot_bind; [apply tot_lift, resolve_tot|intro].
  apply tot_bind; [apply tot_skip|intro; apply tot_ret].
Qed.
Lemma tot_meta r : tot (read_wz_string_meta r).
Proof.
  apply tot_bind; [apply (tot_curm 1 (sext 8))|intro sl].
  destruct (string_type sl); try apply tot_ret; apply tot_if;
    repeat first [apply tot_pos | apply tot_skip | apply tot_ret | apply (tot_curm 4 (sext 32)) | apply tot_bind; [|intro]].
Qed.
Lemma tot_atoff {A} off (m : R A) : tot m -> tot (at_offset off m).
Proof. intros H p. apply H. Qed.
Lemma tot_block r o : tot (read_wz_string_block r o).
Proof.
  apply tot_bind; [apply (tot_cur 1)|intro t]. apply tot_if; [apply tot_str|].
  apply tot_if; [|apply tot_ret]. apply tot_bind; [apply (tot_curm 4 (sext 32))|intro].
  apply tot_atoff, tot_str.
Qed.
Lemma tot_blockmeta r o : tot (read_wz_string_block_meta r o).
Proof.
  apply tot_bind; [apply (tot_cur 1)|intro t]. apply tot_if; [apply tot_meta|].
  apply tot_if; [|apply tot_ret]. apply tot_bind; [apply (tot_curm 4 (sext 32))|intro].
  apply tot_atoff, tot_meta.
Qed.
Ltac tt_ := repeat first
  [ apply tot_if | apply tot_ret | apply tot_pos | apply tot_skip
  | apply tot_reserve | apply tot_wzint | apply tot_wzint64 | apply tot_block | apply tot_blockmeta
  | apply tot_panic | apply tot_fail
  | apply (tot_cur 1) | apply (tot_cur 2) | apply (tot_cur 4) | apply (tot_cur 8)
  | apply (tot_curm 1 (sext 8)) | apply (tot_curm 2 (sext 16)) | apply (tot_curm 4 (sext 32))
  | assumption | apply tot_bind; [|intro] ].
Lemma tot_canvas r : tot (p_canvas_tail r). Proof. unfold p_canvas_tail. tt_. Qed.
Lemma tot_sound r b : tot (p_sound r b).
Proof.
  unfold p_sound. tt_. cbv zeta. tt_. destruct (slice _ _ _) as [h|]; [|apply tot_panic]. tt_.
  apply tot_lift. unfold sound_type_of, frequency_header, rbind.
  destruct (zlen h <=? 0x3c); [discriminate|]. destruct (read_i32_at h 0x38); discriminate.
Qed.

Lemma catch_tot m e p : fst (m p) <> OutOfFuel -> fst (catch_unknown m e p) <> OutOfFuel.
Proof. unfold catch_unknown. destruct (m p) as [[?|[]| |] ?]; cbn [fst]; congruence. Qed.

Section termination.
  Variable r : rd.
  Variable origin : Z.
  Hypothesis Hb : bytes (rd_buf r).
  Hypothesis Hs : zlen (rd_buf r) < 2 ^ 31.
  Let len := zlen (rd_buf r).
  (** strings do not move the cursor backwards *)
  Hypothesis Hback : forall p v, read_i8_at (rd_buf r) p = Ok (-128) -> read_i32_at (rd_buf r) (p + 1) = Ok v -> 0 <= v.

  Lemma cur_moves {A} n (f : list Z -> Z -> res A) p a q :
    (forall b p a, f b p = Ok a -> 0 <= p /\ p + n <= zlen b) -> 0 <= n ->
    cur_read n f r p = (Ok a, q) -> 0 <= p /\ q = p + n /\ q <= len.
  Proof.
    intros Hf Hn E. apply cur_read_inv in E as [E ->]. apply Hf in E. fold len in E.
    rewrite wrap_small; [lia|]. subst len. pows; lia.
  Qed.
  Lemma ru n : 0 <= n -> forall b p a, read_at n b p = Ok a -> 0 <= p /\ p + n <= zlen b.
  Proof. intros Hn b p a E. rewrite <- (Z2Nat.id n) in * by lia. apply read_at_range in E. exact E. Qed.
  Lemma rm {B} n (g : Z -> B) : 0 <= n -> forall b p a, rmap g (read_at n b p) = Ok a -> 0 <= p /\ p + n <= zlen b.
  Proof.
    intros Hn b p a E. unfold rmap, rbind in E. destruct (read_at n b p) eqn:F; try discriminate.
    apply (ru n Hn _ _ _ F).
  Qed.
  Lemma u8_moves p a q : read_u8 r p = (Ok a, q) -> 0 <= p /\ q = p + 1 /\ q <= len.
  Proof. apply (cur_moves 1 (read_at 1)); [apply ru|]; lia. Qed.
  Lemma u32_moves p a q : read_u32 r p = (Ok a, q) -> (0 <= p /\ q = p + 4 /\ q <= len) /\ 0 <= a < 2 ^ 32.
  Proof.
    intro H. split; [revert H; apply (cur_moves 4 (read_at 4)); [apply ru|]; lia|].
    apply cur_read_inv in H as [H _]. apply (read_at_sound 4) in H as (_ & _ & [H _]); [|exact Hb]. exact H.
  Qed.
  Lemma i8_moves p a q : read_i8 r p = (Ok a, q) -> 0 <= p /\ q = p + 1 /\ q <= len.
  Proof. apply (cur_moves 1 read_i8_at); [apply (rm 1 (sext 8))|]; lia. Qed.
  Lemma i32_moves p a q : read_i32 r p = (Ok a, q) -> 0 <= p /\ q = p + 4 /\ q <= len.
  Proof. apply (cur_moves 4 read_i32_at); [apply (rm 4 (sext 32))|]; lia. Qed.

  Lemma wzint_moves p a q : read_wz_int r p = (Ok a, q) -> 0 <= p /\ p + 1 <= q <= len.
  Proof.
    intro H. apply bind_inv in H as (s & p1 & H1 & H). apply i8_moves in H1.
    destruct (s =? -128); [apply i32_moves in H|apply ret_inv in H]; lia.
  Qed.
  Lemma wzint64_moves p a q : read_wz_int64 r p = (Ok a, q) -> 0 <= p /\ p + 1 <= q <= len.
  Proof.
    intro H. apply bind_inv in H as (s & p1 & H1 & H). apply i8_moves in H1.
    destruct (s =? -128); [|apply ret_inv in H; lia].
    apply (cur_moves 8 read_i64_at) in H; [lia|apply (rm 8 (sext 64)); lia|lia].
  Qed.

  Lemma meta_moves p m q : read_wz_string_meta r p = (Ok m, q) -> 0 <= p /\ p + 1 <= q <= len + 2 ^ 32.
  Proof.
    intro H. apply bind_inv in H as (sl & p1 & H1 & H).
    pose proof (read_i8_ok _ _ _ _ H1) as (_ & _ & R & _).
    pose proof (proj1 (cur_read_inv _ _ _ _ _ _ H1)) as B.
    apply i8_moves in H1 as (A1 & A2 & A3). assert (L : len < 2 ^ 31) by exact Hs.
    assert (SK : forall n x p q, 0 <= n < 2 ^ 32 -> 0 <= p <= len -> bind (skip n) (fun _ => ret x) p = (Ok m, q) -> q = p + n).
    { intros n x p' q' Hn Hp E. unfold bind, skip, ret in E. injection E as _ <-. apply wrap_small. pows; lia. }
    unfold string_type in H. destruct (sl =? 0). { apply ret_inv in H. pows; lia. }
    destruct (Z.ltb_spec 0 sl).
    - destruct (sl =? 127).
      + apply bind_inv in H as (n & p2 & H2 & H). apply i32_moves in H2. cbv zeta in H. rewrite bind_pos in H.
        pose proof (wrap_range 32 (wrap 32 n * 2) ltac:(lia)).
        apply SK in H; pows; lia.
      + cbv zeta in H. rewrite bind_pos in H. apply SK in H; pows; lia.
    - destruct (Z.eqb_spec sl (-128)) as [->|].
      + apply bind_inv in H as (n & p2 & H2 & H). subst p1.
        pose proof (read_i32_ok _ _ _ _ H2) as (_ & _ & R2 & _).
        pose proof (Hback p n B (proj1 (cur_read_inv _ _ _ _ _ _ H2))).
        apply i32_moves in H2. rewrite bind_pos in H. rewrite (wrap_small 64) in H by (pows; lia).
        apply SK in H; pows; lia.
      + cbv zeta in H. rewrite bind_pos in H. apply SK in H; pows; lia.
  Qed.
  Lemma blockmeta_moves p m q : read_wz_string_block_meta r origin p = (Ok m, q) -> 0 <= p /\ p + 1 <= q <= len + 2 ^ 32.
  Proof.
    intro H. apply bind_inv in H as (t & p1 & H1 & H). apply u8_moves in H1. assert (L : len < 2 ^ 31) by exact Hs.
    destruct ((t =? 0) || (t =? 0x73)). { apply meta_moves in H. lia. }
    destruct ((t =? 1) || (t =? 0x1B)); [|apply ret_inv in H; pows; lia].
    apply bind_inv in H as (a & p2 & H2 & H). apply i32_moves in H2.
    unfold read_wz_string_meta_at, at_offset in H. injection H as _ <-. pows; lia.
  Qed.
  Lemma block_moves p s q : read_wz_string_block r origin p = (Ok s, q) -> 0 <= p < len /\ p + 1 <= q <= len + 2 ^ 32.
  Proof.
    intro H. pose proof H as H'. apply bind_inv in H' as (t & p1 & H1 & _). apply u8_moves in H1.
    apply lazy_eager_block in H as (m & M & _); [|exact Hs]. apply blockmeta_moves in M. lia.
  Qed.

  Let d (p : Z) := Z.max 0 (len - p).
  Let HI := len + 2 ^ 34.

  (** With fuel proportional to the bytes left the parser returns, never having moved backwards. *)
  Definition okfrom {A} (lo : Z) (m : R A) (p : Z) : Prop :=
    fst (m p) <> OutOfFuel /\ forall a q, m p = (Ok a, q) -> lo <= q <= len + 2 ^ 33.
  Lemma okf_bind {A B} lo (m : R A) (f : A -> R B) p :
    fst (m p) <> OutOfFuel -> (forall a q, m p = (Ok a, q) -> okfrom lo (f a) q) -> okfrom lo (bind m f) p.
  Proof.
    intros T H. unfold okfrom, bind. destruct (m p) as [[a|e| |] q]; cbn [fst] in *; try (split; discriminate).
    - apply (H a q eq_refl).
    - contradiction.
  Qed.
  Lemma okf_ret {A} lo (a : A) p : lo <= p <= len + 2 ^ 33 -> okfrom lo (ret a) p.
  Proof. intro H. split; [discriminate|]. intros b q E. injection E as _ <-. exact H. Qed.
  Lemma okf_if {A} lo (b : bool) (m n : R A) p : okfrom lo m p -> okfrom lo n p -> okfrom lo (if b then m else n) p.
  Proof. destruct b; auto. Qed.
  Lemma okf_fail {A} lo e p : okfrom lo (@fail A e) p. Proof. split; discriminate. Qed.
  Lemma okf_skip {B} lo n (f : unit -> R B) p : 0 <= p + n < 2 ^ 64 -> okfrom lo (f tt) (p + n) -> okfrom lo (bind (skip n) f) p.
  Proof. intros H1 H2. apply okf_bind; [discriminate|]. intros [] q E. injection E as <-. rewrite wrap_small by exact H1. exact H2. Qed.
  Lemma okf_reserve {B} lo n (f : unit -> R B) p : (0 <= n -> okfrom lo (f tt) p) -> okfrom lo (bind (reserve n) f) p.
  Proof.
    intros H. apply okf_bind; [apply tot_reserve|]. intros [] q E. unfold reserve in E.
    destruct (Z.ltb_spec n 0); [discriminate|]. apply ret_inv in E as [_ <-]. auto.
  Qed.
  Lemma okf_pos {B} lo (f : Z -> R B) p : okfrom lo (f p) p -> okfrom lo (bind get_pos f) p.
  Proof. auto. Qed.

  Lemma canvas_moves p x q : p_canvas_tail r p = (Ok x, q) -> p <= q <= len.
  Proof.
    assert (L : len < 2 ^ 31) by exact Hs.
    intro H. unfold p_canvas_tail in H.
    apply bind_inv in H as (a1 & p1 & E1 & H). apply wzint_moves in E1.
    apply bind_inv in H as (a2 & p2 & E2 & H). apply wzint_moves in E2.
    apply bind_inv in H as (a3 & p3 & E3 & H). apply wzint_moves in E3.
    apply bind_inv in H as (a4 & p4 & E4 & H). apply i8_moves in E4.
    apply bind_inv in H as (a5 & p5 & E5 & H). apply wzint_moves in E5.
    apply bind_inv in H as (a6 & p6 & E6 & H). apply wzint_moves in E6.
    apply bind_inv in H as (a7 & p7 & E7 & H). rewrite skip_ok in E7 by (pows; lia). injection E7 as _ <-.
    apply bind_inv in H as (a8 & p8 & E8 & H). apply i32_moves in E8.
    apply bind_inv in H as (a9 & p9 & E9 & H). rewrite skip_ok in E9 by (pows; lia). injection E9 as _ <-.
    rewrite bind_pos in H. apply bind_inv in H as (b & p10 & E10 & H).
    apply (cur_moves 2 (read_at 2)) in E10; [|apply ru; lia|lia]. apply ret_inv in H. lia.
  Qed.
  Lemma sound_moves b p x q : 0 <= p <= HI -> p_sound r b p = (Ok x, q) -> p <= q <= len.
  Proof.
    assert (L : len < 2 ^ 31) by exact Hs. subst HI.
    intros Hp H. unfold p_sound in H. apply bind_inv in H as (a0 & p0 & E0 & H). rewrite skip_ok in E0 by (pows; lia). injection E0 as _ <-.
    apply bind_inv in H as (a1 & p1 & E1 & H). apply wzint_moves in E1.
    apply bind_inv in H as (a2 & p2 & E2 & H). apply wzint_moves in E2.
    cbv zeta in H. rewrite bind_pos in H. destruct (slice _ _ _); [|discriminate].
    apply bind_inv in H as (a3 & p3 & E3 & H). injection E3 as _ <-. apply ret_inv in H. lia.
  Qed.

  Lemma sub_list {B} lo k p (g : list (text * node) * list (list text) -> R B) :
    (forall n p1, read_wz_int r p = (Ok n, p1) -> okfrom p1 (p_entries r origin k n) p1) ->
    (forall x q, p < q <= len + 2 ^ 33 -> okfrom lo (g x) q) ->
    okfrom lo (bind (read_wz_int r) (fun n => bind (reserve n) (fun _ => bind (p_entries r origin k n) g))) p.
  Proof.
    intros H1 H2. apply okf_bind; [apply tot_wzint|]. intros n p1 E. apply okf_reserve. intros _.
    destruct (H1 n p1 E) as [A B']. apply okf_bind; [exact A|]. intros x q F. apply B' in F.
    apply wzint_moves in E. apply H2. lia.
  Qed.

  Lemma kids_then {B} lo (b : bool) k p (g : list (text * node) * list (list text) -> R B) :
    0 <= p <= len ->
    (forall n p1, read_wz_int r (p + 2) = (Ok n, p1) -> okfrom p1 (p_entries r origin k n) p1) ->
    (forall x q, p <= q <= len + 2 ^ 33 -> okfrom lo (g x) q) ->
    okfrom lo (bind (if b then bind (skip 2) (fun _ => bind (read_wz_int r) (fun n => bind (reserve n) (fun _ => p_entries r origin k n))) else ret ([], [])) g) p.
  Proof.
    intros Hp H1 H2. assert (L : len < 2 ^ 31) by exact Hs. destruct b; [|apply H2; pows; lia].
    apply okf_bind.
    - assert (K : okfrom 0 (bind (skip 2) (fun _ => bind (read_wz_int r) (fun n => bind (reserve n) (fun _ => p_entries r origin k n)))) p); [|apply K].
      apply okf_skip; [pows; lia|]. apply okf_bind; [apply tot_wzint|]. intros n p1 E. apply okf_reserve. intros _.
      destruct (H1 n p1 E) as [A C]. split; [exact A|]. intros x q F. apply C in F. apply wzint_moves in E. lia.
    - intros x q E. apply bind_inv in E as ([] & p0 & E0 & E). rewrite skip_ok in E0 by (pows; lia). injection E0 as <-.
      apply bind_inv in E as (n & p1 & E1 & E). apply bind_inv in E as ([] & p2 & E2 & E).
      unfold reserve in E2. destruct (n <? 0); [discriminate|]. apply ret_inv in E2 as [_ <-].
      apply (H1 n p1 E1) in E. apply wzint_moves in E1. apply H2. lia.
  Qed.

  Lemma parser_fine : forall f,
    (forall n p, 0 <= p <= len + 2 ^ 33 -> 2 * d p + 1 <= Z.of_nat f -> okfrom p (p_entries r origin f n) p) /\
    (forall name t p, 0 <= p <= len + 2 ^ 33 -> 2 * d p + 1 <= Z.of_nat f -> okfrom p (p_node r origin f name t) p) /\
    (forall name b p, 0 <= p <= len + 2 ^ 33 -> 2 * d p + 2 <= Z.of_nat f -> okfrom (p + 1) (p_ext r origin f name b) p) /\
    (forall b i n p, 0 <= p <= len + 2 ^ 33 -> 2 * d p + 3 <= Z.of_nat f -> okfrom p (p_convex r origin f b i n) p).
  Proof.
    assert (L : 0 <= len < 2 ^ 31) by (split; [apply zlen_nonneg|exact Hs]).
    assert (D : forall p, d p = Z.max 0 (len - p)) by reflexivity. clearbody d.
    assert (HB : 2 ^ 33 = 8589934592) by reflexivity.
    induction f as [|f (HE & HN & HX & HC)].
    { repeat split; intros; exfalso; match goal with H : _ <= Z.of_nat 0 |- _ => rewrite D in H; lia end. }
    split; [|split; [|split]].
    - intros n p Hp Hf. rewrite D in Hf. cbn [p_entries]. apply okf_if; [apply okf_ret; lia|].
      apply okf_bind; [apply tot_block|]. intros name p1 E1. apply block_moves in E1.
      apply okf_bind; [apply (tot_cur 1)|]. intros t p2 E2. apply u8_moves in E2.
      destruct (HN name t p2) as [A1 A2]; [pows; lia|rewrite D; lia|].
      apply okf_bind; [exact A1|]. intros [[nm nd] us] p3 E3. apply A2 in E3.
      destruct (HE (n - 1) p3) as [A3 A4]; [lia|rewrite D; lia|].
      apply okf_bind; [exact A3|]. intros rest p4 E4. apply A4 in E4.
      apply okf_ret. lia.
    - intros name t p Hp Hf. rewrite D in Hf. cbn [p_node].
      apply okf_if; [apply okf_ret; lia|].
      apply okf_if. { apply okf_bind; [apply (tot_curm 2 (sext 16))|]. intros v q E.
        apply (cur_moves 2 read_i16_at) in E; [|apply (rm 2 (sext 16)); lia|lia]. apply okf_ret. lia. }
      apply okf_if. { apply okf_bind; [apply tot_wzint|]. intros v q E. apply wzint_moves in E. apply okf_ret. lia. }
      apply okf_if. { apply okf_bind; [apply tot_wzint64|]. intros v q E. apply wzint64_moves in E. apply okf_ret. lia. }
      apply okf_if. { apply okf_bind; [apply (tot_cur 1)|]. intros v q E. apply u8_moves in E.
        apply okf_if; [|apply okf_ret; lia]. apply okf_bind; [apply (tot_cur 4)|]. intros w q' F.
        apply u32_moves in F as [F _]. apply okf_ret. lia. }
      apply okf_if. { apply okf_bind; [apply (tot_cur 8)|]. intros v q E.
        apply (cur_moves 8 (read_at 8)) in E; [|apply ru; lia|lia]. apply okf_ret. lia. }
      apply okf_if. { apply okf_bind; [apply tot_blockmeta|]. intros v q E. apply blockmeta_moves in E. apply okf_ret. pows; lia. }
      apply okf_if; [|apply okf_fail].
      apply okf_bind; [apply (tot_cur 4)|]. intros size q E. apply u32_moves in E as [E Hsz]. apply okf_pos.
      rewrite wrap_small by (pows; lia).
      destruct (HX name (q + size) q) as [A1 _]; [lia|rewrite D; lia|].
      split.
      + apply catch_tot. exact A1.
      + intros x q' F. apply catch_pos in F. subst q'. pows; lia.
    - intros name b p Hp Hf. rewrite D in Hf. cbn [p_ext].
      apply okf_bind; [apply tot_block|]. intros ty p1 E1. apply block_moves in E1.
      assert (SL : forall q n p2, p < q -> read_wz_int r q = (Ok n, p2) -> okfrom p2 (p_entries r origin f n) p2).
      { intros q n p2 Hq E. apply wzint_moves in E. apply HE; [lia|rewrite D; lia]. }
      apply okf_if. { apply okf_skip; [pows; lia|]. apply sub_list; [intros n p2; apply SL; lia|].
        intros x q Hq. apply okf_ret. lia. }
      apply okf_if. { apply okf_skip; [pows; lia|]. apply okf_bind; [apply (tot_cur 1)|]. intros hc p2 E2. apply u8_moves in E2.
        apply kids_then; [lia|intros n p3; apply SL; lia|]. intros x q Hq.
        apply okf_bind; [apply tot_canvas|]. intros g q' E. apply canvas_moves in E. apply okf_ret. lia. }
      apply okf_if. { apply okf_bind; [apply tot_wzint|]. intros n p2 E2. apply wzint_moves in E2.
        apply okf_reserve. intros _. destruct (HC b 0 n p2) as [A1 A2]; [lia|rewrite D; lia|].
        apply okf_bind; [exact A1|]. intros x q E. apply A2 in E. apply okf_ret. lia. }
      apply okf_if. { apply okf_bind; [apply tot_wzint|]. intros x p2 E2. apply wzint_moves in E2.
        apply okf_bind; [apply tot_wzint|]. intros y p3 E3. apply wzint_moves in E3. apply okf_ret. lia. }
      apply okf_if. { apply okf_bind; [apply tot_sound|]. intros x p2 E2. apply sound_moves in E2; [|subst HI; pows; lia]. apply okf_ret. lia. }
      apply okf_if. { apply okf_skip; [pows; lia|]. apply okf_bind; [apply tot_blockmeta|]. intros m p2 E2.
        apply blockmeta_moves in E2. apply okf_ret. pows; lia. }
      apply okf_if. { apply okf_bind; [apply (tot_cur 1)|]. intros ver p2 E2. apply u8_moves in E2.
        apply okf_bind; [apply tot_if; [apply (tot_cur 1)|apply tot_ret]|]. intros hc p3 E3.
        assert (E3' : p2 <= p3 <= len) by (destruct (ver =? 1); [apply u8_moves in E3|apply ret_inv in E3]; lia).
        apply kids_then; [lia|intros n p4; apply SL; lia|]. intros x q Hq.
        apply okf_bind; [apply tot_wzint|]. intros sz p4 E4. apply wzint_moves in E4. apply okf_pos. apply okf_ret. lia. }
      apply okf_if; [|apply okf_fail].
      apply okf_skip; [pows; lia|]. apply okf_bind; [apply tot_wzint|]. intros sz p4 E4. apply wzint_moves in E4.
      apply okf_pos. apply okf_ret. lia.
    - intros b i n p Hp Hf. rewrite D in Hf. cbn [p_convex]. apply okf_if; [apply okf_ret; lia|].
      destruct (HX (to_string i) b p) as [A1 A2]; [lia|rewrite D; lia|].
      apply okf_bind; [exact A1|]. intros [[nm nd] us] p1 E1.
      assert (P : p < len).
      { destruct f as [|f']; [rewrite ?D in Hf; lia|]. cbn [p_ext] in E1.
        apply bind_inv in E1 as (ty & p2 & E & _). apply block_moves in E. lia. }
      apply A2 in E1.
      destruct (HC b (i + 1) n p1) as [A3 A4]; [lia|rewrite D; lia|].
      apply okf_bind; [exact A3|]. intros rest p4 E4. apply A4 in E4. apply okf_ret. lia.
  Qed.

  Lemma list_terminates f p : 0 <= p -> 2 * len + 1 <= Z.of_nat f -> fst (p_list r origin f p) <> OutOfFuel.
  Proof.
    intros Hp Hf. assert (L : 0 <= len < 2 ^ 31) by (split; [apply zlen_nonneg|exact Hs]).
    assert (K : okfrom 0 (p_list r origin f) p); [|apply K]. unfold p_list.
    apply okf_bind; [apply tot_wzint|]. intros n p1 E. apply okf_reserve. intros _. apply wzint_moves in E.
    destruct (parser_fine f) as (HE & _). destruct (HE n p1) as [A B]; [pows; lia|subst d; cbv beta; lia|].
    split; [exact A|]. intros a q F. apply B in F. lia.
  Qed.
End termination.
