(** Reading numbers, texts and bytes from a ChaCha20 stream. *)
From Coq Require Import ZArith List Bool Lia ZifyNat.
From Verif.Model Require Import Base Utf Reader Png Snow2 Ms.
From Verif.Spec Require Import Wire Stream StrWire PropWire Media Aes Snow2 Ms MsFile MsFile2.
From Verif.Proofs Require Import BaseL WireL StringL StrWireL AtL PngL MediaL Snow2L MsReadL MsFileL.
Import ListNotations.
Open Scope Z_scope.
Ltac Zify.zify_post_hook ::= idtac.
Ltac dlia := Z.div_mod_to_equations; lia.

Section reader.
  Variable block : list Z -> list Z -> Z -> list Z.
  Variables (data key nonce plain : list Z) (start e : Z) (es : list nat).
  Hypothesis block_len : forall c, length (block key nonce c) = 64%nat.
  Let stored := masked (mask block key nonce (counter es)) plain.
  Hypothesis At : at_ data start e stored.
  Hypothesis M64 : (length plain mod 64 = 0)%nat.

  Lemma stored_length : length stored = length plain.
  Proof. unfold stored, masked. now rewrite map_length, seq_length. Qed.
  Lemma stored_nth j : (j < length plain)%nat -> nth j stored 0 = Z.lxor (nth j plain 0) (mask block key nonce (counter es) j).
  Proof.
    intros H. unfold stored, masked.
    rewrite (nth_indep _ 0 (Z.lxor (nth 0 plain 0) (mask block key nonce (counter es) 0))) by (rewrite map_length, seq_length; exact H).
    rewrite (map_nth (fun j => Z.lxor (nth j plain 0) (mask block key nonce (counter es) j))). rewrite seq_nth by exact H. reflexivity.
  Qed.
  Definition blk (k : nat) : list Z := firstn 64 (skipn (64 * k) plain).
  Lemma blk_length k : (64 * k + 64 <= length plain)%nat -> length (blk k) = 64%nat.
  Proof. intros H. unfold blk. rewrite firstn_length, skipn_length. lia. Qed.
  Lemma nth_firstn_lt {A} (l : list A) n i d : (i < n)%nat -> nth i (firstn n l) d = nth i l d.
  Proof. revert l i. induction n as [|n IH]; intros [|x l] [|i] H; try lia; cbn; auto. apply IH. lia. Qed.
  Lemma nth_skipn_add {A} (l : list A) n i d : nth i (skipn n l) d = nth (n + i) l d.
  Proof. revert l. induction n as [|n IH]; intros [|x l]; cbn; auto. now destruct i. Qed.
  Lemma blk_nth k i : (i < 64)%nat -> nth i (blk k) 0 = nth (64 * k + i) plain 0.
  Proof. intros H. unfold blk. now rewrite nth_firstn_lt, nth_skipn_add by exact H. Qed.
  Lemma fill_ok c k : (64 * k + 64 <= length plain)%nat -> cr_data c = data -> cr_key c = key -> cr_nonce c = nonce ->
    cr_off c = start + 64 * Z.of_nat k -> cr_ctr c = counter es k ->
    cr_fill block c = Ok (mkCr data key nonce (start + 64 * Z.of_nat k + 64) (counter es k + 1) 0 (blk k)).
  Proof.
    intros H Ed Ek En Eo Ec. unfold cr_fill. rewrite Ed, Ek, En, Eo, Ec.
    assert (A2 : at_ data (start + 64 * Z.of_nat k) (start + 64 * Z.of_nat k + 64) (firstn 64 (skipn (64 * k) stored))).
    { rewrite <- (firstn_skipn (64 * k) stored) in At. apply at_split in At. destruct At as [_ A].
      assert (L := stored_length).
      replace (zlen (firstn (64 * k) stored)) with (64 * Z.of_nat k) in A by (unfold zlen; rewrite firstn_length; lia).
      rewrite <- (firstn_skipn 64 (skipn (64 * k) stored)) in A. apply at_split in A. destruct A as [A _].
      replace (zlen (firstn 64 (skipn (64 * k) stored))) with 64 in A by (unfold zlen; rewrite firstn_length, skipn_length; lia). exact A. }
    rewrite (range_at _ _ _ _ A2). cbn [rmap rbind]. do 2 f_equal.
    assert (Lf : length (firstn 64 (skipn (64 * k) stored)) = 64%nat) by (rewrite firstn_length, skipn_length, stored_length; lia).
    apply nth_ext with (d := Z.lxor 0 0) (d' := 0).
    - rewrite map_length, combine_length, block_len, Lf, blk_length by exact H. reflexivity.
    - intros i Hi. rewrite map_length, combine_length, block_len, Lf in Hi. change (Nat.min 64 64) with 64%nat in Hi.
      rewrite (map_nth (fun p => Z.lxor (fst p) (snd p)) _ (0, 0)). rewrite combine_nth by (now rewrite block_len, Lf). cbn [fst snd].
      rewrite nth_firstn_lt, nth_skipn_add by exact Hi. rewrite stored_nth by lia. rewrite blk_nth by exact Hi.
      unfold mask. replace ((64 * k + i) mod 64)%nat with i.
      + replace ((64 * k + i) / 64)%nat with k; [apply lxor_cancel_r|].
        rewrite (Nat.mul_comm 64 k), Nat.div_add_l by lia. rewrite (Nat.div_small i) by exact Hi. lia.
      + rewrite (Nat.add_comm (64 * k)), (Nat.mul_comm 64 k), Nat.mod_add by lia. now rewrite Nat.mod_small.
  Qed.

  (** The reader has given out [p] bytes. *)
  Definition cr_at (p : nat) (c : creader) : Prop :=
    cr_data c = data /\ cr_key c = key /\ cr_nonce c = nonce /\
    exists k r, p = (64 * k + r)%nat /\ (r < 64)%nat /\
      ((r = 0 /\ cr_boff c = 64)%nat /\ cr_off c = start + 64 * Z.of_nat k /\ cr_ctr c = counter es k \/
       (0 < r /\ cr_boff c = r)%nat /\ cr_buf c = blk k /\ cr_off c = start + 64 * Z.of_nat k + 64 /\ cr_ctr c = counter es k + 1).
  (** The same at the end of a call, before the counter is reset. *)
  Definition cr_done (p : nat) (c : creader) : Prop :=
    cr_data c = data /\ cr_key c = key /\ cr_nonce c = nonce /\
    exists k r, p = (64 * k + r)%nat /\ (r < 64)%nat /\
      ((r = 0 /\ cr_boff c = 64)%nat /\ cr_off c = start + 64 * Z.of_nat k \/
       (0 < r /\ cr_boff c = r)%nat /\ cr_buf c = blk k /\ cr_off c = start + 64 * Z.of_nat k + 64 /\ cr_ctr c = counter es k + 1).
  Lemma at_done p c : cr_at p c -> cr_done p c.
  Proof.
    intros (A & B & C & k & r & E & L & H). split; [exact A|]. split; [exact B|]. split; [exact C|]. exists k, r. split; [exact E|]. split; [exact L|]. destruct H as [(H1 & H2 & _)|H]; auto.
  Qed.
  Lemma counter_S k : ~ In (64 * S k)%nat es -> counter es (S k) = counter es k + 1.
  Proof.
    intros N. cbn [counter]. destruct (existsb (Nat.eqb (64 * S k)) es) eqn:X; [|reflexivity].
    apply existsb_exists in X. destruct X as (x & Hx & Ex). apply Nat.eqb_eq in Ex. subst x. contradiction.
  Qed.
  Lemma counter_reset k : In (64 * k)%nat es -> counter es k = 0.
  Proof.
    intros I. destruct k as [|k]; [reflexivity|]. cbn [counter].
    assert (X : existsb (Nat.eqb (64 * S k)) es = true) by (apply existsb_exists; exists (64 * S k)%nat; split; [exact I|apply Nat.eqb_refl]).
    now rewrite X.
  Qed.
  Lemma plain_block k r : (64 * k + r < length plain -> 64 * k + 64 <= length plain)%nat.
  Proof.
    intros H. assert (E := Nat.div_mod (length plain) 64 ltac:(lia)). rewrite M64 in E.
    assert (k < length plain / 64)%nat by (apply Nat.div_lt_upper_bound in H || idtac; nia). lia.
  Qed.
  Lemma ensure_ok p c : cr_at p c -> (p < length plain)%nat ->
    exists k r, p = (64 * k + r)%nat /\ (r < 64)%nat /\ (64 * k + 64 <= length plain)%nat /\
      (if (64 <=? cr_boff c)%nat then cr_fill block c else Ok c) =
      Ok (mkCr data key nonce (start + 64 * Z.of_nat k + 64) (counter es k + 1) r (blk k)).
  Proof.
    intros (Ed & Ek & En & k & r & E & L & H) Hp. exists k, r. split; [exact E|]. split; [exact L|].
    assert (B : (64 * k + 64 <= length plain)%nat) by (apply (plain_block k r); lia). split; [exact B|].
    destruct H as [((Hr & Hb) & Ho & Hc)|((Hr & Hb) & Hbuf & Ho & Hc)].
    - rewrite Hb. cbn [Nat.leb]. subst r. apply fill_ok; assumption.
    - destruct (Nat.leb_spec 64 (cr_boff c)); [lia|]. f_equal. destruct c. cbn in *. congruence.
  Qed.
  Lemma skipn_more (l : list Z) : forall m r, skipn r (skipn m l) = skipn (m + r) l.
  Proof.
    induction l as [|x l IH]; intros m r; [now rewrite !skipn_nil|]. destruct m as [|m]; [reflexivity|]. cbn [skipn Nat.add]. apply IH.
  Qed.
  Lemma take_blk k r n : (r + n <= 64)%nat -> firstn n (skipn r (blk k)) = firstn n (skipn (64 * k + r) plain).
  Proof.
    intros H. unfold blk. rewrite skipn_firstn_comm, firstn_firstn. replace (Nat.min n (64 - r)) with n by lia.
    f_equal. apply skipn_more.
  Qed.
  Lemma cr_loop_ok : forall fuel c p n, cr_at p c -> (n < fuel)%nat -> (p + n <= length plain)%nat ->
    (forall x, (p < x < p + n)%nat -> ~ In x es) ->
    exists c', cr_loop block fuel c n = Ok (firstn n (skipn p plain), c') /\ cr_done (p + n) c'.
  Proof.
    induction fuel as [|fuel IH]; intros c p n H Hf Hl Hx; [lia|]. cbn [cr_loop].
    destruct (Nat.ltb_spec 0 n) as [Hn|Hn].
    - destruct (ensure_ok p c H ltac:(lia)) as (k & r & E & L & B & Ef). rewrite Ef. cbn [rbind cr_boff cr_buf cr_data cr_key cr_nonce cr_off cr_ctr].
      set (n1 := Nat.min n (64 - r)).
      assert (N1 : (0 < n1 <= n /\ r + n1 <= 64)%nat) by (unfold n1; lia).
      rewrite take_blk by lia. rewrite <- E.
      set (c1 := mkCr data key nonce (start + 64 * Z.of_nat k + 64) (counter es k + 1) (r + n1) (blk k)).
      destruct (Nat.eq_dec (r + n1) 64) as [E64|E64].
      + destruct (Nat.eq_dec n1 n) as [En|En].
        * destruct fuel as [|fuel]; [lia|]. rewrite En, Nat.sub_diag. cbn [cr_loop Nat.ltb Nat.leb rmap rbind fst snd].
          rewrite app_nil_r. exists c1. split; [reflexivity|]. split; [reflexivity|]. split; [reflexivity|]. split; [reflexivity|].
          exists (S k), 0%nat. split; [lia|]. split; [lia|]. left. unfold c1. cbn [cr_boff cr_off]. split; [lia|lia].
        * assert (A1 : cr_at (p + n1) c1).
          { split; [reflexivity|]. split; [reflexivity|]. split; [reflexivity|]. exists (S k), 0%nat. split; [lia|]. split; [lia|].
            left. unfold c1. cbn [cr_boff cr_off cr_ctr]. split; [lia|]. split; [lia|]. symmetry. apply counter_S. apply Hx. lia. }
          destruct (IH c1 (p + n1)%nat (n - n1)%nat A1) as (c' & Ec & Hc); [lia|lia|intros x Hx'; apply Hx; lia|].
          rewrite Ec. cbn [rmap rbind fst snd]. exists c'. split; [|replace (p + n)%nat with (p + n1 + (n - n1))%nat by lia; exact Hc].
          do 2 f_equal. rewrite <- (firstn_skipn n1 (firstn n (skipn p plain))). rewrite firstn_firstn, Nat.min_l by lia. f_equal.
          rewrite skipn_firstn_comm. f_equal. symmetry. apply skipn_more.
      + assert (En : n1 = n) by (unfold n1 in *; lia).
        destruct fuel as [|fuel]; [lia|]. rewrite En, Nat.sub_diag. cbn [cr_loop Nat.ltb Nat.leb rmap rbind fst snd].
        rewrite app_nil_r. exists c1. split; [reflexivity|]. split; [reflexivity|]. split; [reflexivity|]. split; [reflexivity|].
        exists k, (r + n)%nat. split; [lia|]. split; [lia|]. right. unfold c1. cbn [cr_boff cr_off cr_buf cr_ctr]. rewrite En.
        split; [lia|]. split; [reflexivity|]. split; reflexivity.
    - replace n with 0%nat in * by lia. exists c. split; [reflexivity|]. rewrite Nat.add_0_r. apply at_done, H.
  Qed.
  Lemma cr_apply_ok c p n : cr_at p c -> (p + n <= length plain)%nat -> (forall x, (p < x < p + n)%nat -> ~ In x es) -> In (p + n)%nat es ->
    exists c', cr_apply block c n = Ok (firstn n (skipn p plain), c') /\ cr_at (p + n) c'.
  Proof.
    intros H Hl Hx He. destruct (cr_loop_ok (S n) c p n H ltac:(lia) Hl Hx) as (c' & E & D).
    unfold cr_apply. rewrite E. cbn [rmap rbind fst snd].
    destruct D as (Ed & Ek & En & k & r & Ep & L & D). eexists. split; [reflexivity|].
    destruct D as [((Hr & Hb) & Ho)|((Hr & Hb) & Hbuf & Ho & Hc)].
    - rewrite Hb. cbn [Nat.leb]. split; [exact Ed|]. split; [exact Ek|]. split; [exact En|]. exists k, r. split; [exact Ep|]. split; [exact L|].
      left. cbn [cr_boff cr_off cr_ctr]. split; [auto|]. split; [exact Ho|]. symmetry. apply counter_reset.
      replace (64 * k)%nat with (p + n)%nat by lia. exact He.
    - destruct (Nat.leb_spec 64 (cr_boff c')); [lia|]. split; [exact Ed|]. split; [exact Ek|]. split; [exact En|]. exists k, r. split; [exact Ep|]. split; [exact L|]. right. auto 10.
  Qed.
  Lemma cr_off_le c p : cr_at p c -> (p <= length plain)%nat -> 0 <= cr_off c <= e.
  Proof.
    intros (_ & _ & _ & k & r & Ep & L & D) Hp. destruct (at_range _ _ _ _ At) as (R1 & R2 & R3).
    unfold zlen in R2. rewrite stored_length in R2.
    destruct D as [((Hr & Hb) & Ho & _)|((Hr & Hb) & _ & Ho & _)]; rewrite Ho; [lia|].
    destruct (Nat.eq_dec p (length plain)) as [E|N].
    - exfalso. assert (E2 := Nat.div_mod (length plain) 64 ltac:(lia)). rewrite M64 in E2.
      assert ((64 * k + r) mod 64 = r)%nat by (rewrite (Nat.add_comm (64 * k)), (Nat.mul_comm 64 k), Nat.mod_add by lia; now apply Nat.mod_small).
      rewrite <- Ep, E, M64 in H. lia.
    - assert (B := plain_block k r ltac:(lia)). lia.
  Qed.
  Lemma cr_bytes_ok c p n : cr_at p c -> (p + n <= length plain)%nat -> (forall x, (p < x < p + n)%nat -> ~ In x es) -> In (p + n)%nat es ->
    e + Z.of_nat n <= zlen data -> zlen data < 2 ^ 63 ->
    exists c', cr_bytes block c (Z.of_nat n) = Ok (firstn n (skipn p plain), c') /\ cr_at (p + n) c'.
  Proof.
    intros H Hl Hx He Hd Hz. assert (O := cr_off_le c p H ltac:(lia)).
    assert (Ed : cr_data c = data) by (destruct H as (Ed & _); exact Ed).
    unfold cr_bytes. rewrite wrap_small by (pows; lia). rewrite Ed.
    destruct (at_here data (cr_off c) (cr_off c + Z.of_nat n)) as (l & A & _); [lia|lia|lia|].
    rewrite (range_at _ _ _ _ A). cbn [rbind]. rewrite Nat2Z.id. apply cr_apply_ok; assumption.
  Qed.
End reader.

Section pieces.
  Variable block : list Z -> list Z -> Z -> list Z.
  Variables (data key nonce rest : list Z) (start e : Z) (ps : list piece).
  Hypothesis block_len : forall c, length (block key nonce c) = 64%nat.
  Let plain := stream ps ++ rest.
  Hypothesis At : at_ data start e (masked (mask block key nonce (counter (ends 0 ps))) plain).
  Hypothesis M64 : (length plain mod 64 = 0)%nat.
  Hypothesis Small : zlen data < 2 ^ 63.
  Hypothesis Room : Forall (fun p => e + zlen (piece_bytes p) <= zlen data) ps.

  Lemma ends_app a b : forall p, ends p (a ++ b) = ends p a ++ ends (p + length (stream a)) b.
  Proof.
    induction a as [|x a IH]; intros p; cbn [app ends]; [now rewrite Nat.add_0_r|].
    rewrite IH. cbn [stream flat_map]. fold (stream a). rewrite app_length, Nat.add_assoc. reflexivity.
  Qed.
  Lemma ends_le a : forall p x, In x (ends p a) -> (p <= x <= p + length (stream a))%nat.
  Proof.
    induction a as [|y a IH]; intros p x H; [destruct H|]. cbn [ends In] in H. cbn [stream flat_map]. fold (stream a). rewrite app_length.
    destruct H as [<- |H]; [lia|]. apply IH in H. lia.
  Qed.
  (** [done_] has been read, [todo] is to come. *)
  Definition cr_todo (done_ todo : list piece) (c : creader) : Prop :=
    ps = done_ ++ todo /\ cr_at data key nonce plain start (ends 0 ps) (length (stream done_)) c.
  Lemma todo_piece done_ x todo c : cr_todo done_ (x :: todo) c ->
    exists c', cr_bytes block c (zlen (piece_bytes x)) = Ok (piece_bytes x, c') /\ cr_todo (done_ ++ [x]) todo c'.
  Proof.
    intros [E H].
    assert (Es : stream ps = stream done_ ++ piece_bytes x ++ stream todo) by (rewrite E, stream_app; reflexivity).
    assert (Le : length (stream done_ ++ piece_bytes x) = (length (stream done_) + length (piece_bytes x))%nat) by apply app_length.
    assert (En : ends 0 ps = ends 0 done_ ++ (length (stream done_) + length (piece_bytes x))%nat ::
                   ends (length (stream done_) + length (piece_bytes x)) todo) by (rewrite E at 1; rewrite ends_app; reflexivity).
    destruct (cr_bytes_ok block data key nonce plain start e (ends 0 ps) block_len At M64 c (length (stream done_)) (length (piece_bytes x)) H) as (c' & Ec & H').
    - unfold plain. rewrite Es, !app_length. lia.
    - intros y Hy I. rewrite En in I. apply in_app_or in I. destruct I as [I|[I|I]]; [apply ends_le in I; lia|lia|apply ends_le in I; lia].
    - rewrite En. apply in_or_app. right. left. reflexivity.
    - rewrite Forall_forall in Room. apply Room. rewrite E. apply in_or_app. right. left. reflexivity.
    - exact Small.
    - exists c'. split.
      + unfold zlen. rewrite Ec. do 2 f_equal. unfold plain. rewrite Es, <- !app_assoc.
        rewrite skipn_app, skipn_all, Nat.sub_diag, skipn_O. cbn [app]. now rewrite firstn_app, firstn_all, Nat.sub_diag, firstn_O, app_nil_r.
      + split; [rewrite <- app_assoc; exact E|]. rewrite stream_app, app_length. cbn [stream flat_map]. rewrite app_nil_r. exact H'.
  Qed.
  Lemma todo_i32 done_ v todo c : i32 v -> cr_todo done_ (Number v :: todo) c ->
    exists c', cr_i32 block c = Ok (v, c') /\ cr_todo (done_ ++ [Number v]) todo c'.
  Proof.
    intros Hv H. destruct (todo_piece _ _ _ _ H) as (c' & E & H'). exists c'. split; [|exact H'].
    unfold cr_i32. cbn [piece_bytes] in E. unfold zlen in E. rewrite enc_le_length in E. change (Z.of_nat 4) with 4 in E.
    rewrite E. cbn [rmap rbind fst snd]. now rewrite (enc_le4_inj v _ Hv eq_refl).
  Qed.
  Lemma todo_text done_ t todo c : unicode t -> cr_todo done_ (Words t :: todo) c ->
    exists c', cr_text block c (2 * Z.of_nat (length (units16 t))) = Ok (t, c') /\ cr_todo (done_ ++ [Words t]) todo c'.
  Proof.
    intros U H. destruct (todo_piece _ _ _ _ H) as (c' & E & H'). exists c'. split; [|exact H'].
    unfold cr_text. cbn [piece_bytes] in E. unfold zlen in E. rewrite le16_length, Nat2Z.inj_mul in E. change (Z.of_nat 2) with 2 in E.
    rewrite E. cbn [rbind fst snd]. now rewrite text_le16 by exact U.
  Qed.
  Lemma todo_new : cr_todo [] ps (cr_new data key nonce start).
  Proof.
    split; [reflexivity|]. split; [reflexivity|]. split; [reflexivity|]. split; [reflexivity|]. exists 0%nat, 0%nat.
    split; [reflexivity|]. split; [lia|]. left. cbn [cr_new cr_boff cr_off cr_ctr counter]. split; [auto|]. split; [lia|reflexivity].
  Qed.
  (** At the end of the pieces the rest of the last block has been taken too. *)
  Lemma todo_end c : cr_todo ps [] c -> (length rest < 64)%nat -> cr_off c = e.
  Proof.
    intros [_ H] Lr. destruct H as (_ & _ & _ & k & r & E & L & D). destruct (at_range _ _ _ _ At) as (_ & R & _).
    unfold zlen, masked in R. rewrite map_length, seq_length in R. 
    assert (Lp : length plain = (length (stream ps) + length rest)%nat) by (unfold plain; apply app_length).
    assert (Q := Nat.div_mod (length plain) 64 ltac:(lia)). rewrite M64 in Q. set (n := (length plain / 64)%nat) in Q.
    destruct D as [((Hr & _) & Ho & _)|((Hr & _) & _ & Ho & _)]; rewrite Ho; nia.
  Qed.
End pieces.
