(** Reading streams of numbers, texts and bytes through the ChaCha20 reader. *)
From Coq Require Import ZArith List Bool Lia.
From Verif.Model Require Import Base Utf Reader Png Snow2 Ms.
From Verif.Spec Require Import Wire Stream StrWire PropWire Media Aes Snow2 Ms MsFile MsFile2 ChaCha.
From Verif.Proofs Require Import BaseL WireL StringL AtL MediaL Snow2L MsReadL MsFileL MsRead2L.
Import ListNotations.
Open Scope Z_scope.

(** One read per piece, in order, each giving its piece. *)
Fixpoint chacha_delivers (block : list Z -> list Z -> Z -> list Z) (c : creader) (ps : list piece) : Prop :=
  match ps with
  | [] => True
  | Number v :: r => exists c', cr_i32 block c = Ok (v, c') /\ chacha_delivers block c' r
  | Words t :: r => exists c', cr_text block c (2 * Z.of_nat (length (units16 t))) = Ok (t, c') /\ chacha_delivers block c' r
  | Raw l :: r => exists c', cr_bytes block c (Z.of_nat (length l)) = Ok (l, c') /\ chacha_delivers block c' r
  end.
(** The block function of RFC 8439 gives blocks of 64 bytes. *)
Lemma le_words_length : forall n l, length l = (4 * n)%nat -> length (le_words l) = n.
Proof.
  induction n as [|n IH]; intros l H; [destruct l; [reflexivity|discriminate]|].
  destruct l as [|a [|b [|c [|d l]]]]; cbn [length] in H; try lia. cbn [le_words length]. f_equal. apply IH. lia.
Qed.
Lemma chacha_put_length l i v : (i < length l)%nat -> length (chacha_put l i v) = length l.
Proof. intros H. unfold chacha_put. rewrite !app_length, firstn_length, skipn_length. cbn [length]. lia. Qed.
Lemma double_round_length s : length s = 16%nat -> length (double_round s) = 16%nat.
Proof.
  assert (Q : forall s i j k l, length s = 16%nat -> (i < 16 /\ j < 16 /\ k < 16 /\ l < 16)%nat -> length (quarter_at s (i, j, k, l)) = 16%nat).
  { intros t i j k l H (Hi & Hj & Hk & Hl). unfold quarter_at. destruct (quarter _ _ _ _) as [[[a b] c] d].
    rewrite !chacha_put_length; rewrite ?chacha_put_length; rewrite ?chacha_put_length; rewrite ?chacha_put_length; lia. }
  intros H. unfold double_round. cbn [fold_left]. repeat (apply Q; [|lia]). exact H.
Qed.
Lemma chacha64 : block64 chacha_block.
Proof.
  intros k n c Hk Hn. unfold chacha_block.
  set (s := [1634760805; 857760878; 2036477234; 1797285236] ++ le_words k ++ [low32 c] ++ le_words n).
  assert (Hs : length s = 16%nat) by (unfold s; rewrite !app_length, (le_words_length 8 k), (le_words_length 3 n) by assumption; reflexivity).
  assert (Hi : forall m, length (Nat.iter m double_round s) = 16%nat) by (induction m as [|m IH]; [exact Hs|cbn [Nat.iter nat_rect]; apply double_round_length, IH]).
  assert (X : forall (l : list (Z * Z)), length (flat_map (fun p => enc_le 4 (add32 (fst p) (snd p))) l) = (4 * length l)%nat).
  { induction l as [|x l IH]; [reflexivity|]. cbn [flat_map length]. rewrite app_length, enc_le_length, IH. lia. }
  cbv zeta. fold s. rewrite X, combine_length, Hs, Hi. reflexivity.
Qed.

(** *** C40: pieces come back from a ChaCha20 stream in order, whose counter starts again after each piece
    that ends on a block boundary.  Behind the stream the data must be as long as the longest piece. *)
Theorem C40_pieces : forall block key nonce data off e ps rest,
  block64 block -> length key = 32%nat -> length nonce = 12%nat -> Z.of_nat (length data) < 2 ^ 63 ->
  at_ data off e (masked (mask block key nonce (counter (ends 0 ps))) (stream ps ++ rest)) ->
  (length (stream ps ++ rest) mod 64 = 0)%nat -> Forall piece_ok ps ->
  Forall (fun p => e + len (piece_bytes p) <= len data) ps ->
  chacha_delivers block (cr_new data key nonce off) ps.
Proof.
  intros block key nonce data off e ps rest B64 Lk Ln Hz At M Ok_ Rm.
  assert (Bl : forall c, length (block key nonce c) = 64%nat) by (intros c; apply B64; assumption).
  assert (G : forall todo done_ c, cr_todo data key nonce rest off ps done_ todo c -> Forall piece_ok todo -> chacha_delivers block c todo).
  { induction todo as [|p todo IH]; intros done_ c H F; [exact I|]. inversion_clear F as [|? ? Fp Fs].
    destruct p as [v|t|l]; cbn [chacha_delivers].
    - destruct (todo_i32 block data key nonce rest off e ps Bl At M Hz Rm _ _ _ _ Fp H) as (c' & E & H'). exists c'. eauto.
    - destruct Fp as [U _]. destruct (todo_text block data key nonce rest off e ps Bl At M Hz Rm _ _ _ _ U H) as (c' & E & H'). exists c'. eauto.
    - destruct (todo_piece block data key nonce rest off e ps Bl At M Hz Rm _ _ _ _ H) as (c' & E & H'). exists c'. eauto. }
  apply (G ps []); [apply (todo_new block); assumption|exact Ok_].
Qed.
Print Assumptions C40_pieces.
Definition cc_key : list Z := map (fun i => (31 * Z.of_nat i + 7) mod 256) (seq 0 32).
Definition cc_hide (ps : list piece) (rest : list Z) : list Z :=
  masked (mask chacha_block cc_key (repeat 0 12) (counter (ends 0 ps))) (stream ps ++ rest).
(** The 60 bytes end on a boundary, the text crosses one. *)
Definition cc_pieces : list piece :=
  [Number (-3); Raw (map Z.of_nat (seq 0 60)); Words [97; 0x1F600; 48]; Raw (repeat 9 50); Words [98; 99; 100]; Number 70000].
Example C40_example :
  let c := cr_new ([9; 9; 9] ++ cc_hide cc_pieces (repeat 0 60) ++ repeat 0 60) cc_key (repeat 0 12) 3 in
  rbind (cr_i32 chacha_block c) (fun p => rbind (cr_bytes chacha_block (snd p) 60) (fun q => rbind (cr_text chacha_block (snd q) 8) (fun r =>
  rbind (cr_bytes chacha_block (snd r) 50) (fun t => rbind (cr_text chacha_block (snd t) 6) (fun u => rbind (cr_i32 chacha_block (snd u)) (fun v =>
  Ok (fst p, fst q, fst r, fst t, fst u, fst v))))))) =
  Ok (-3, map Z.of_nat (seq 0 60), [97; 0x1F600; 48], repeat 9 50, [98; 99; 100], 70000).
Proof. vm_compute. reflexivity. Qed.

(** *** C125: when no piece ends on a block boundary, the stream is plain ChaCha20 from counter 0. *)
Definition plain_stream (block : list Z -> list Z -> Z -> list Z) (key nonce plain : list Z) : list Z :=
  masked (fun j => nth (j mod 64) (block key nonce (Z.of_nat (j / 64))) 0) plain.
Theorem C125_plain : forall block key nonce data off e ps rest,
  block64 block -> length key = 32%nat -> length nonce = 12%nat -> Z.of_nat (length data) < 2 ^ 63 ->
  at_ data off e (plain_stream block key nonce (stream ps ++ rest)) ->
  (length (stream ps ++ rest) mod 64 = 0)%nat -> Forall piece_ok ps ->
  Forall (fun p => e + len (piece_bytes p) <= len data) ps ->
  (forall front p back, ps = front ++ p :: back -> (length (stream (front ++ [p])) mod 64 <> 0)%nat) ->
  chacha_delivers block (cr_new data key nonce off) ps.
Proof.
  intros block key nonce data off e ps rest B64 Lk Ln Hz At M Ok_ Rm N.
  apply (C40_pieces block key nonce data off e ps rest B64 Lk Ln Hz); try assumption.
  assert (E : forall q ps, In q (ends 0 ps) -> exists front p back, ps = front ++ p :: back /\ q = length (stream (front ++ [p]))).
  { clear. intros q ps. assert (X : forall ps a, In q (ends a ps) -> exists front p back, ps = front ++ p :: back /\ q = (a + length (stream (front ++ [p])))%nat).
    { clear. induction ps as [|x ps IH]; intros a H; [destruct H|]. cbn [ends In] in H. destruct H as [<- |H].
      - exists [], x, ps. split; [reflexivity|]. unfold stream. cbn [app flat_map]. now rewrite app_nil_r.
      - destruct (IH _ H) as (f & p & b & -> & ->). exists (x :: f), p, b. split; [reflexivity|].
        unfold stream. cbn [app flat_map]. rewrite app_length. lia. }
    intros H. destruct (X ps 0%nat H) as (f & p & b & E1 & E2). exists f, p, b. auto. }
  assert (C : forall k, counter (ends 0 ps) k = Z.of_nat k).
  { induction k as [|k IH]; [reflexivity|]. rewrite counter_S; [rewrite IH; lia|].
    intros H. apply E in H. destruct H as (f & p & b & Eps & Eq). apply (N f p b Eps). rewrite <- Eq.
    rewrite Nat.mul_comm. apply Nat.mod_mul. lia. }
  replace (masked _ _) with (plain_stream block key nonce (stream ps ++ rest)); [exact At|].
  unfold plain_stream, masked. apply map_ext_in. intros j _. unfold mask. now rewrite C.
Qed.
Print Assumptions C125_plain.
Example C125_example :
  let ps := [Number 5; Raw (repeat 3 90); Number (-6)] in
  let c := cr_new (plain_stream chacha_block cc_key (repeat 0 12) (stream ps ++ repeat 0 30) ++ repeat 0 90) cc_key (repeat 0 12) 0 in
  rbind (cr_i32 chacha_block c) (fun p => rbind (cr_bytes chacha_block (snd p) 90) (fun q => rbind (cr_i32 chacha_block (snd q)) (fun r =>
  Ok (fst p, fst q, fst r)))) = Ok (5, repeat 3 90, -6).
Proof. vm_compute. reflexivity. Qed.

(** *** C126 (false): reading gives the consecutive pieces of the ChaCha20 stream however it is cut.  After
    a read that ends on a block boundary the key stream starts from its first block again. *)
Definition C126_full : Prop := forall key nonce data off e ps rest,
  length key = 32%nat -> length nonce = 12%nat -> Z.of_nat (length data) < 2 ^ 63 ->
  at_ data off e (plain_stream chacha_block key nonce (stream ps ++ rest)) ->
  (length (stream ps ++ rest) mod 64 = 0)%nat -> Forall piece_ok ps ->
  Forall (fun p => e + len (piece_bytes p) <= len data) ps ->
  chacha_delivers chacha_block (cr_new data key nonce off) ps.
Theorem C126_cut_refuted : exists key nonce plain data,
  length key = 32%nat /\ length nonce = 12%nat /\ bytes plain /\
  data = plain_stream chacha_block key nonce plain ++ repeat 0 64 /\
  (exists c1 c2, cr_bytes chacha_block (cr_new data key nonce 0) 60 = Ok (firstn 60 plain, c1) /\
                 cr_bytes chacha_block c1 8 = Ok (firstn 8 (skipn 60 plain), c2)) /\
  (exists c1 c2 l, cr_bytes chacha_block (cr_new data key nonce 0) 64 = Ok (firstn 64 plain, c1) /\
                   cr_bytes chacha_block c1 4 = Ok (l, c2) /\ l <> firstn 4 (skipn 64 plain)).
Proof.
  exists cc_key, (repeat 0 12), (repeat 7 128). eexists. split; [reflexivity|]. split; [reflexivity|].
  split; [apply Forall_forall; intros x Hx; apply repeat_spec in Hx; subst x; unfold byte; lia|]. split; [reflexivity|].
  split.
  - eexists _, _. split; [vm_compute; reflexivity|]. vm_compute. reflexivity.
  - eexists _, _, _. split; [vm_compute; reflexivity|]. split; [vm_compute; reflexivity|]. discriminate.
Qed.
Print Assumptions C126_cut_refuted.
Theorem C126_full_is_false : ~ C126_full.
Proof.
  intros F.
  set (ps := [Raw (repeat 7 64); Raw (repeat 7 4)]).
  set (data := plain_stream chacha_block cc_key (repeat 0 12) (stream ps ++ repeat 7 60) ++ repeat 0 64).
  assert (L : length data = 192%nat) by (vm_compute; reflexivity).
  assert (D : chacha_delivers chacha_block (cr_new data cc_key (repeat 0 12) 0) ps).
  { apply (F cc_key (repeat 0 12) data 0 128 ps (repeat 7 60)); [reflexivity|reflexivity|now rewrite L| | | |].
    - exists [], (repeat 0 64). split; [reflexivity|]. vm_compute. split; reflexivity.
    - vm_compute. reflexivity.
    - apply Forall_cons; [|apply Forall_cons; [|apply Forall_nil]]; (split; [apply Forall_forall; intros x Hx; apply repeat_spec in Hx; subst x; lia|vm_compute; reflexivity]).
    - unfold len. rewrite L. apply Forall_cons; [|apply Forall_cons; [|apply Forall_nil]]; vm_compute; discriminate. }
  destruct D as (c1 & E1 & c2 & E2 & _).
  vm_compute in E1. injection E1 as <-. vm_compute in E2. discriminate E2.
Qed.
Print Assumptions C126_full_is_false.

(** *** C127 (false): what is still buffered can be read.  At the end of the data the second of two numbers
    in one block is a panic. *)
Theorem C127_end_refuted : exists key nonce data c1,
  length key = 32%nat /\ length nonce = 12%nat /\ bytes data /\
  data = plain_stream chacha_block key nonce (stream [Number 1; Number 2] ++ repeat 0 56) /\
  cr_i32 chacha_block (cr_new data key nonce 0) = Ok (1, c1) /\ cr_i32 chacha_block c1 = Panic.
Proof.
  exists cc_key, (repeat 0 12). eexists _, _. split; [reflexivity|]. split; [reflexivity|].
  split; [|split; [reflexivity|]].
  - apply Forall_forall. intros x Hx.
    assert (X : forallb (fun b => (0 <=? b) && (b <? 256)) (plain_stream chacha_block cc_key (repeat 0 12) (stream [Number 1; Number 2] ++ repeat 0 56)) = true) by (vm_compute; reflexivity).
    rewrite forallb_forall in X. specialize (X x Hx). unfold byte. lia.
  - split; [vm_compute; reflexivity|]. vm_compute. reflexivity.
Qed.
Print Assumptions C127_end_refuted.
