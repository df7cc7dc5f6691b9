(** Reading streams of numbers, texts and bytes through the two readers of the .ms archives. *)
From Coq Require Import ZArith List Bool Lia.
From Verif.Model Require Import Base Utf Reader Png Snow2 Ms.
From Verif.Spec Require Import Wire Stream StrWire PropWire Media Aes Snow2 Ms.
From Verif.Proofs Require Import BaseL WireL StringL AtL MediaL Snow2L MsReadL.
Import ListNotations.
Open Scope Z_scope.

(** One read per piece, in order, each giving its piece. *)
Fixpoint snow_delivers (s : sreader) (ps : list piece) : Prop :=
  match ps with
  | [] => True
  | Number v :: r => exists s', sr_i32 s = Ok (v, s') /\ snow_delivers s' r
  | Words t :: r => exists s', sr_text s (2 * Z.of_nat (length (units16 t))) = Ok (t, s') /\ snow_delivers s' r
  | Raw l :: r => exists s', sr_bytes s (Z.of_nat (length l)) = Ok (l, s') /\ snow_delivers s' r
  end.
Definition even_piece (p : piece) : Prop := Nat.even (length (piece_bytes p)) = true.

(** *** C39: pieces of even length come back from a Snow2 stream in the order in which they were written,
    however they are cut. *)
Theorem C39_pieces : forall key data off e ps rest stored,
  length key = 16%nat -> bytes key -> at_ data off e stored ->
  added (ms_stream key) 0 (stream ps ++ rest) stored -> (length (stream ps ++ rest) mod 4 = 0)%nat ->
  Forall piece_ok ps -> Forall even_piece ps ->
  snow_delivers (sr_new data key off) ps.
Proof.
  intros key data off e ps rest stored L B At A M Ok_ Ev.
  assert (H := left_new key data off e _ stored (conj L B) At A M). clear A M At.
  revert H. generalize (sr_new data key off). induction ps as [|p ps IH]; intros s H; [exact I|].
  inversion_clear Ok_ as [|? ? Hp Hps]. inversion_clear Ev as [|? ? Ep Eps].
  specialize (IH Hps Eps). unfold stream in H. cbn [flat_map] in H. rewrite <- app_assoc in H. fold (stream ps) in H.
  destruct p as [v|t|l]; cbn [snow_delivers piece_bytes piece_ok even_piece] in *.
  - destruct (left_i32 key s v _ e Hp H) as (s' & E & H'). exists s'. auto.
  - destruct Hp as [U Hl]. destruct (left_text key s t _ e H U Hl) as (s' & E & H'). exists s'. auto.
  - destruct Hp as [_ Hl]. destruct (left_bytes key s l _ e H Ep Hl) as (s' & E & H'). exists s'. auto.
Qed.
Print Assumptions C39_pieces.

Definition read_key : list Z := [7; 200; 3; 14; 55; 6; 77; 8; 99; 10; 11; 120; 13; 14; 15; 0xF0].
Fixpoint words_of (l : list Z) : list Z :=
  match l with a :: b :: c :: d :: r => (a + 256 * b + 65536 * c + 16777216 * d) :: words_of r | _ => [] end.
(** Bytes hidden by adding the key stream. *)
Definition hide (key l : list Z) : list Z :=
  flat_map (fun p => enc_le 4 ((snd p + ms_stream key (fst p)) mod 2 ^ 32)) (combine (seq 0 (length l)) (words_of l)).
Definition ex_pieces : list piece := [Number (-3); Words [97; 48]; Words [0x1F600; 98; 0x43]; Number 70000; Raw [1; 2; 3; 4; 5; 6]; Number 9].
Example C39_example :
  let s := sr_new ([9; 9; 9] ++ hide read_key (stream ex_pieces ++ [0; 0])) read_key 3 in
  rbind (sr_i32 s) (fun p => rbind (sr_text (snd p) 4) (fun q => rbind (sr_text (snd q) 8) (fun r =>
  rbind (sr_i32 (snd r)) (fun t => rbind (sr_bytes (snd t) 6) (fun u => rbind (sr_i32 (snd u)) (fun v =>
  Ok (fst p, fst q, fst r, fst t, fst u, fst v))))))) =
  Ok (-3, [97; 48], [0x1F600; 98; 0x43], 70000, [1; 2; 3; 4; 5; 6], 9).
Proof. vm_compute. reflexivity. Qed.

(** *** C117 (false): the same for pieces of any length.  After a read of three bytes the second number comes
    out wrong. *)
Definition C117_full : Prop := forall key data off e ps rest stored,
  length key = 16%nat -> bytes key -> at_ data off e stored ->
  added (ms_stream key) 0 (stream ps ++ rest) stored -> (length (stream ps ++ rest) mod 4 = 0)%nat ->
  Forall piece_ok ps -> snow_delivers (sr_new data key off) ps.
Lemma at_all (l : list Z) : at_ l 0 (zlen l) l.
Proof. exists [], []. rewrite app_nil_r. repeat split. Qed.
Lemma hide_added key : forall l n, bytes l -> (length l mod 4 = 0)%nat ->
  added (ms_stream key) n l (flat_map (fun p => enc_le 4 ((snd p + ms_stream key (fst p)) mod 2 ^ 32)) (combine (seq n (length l)) (words_of l))).
Proof.
  intros l. remember (length l) as m eqn:Em. revert l Em. induction m as [m IH] using (well_founded_induction Nat.lt_wf_0).
  intros l -> n B M. destruct l as [|a [|b [|c [|d r]]]]; try discriminate M.
  - apply added_rest. cbn. lia.
  - assert (Bs : byte a /\ byte b /\ byte c /\ byte d /\ bytes r).
    { inversion B as [|? ? Ba B1]; inversion B1 as [|? ? Bb B2]; inversion B2 as [|? ? Bc B3]; inversion B3 as [|? ? Be B4]. auto. }
    destruct Bs as (Ba & Bb & Bc & Bd & Br).
    assert (R := le_val_range [a; b; c; d]). change (8 * zlen [a; b; c; d]) with 32 in R.
    assert (B4 : bytes [a; b; c; d]) by (repeat (apply Forall_cons; [assumption|]); apply Forall_nil). specialize (R B4).
    assert (Ew : a + 256 * b + 65536 * c + 16777216 * d = le_val [a; b; c; d]) by (cbn [le_val]; lia).
    change (combine (seq n (length (a :: b :: c :: d :: r))) (words_of (a :: b :: c :: d :: r)))
      with ((n, a + 256 * b + 65536 * c + 16777216 * d) :: combine (seq (S n) (S (S (S (length r))))) (words_of r)).
    rewrite Ew. cbn [flat_map fst snd].
    assert (E4 : enc_le 4 (le_val [a; b; c; d]) = [a; b; c; d]) by (rewrite enc4; apply (le_bytes_le_val [a; b; c; d] B4)).
    change (a :: b :: c :: d :: r) with ([a; b; c; d] ++ r). rewrite <- E4 at 1. apply added_word; [exact R|].
    assert (Lw : forall q, (length q <= length (words_of q) * 4 + 3)%nat /\ (length (words_of q) <= length q)%nat).
    { assert (X : forall k q, (length q <= k)%nat -> (length q <= length (words_of q) * 4 + 3)%nat /\ (length (words_of q) <= length q)%nat).
      { induction k as [|k IHk]; intros q Hq; [destruct q; cbn in *; lia|].
        destruct q as [|? [|? [|? [|? q]]]]; cbn [words_of length] in *; try lia.
        specialize (IHk q ltac:(lia)). lia. }
      intros q. apply (X (length q)). lia. }
    assert (Ec : combine (seq (S n) (S (S (S (length r))))) (words_of r) = combine (seq (S n) (length r)) (words_of r)).
    { replace (S (S (S (length r)))) with (length r + 3)%nat by lia. rewrite seq_app.
      clear -Lw. specialize (Lw r). destruct Lw as [_ Lw]. 
      assert (X : forall (us : list nat) vs (ws : list Z), (length ws <= length us)%nat -> combine (us ++ vs) ws = combine us ws).
      { induction us as [|u us IHu]; intros vs ws H; destruct ws as [|w ws]; cbn in *; try lia; [now destruct vs|reflexivity|].
        f_equal. apply IHu. lia. }
      apply X. rewrite seq_length. exact Lw. }
    rewrite Ec. apply (IH (length r)); [cbn [length]; lia|reflexivity|exact Br|].
    cbn [length] in M. replace (S (S (S (S (length r))))) with (length r + 1 * 4)%nat in M by lia. now rewrite Nat.mod_add in M by lia.
Qed.
Lemma bytes_dec (l : list Z) : forallb (fun b => (0 <=? b) && (b <? 256)) l = true -> bytes l.
Proof.
  intros H. apply Forall_forall. intros x Hx. rewrite forallb_forall in H. specialize (H x Hx).
  apply andb_prop in H. destruct H as [H1 H2]. apply Z.leb_le in H1. apply Z.ltb_lt in H2. split; assumption.
Qed.
Theorem C117_odd_refuted : exists key ps rest stored,
  length key = 16%nat /\ bytes key /\
  added (ms_stream key) 0 (stream ps ++ rest) stored /\ (length (stream ps ++ rest) mod 4 = 0)%nat /\
  Forall piece_ok ps /\ ps = [Raw [1; 2; 3]; Number 67305985; Number 8] /\
  exists s1 s2 s3, sr_bytes (sr_new stored key 0) 3 = Ok ([1; 2; 3], s1) /\ sr_i32 s1 = Ok (67305985, s2) /\
    exists v, sr_i32 s2 = Ok (v, s3) /\ v <> 8.
Proof.
  exists read_key, [Raw [1; 2; 3]; Number 67305985; Number 8], [0], (hide read_key (stream [Raw [1; 2; 3]; Number 67305985; Number 8] ++ [0])).
  split; [reflexivity|]. split; [now apply bytes_dec|].
  split; [apply hide_added; [now apply bytes_dec|reflexivity]|]. split; [reflexivity|].
  split; [repeat apply Forall_cons; try apply Forall_nil; cbn [piece_ok]; unfold i32; try lia; split; [now apply (bytes_dec [1; 2; 3])|cbn; lia]|].
  split; [reflexivity|]. do 3 eexists. split; [vm_compute; reflexivity|]. split; [vm_compute; reflexivity|].
  eexists. split; [vm_compute; reflexivity|discriminate].
Qed.
Print Assumptions C117_odd_refuted.
(** After one byte the first number is still right, the second one is not. *)
Example C117_one : rbind (sr_bytes (sr_new (hide read_key [1; 2; 3; 4; 5; 6; 7; 8; 9; 10; 11; 12]) read_key 0) 1) (fun p =>
    rbind (sr_i32 (snd p)) (fun a => rmap (fun b => (fst p, le_bytes 4 (fst a), le_bytes 4 (fst b))) (sr_i32 (snd a)))) =
  Ok ([1], [2; 3; 4; 5], [8; 3; 4; 9]).
Proof. vm_compute. reflexivity. Qed.
Theorem C117_full_is_false : ~ C117_full.
Proof.
  destruct C117_odd_refuted as (key & ps & rest & stored & L & B & A & M & K & -> & s1 & s2 & s3 & E1 & E2 & v & E3 & N).
  intros F. specialize (F key stored 0 (zlen stored) _ rest stored L B (at_all stored) A M K).
  cbn [snow_delivers] in F. destruct F as (t1 & F1 & t2 & F2 & t3 & F3 & _).
  change (Z.of_nat (length [1; 2; 3])) with 3 in F1.
  assert (t1 = s1) by congruence. subst t1. assert (t2 = s2) by congruence. subst t2. apply N. congruence.
Qed.
Print Assumptions C117_full_is_false.

(** *** C118 (false): reading bytes one piece after the other never panics.  One byte and then another one
    does. *)
Theorem C118_bytes_refuted : exists key ps rest stored,
  length key = 16%nat /\ bytes key /\
  added (ms_stream key) 0 (stream ps ++ rest) stored /\ (length (stream ps ++ rest) mod 4 = 0)%nat /\
  ps = [Raw [1]; Raw [2]] /\
  exists s1, sr_bytes (sr_new stored key 0) 1 = Ok ([1], s1) /\ sr_bytes s1 1 = Panic.
Proof.
  exists read_key, [Raw [1]; Raw [2]], [0; 0], (hide read_key (stream [Raw [1]; Raw [2]] ++ [0; 0])).
  split; [reflexivity|]. split; [now apply bytes_dec|].
  split; [apply hide_added; [now apply bytes_dec|reflexivity]|]. split; [reflexivity|].
  split; [reflexivity|]. eexists. split; [vm_compute; reflexivity|]. vm_compute. reflexivity.
Qed.
Print Assumptions C118_bytes_refuted.

(** *** C119: a Snow2 stream that ends inside a number or a text is an error, not a panic. *)
Theorem C119_short : forall s, sr_off s + 4 > Z.of_nat (length (sr_data s)) ->
  sr_i32 s = Err ERead /\
  (forall len, sr_blen s = 0%nat -> 0 < len < 2 ^ 31 -> sr_bytes s len = Err ERead /\ sr_text s len = Err ERead).
Proof.
  intros s H.
  assert (B : sr_block s = Err ERead).
  { unfold sr_block. destruct (slice _ _ _) eqn:Es; [|reflexivity]. apply slice_some in Es. unfold zlen in Es. lia. }
  split; [unfold sr_i32; rewrite B; reflexivity|]. intros len Z0 Hl.
  assert (E : sr_bytes s len = Err ERead).
  { unfold sr_bytes. destruct (Z.leb_spec (2 ^ 63) len) as [K|_]; [pows; lia|].
    unfold sr_write. rewrite Z0; rewrite (sext_small 32 len) by (change (32 - 1) with 31; lia). cbn [Nat.ltb Nat.leb sr_loop].
    destruct (Z.ltb_spec 0 len); [|lia]. now rewrite B. }
  split; [exact E|]. unfold sr_text. now rewrite E.
Qed.
Print Assumptions C119_short.
Example C119_example : sr_i32 (sr_new [1; 2; 3; 4; 5; 6; 7] read_key 4) = Err ERead /\
  sr_text (sr_new [1; 2; 3; 4; 5; 6; 7] read_key 4) 2 = Err ERead.
Proof. vm_compute. split; reflexivity. Qed.
