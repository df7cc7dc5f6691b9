(** Reading numbers, texts and bytes from a Snow2 stream. *)
From Coq Require Import ZArith List Bool Lia ZifyNat.
From Verif.Model Require Import Base Utf Reader Png Snow2 Ms.
From Verif.Spec Require Import Wire Stream StrWire PropWire Media Aes Snow2 Ms.
From Verif.Proofs Require Import BaseL WireL StringL StrWireL AtL MediaL Snow2L.
Import ListNotations.
Open Scope Z_scope.
Ltac Zify.zify_post_hook ::= idtac.
Ltac dlia := Z.div_mod_to_equations; lia.

(** [left] is what is still to be read; the stored bytes end at [e]. *)
Definition sr_left (key : list Z) (s : sreader) (left : list Z) (e : Z) : Prop :=
  length (sr_buf s) = 4%nat /\ (sr_blen s = 0 \/ sr_blen s = 2)%nat /\
  exists n plain stored, left = firstn (sr_blen s) (sr_buf s) ++ plain /\
    (length plain mod 4 = 0)%nat /\ added (ms_stream key) n plain stored /\
    dec_at key n (sr_dec s) /\ at_ (sr_data s) (sr_off s) e stored.

Lemma added_length ks n plain out : added ks n plain out -> length out = length plain.
Proof.
  induction 1 as [|n w plain out H A IH]; [reflexivity|]. rewrite !app_length, !enc_le_length. lia.
Qed.
Lemma mod4_cases n : (n mod 4 = 0)%nat -> n = 0%nat \/ (4 <= n)%nat.
Proof. intros H. destruct n as [|[|[|[|n]]]]; cbn in H; try discriminate; lia. Qed.
Lemma mod4_less n : (n mod 4 = 0 -> (n - 4) mod 4 = 0)%nat.
Proof.
  intros H. destruct (mod4_cases n H) as [-> |G]; [reflexivity|].
  replace n with ((n - 4) + 1 * 4)%nat in H by lia. now rewrite Nat.mod_add in H by lia.
Qed.
Lemma block_step key s n w plain stored e :
  at_ (sr_data s) (sr_off s) e (enc_le 4 ((w + ms_stream key n) mod 2 ^ 32) ++ stored) -> 0 <= w < 2 ^ 32 ->
  dec_at key n (sr_dec s) -> added (ms_stream key) (S n) plain stored ->
  exists d, sr_block s = Ok (enc_le 4 w, mkSr (sr_data s) (sr_off s + 4) d (sr_buf s) (sr_blen s)) /\
    dec_at key (S n) d /\ at_ (sr_data s) (sr_off s + 4) e stored.
Proof.
  intros A Hw D _. apply at_split in A. destruct A as [A1 A2].
  assert (Z4 : zlen (enc_le 4 ((w + ms_stream key n) mod 2 ^ 32)) = 4) by (unfold zlen; now rewrite enc_le_length).
  rewrite Z4 in *. unfold sr_block.
  assert (R := range_at _ _ _ _ A1). unfold range in R. destruct (slice (sr_data s) (sr_off s) (sr_off s + 4)) as [l|]; [|discriminate].
  assert (El : l = enc_le 4 ((w + ms_stream key n) mod 2 ^ 32)) by congruence. subst l.
  destruct (decrypt_block_ok key n (sr_dec s) (le_val (enc_le 4 ((w + ms_stream key n) mod 2 ^ 32))) D) as (d & E & D').
  rewrite E. exists d. split; [|split; [exact D'|exact A2]].
  rewrite enc4, le_val_le_bytes. change (8 * Z.of_nat 4) with 32. unfold wrap. rewrite sub_add_mod by exact Hw.
  now rewrite <- enc4.
Qed.
(** The next whole block of a stream that is not at its end. *)
Lemma next_block key s n plain stored e : added (ms_stream key) n plain stored -> (4 <= length plain)%nat ->
  dec_at key n (sr_dec s) -> at_ (sr_data s) (sr_off s) e stored ->
  exists b rest stored' d, plain = b ++ rest /\ length b = 4%nat /\ bytes b /\ added (ms_stream key) (S n) rest stored' /\
    sr_block s = Ok (b, mkSr (sr_data s) (sr_off s + 4) d (sr_buf s) (sr_blen s)) /\
    dec_at key (S n) d /\ at_ (sr_data s) (sr_off s + 4) e stored'.
Proof.
  intros A L D At.
  assert (X : exists w rest stored', 0 <= w < 2 ^ 32 /\ plain = enc_le 4 w ++ rest /\
    stored = enc_le 4 ((w + ms_stream key n) mod 2 ^ 32) ++ stored' /\ added (ms_stream key) (S n) rest stored').
  { clear At D. destruct A as [n rest Hr|n w rest out Hw Ar]; [lia|]. exists w, rest, out. auto. }
  destruct X as (w & rest & stored' & Hw & -> & -> & Ar).
  destruct (block_step key s n w rest stored' e At Hw D Ar) as (d & E & D' & At').
  exists (enc_le 4 w), rest, stored', d. split; [reflexivity|]. split; [apply enc_le_length|].
  split; [rewrite enc4; apply le_bytes_bytes|]. auto.
Qed.

Lemma list4 {A} (l : list A) : length l = 4%nat -> exists a b c d, l = [a; b; c; d].
Proof. intros H. do 4 (destruct l as [|? l]; [discriminate|]). destruct l; [|discriminate]. repeat eexists. Qed.
Lemma enc_le4_inj v l : i32 v -> enc_le 4 v = l -> sext 32 (le_val l) = v.
Proof.
  intros H <-. rewrite enc4, le_val_le_bytes. change (8 * Z.of_nat 4) with 32. apply sext_wrap; [lia|exact H].
Qed.

Lemma left_i32 key s v left e : i32 v -> sr_left key s (enc_le 4 v ++ left) e ->
  exists s', sr_i32 s = Ok (v, s') /\ sr_left key s' left e.
Proof.
  intros Hv (Lb & Hb & n & plain & stored & E & M & A & D & At).
  assert (L4 : (4 <= length plain)%nat).
  { apply (f_equal (@length Z)) in E. rewrite !app_length, enc_le_length, firstn_length in E.
    destruct (mod4_cases _ M) as [Z0|G]; [|exact G]. lia. }
  destruct (next_block key s n plain stored e A L4 D At) as (b & rest & stored' & d & -> & L & Bb & Ar & Eb & D' & At').
  assert (Mr : (length rest mod 4 = 0)%nat).
  { apply mod4_less in M. rewrite app_length, L in M. now replace (4 + length rest - 4)%nat with (length rest) in M by lia. }
  unfold sr_i32. rewrite Eb. cbn [rbind sr_blen sr_buf sr_data sr_off sr_dec].
  destruct (list4 (sr_buf s) Lb) as (x0 & x1 & x2 & x3 & Ex).
  destruct (list4 b L) as (b0 & b1 & b2 & b3 & ->).
  assert (S4 := enc_le_length 4 v). destruct (list4 _ S4) as (v0 & v1 & v2 & v3 & Ev).
  rewrite Ev in E.
  destruct Hb as [H0|H2].
  - rewrite H0 in *. cbn [firstn app Nat.ltb Nat.leb] in *. injection E as -> -> -> -> ->.
    eexists. split; [rewrite (enc_le4_inj v) by assumption; reflexivity|].
    split; [exact Lb|]. split; [left; reflexivity|]. exists (S n), rest, stored'.
    cbn [sr_blen sr_buf sr_data sr_off sr_dec firstn app]. repeat (split; [assumption || reflexivity|]). exact At'.
  - rewrite H2, Ex in *. cbn [firstn skipn app Nat.ltb Nat.leb Nat.sub] in *. injection E as -> -> -> -> ->.
    eexists. split; [rewrite (enc_le4_inj v) by assumption; reflexivity|].
    split; [reflexivity|]. split; [right; reflexivity|]. exists (S n), rest, stored'.
    cbn [sr_blen sr_buf sr_data sr_off sr_dec firstn app]. repeat (split; [assumption || reflexivity|]). exact At'.
Qed.

Lemma blit_end (done_ junk src rest : list Z) : length junk = (length src + length rest)%nat ->
  exists junk', blit (done_ ++ junk) (length done_) src = done_ ++ src ++ junk' /\ length junk' = length rest.
Proof.
  intros H. unfold blit. rewrite firstn_app, Nat.sub_diag, firstn_all, firstn_O, app_nil_r.
  exists (skipn (length done_ + length src) (done_ ++ junk)). split; [reflexivity|].
  rewrite skipn_length, app_length. lia.
Qed.
Lemma even_firstn4 k : Nat.even k = true -> (k < 4)%nat -> k = 0%nat \/ k = 2%nat.
Proof. intros H L. destruct k as [|[|[|[|k]]]]; try discriminate; lia. Qed.
Lemma even_sub4 k : (4 <= k)%nat -> Nat.even k = true -> Nat.even (k - 4) = true.
Proof. intros L H. replace k with (S (S (S (S (k - 4))))) in H by lia. exact H. Qed.

Lemma loop_ok key e : forall fuel s done_ junk got left n plain stored,
  length (sr_buf s) = 4%nat -> sr_blen s = 0%nat ->
  got ++ left = plain -> (length plain mod 4 = 0)%nat -> added (ms_stream key) n plain stored ->
  dec_at key n (sr_dec s) -> at_ (sr_data s) (sr_off s) e stored ->
  Nat.even (length got) = true -> length junk = length got ->
  Z.of_nat (length done_ + length got) < 2 ^ 31 -> (length plain < fuel)%nat ->
  exists s', sr_loop fuel s (done_ ++ junk) (zlen (done_ ++ got)) (zlen got) = Ok (done_ ++ got, s') /\ sr_left key s' left e.
Proof.
  induction fuel as [|fuel IH]; intros s done_ junk got left n plain stored Lb Hb E M A D At Ev Lj Hz Hf; [lia|].
  cbn [sr_loop]. unfold zlen at 1. destruct got as [|g0 got0] eqn:Eg.
  - cbn [length] in *. destruct junk; [|discriminate]. exists s. split; [reflexivity|].
    split; [exact Lb|]. split; [left; exact Hb|]. exists n, plain, stored. rewrite Hb. cbn [firstn app] in *.
    repeat (split; [assumption|]). exact At.
  - rewrite <- Eg in *. assert (Lg : (0 < length got)%nat) by (rewrite Eg; cbn [length]; lia). clear Eg.
    destruct (Z.ltb_spec 0 (Z.of_nat (length got))) as [_|]; [|lia].
    assert (L4 : (4 <= length plain)%nat).
    { destruct (mod4_cases _ M) as [Z0|G]; [|exact G]. rewrite <- E, app_length in Z0. lia. }
    destruct (next_block key s n plain stored e A L4 D At) as (b & rest & stored' & d & Ep & L & Bb & Ar & Eb & D' & At').
    assert (Mr : (length rest mod 4 = 0)%nat).
    { apply mod4_less in M. rewrite Ep, app_length, L in M. now replace (4 + length rest - 4)%nat with (length rest) in M by lia. }
    rewrite Eb. cbn [rbind]. 
    assert (Est : wrap 64 (zlen (done_ ++ got) - zlen got) = Z.of_nat (length done_)).
    { rewrite zlen_app. unfold zlen. rewrite wrap_small; pows; lia. }
    rewrite Est, Nat2Z.id.
    assert (Edl : Z.to_nat (Z.min (Z.of_nat (length done_) + 4) (zlen (done_ ++ got)) - Z.of_nat (length done_)) = Nat.min 4 (length got)).
    { rewrite zlen_app. unfold zlen. lia. }
    rewrite Edl. cbn [sr_data sr_off sr_dec sr_buf sr_blen].
    destruct (Nat.le_gt_cases 4 (length got)) as [G4|G4].
    + rewrite Nat.min_l by lia. replace (firstn 4 b) with b by (symmetry; apply firstn_all2; lia).
      assert (X : got = b ++ skipn 4 got /\ rest = skipn 4 got ++ left).
      { assert (F : firstn 4 (got ++ left) = b) by (rewrite E, Ep, firstn_app, L, Nat.sub_diag, firstn_O, app_nil_r; apply firstn_all2; lia).
        rewrite firstn_app in F. replace (4 - length got)%nat with 0%nat in F by lia. rewrite firstn_O, app_nil_r in F.
        rewrite <- F. split; [symmetry; apply firstn_skipn|].
        assert (K : skipn 4 (got ++ left) = rest) by (rewrite E, Ep, skipn_app, L, Nat.sub_diag; rewrite (skipn_all2 b) by lia; reflexivity).
        rewrite skipn_app in K. replace (4 - length got)%nat with 0%nat in K by lia. symmetry. exact K. }
      destruct X as [Xg Xr]. set (got' := skipn 4 got) in *.
      assert (Lg' : length got = (4 + length got')%nat) by (rewrite Xg at 1; rewrite app_length; lia).
      destruct (blit_end done_ junk b got') as (junk' & Ebl & Lj'); [lia|]. rewrite Ebl.
      destruct (Z.ltb_spec (zlen got - 4) 0) as [Hn|_]; [unfold zlen in Hn; lia|].
      replace (zlen got - 4) with (zlen got') by (unfold zlen; lia).
      specialize (IH (mkSr (sr_data s) (sr_off s + 4) d (sr_buf s) (sr_blen s)) (done_ ++ b) junk' got' left (S n) rest stored').
      cbn [sr_data sr_off sr_dec sr_buf sr_blen] in IH.
      rewrite <- !app_assoc in IH. rewrite Xg, Hb in *. cbv beta in IH.
      apply IH; try assumption; try reflexivity; try (symmetry; assumption).
      * replace (length got') with (length (b ++ got') - 4)%nat by (rewrite app_length; lia). apply even_sub4; [lia|exact Ev].
      * rewrite app_length in *. lia.
      * rewrite Ep, app_length in Hf. lia.
    + destruct (even_firstn4 _ Ev ltac:(lia)) as [?|G2]; [lia|].
      rewrite Nat.min_r by lia. rewrite G2.
      destruct (list4 b L) as (b0 & b1 & b2 & b3 & ->).
      destruct got as [|y0 [|y1 [|]]]; try discriminate. cbn [firstn skipn length].
      rewrite Ep in E. cbn [app] in E. injection E as -> -> ->.
      destruct (blit_end done_ junk [b0; b1] []) as (junk' & Ebl & Lj'); [cbn [length] in *; lia|]. rewrite Ebl.
      destruct junk'; [|discriminate]. rewrite app_nil_r.
      destruct (Z.ltb_spec (zlen [b0; b1] - 4) 0) as [_|Hn]; [|cbn in Hn; lia].
      destruct fuel as [|fuel]; [rewrite Ep in Hf; cbn [length app] in Hf; lia|].
      cbn [sr_loop]. change (zlen [b0; b1] - 4) with (-2). cbn [Z.ltb Z.compare].
      eexists. split; [reflexivity|].
      destruct (list4 (sr_buf s) Lb) as (x0 & x1 & x2 & x3 & Ex). rewrite Ex.
      split; [reflexivity|]. split; [right; reflexivity|]. exists (S n), rest, stored'.
      cbn [sr_blen sr_buf sr_data sr_off sr_dec blit firstn skipn app length Nat.add].
      repeat (split; [assumption || reflexivity|]). exact At'.
Qed.

Lemma left_write key s got left e dest : sr_left key s (got ++ left) e -> Nat.even (length got) = true ->
  zlen got < 2 ^ 31 -> length dest = length got ->
  exists s', sr_write s dest (zlen got) = Ok (got, s') /\ sr_left key s' left e.
Proof.
  intros (Lb & Hb & n & plain & stored & E & M & A & D & At) Ev Hz Ld.
  assert (Lz := zlen_nonneg got).
  assert (Es : sext 32 (zlen got) = zlen got) by (apply sext_small; pows; lia).
  assert (Lf : (length plain < S (length (sr_data s)))%nat).
  { destruct (at_range _ _ _ _ At) as (R1 & R2 & R3). apply added_length in A. unfold zlen in *. lia. }
  unfold sr_write. rewrite Es. destruct Hb as [H0|H2].
  - rewrite H0 in *. cbn [Nat.ltb Nat.leb firstn app] in *.
    apply (loop_ok key e _ s [] dest got left n plain stored); cbn [length app]; try assumption; try reflexivity.
  - rewrite H2 in *. cbn [Nat.ltb Nat.leb].
    destruct (list4 (sr_buf s) Lb) as (x0 & x1 & x2 & x3 & Ex). rewrite Ex in E. cbn [firstn app] in E.
    destruct (Z.ltb_spec (zlen got) (Z.of_nat 2)) as [Hl|Hl].
    + destruct got as [|y0 [|]]; [|discriminate|cbn in Hl; lia].
      destruct dest; [|discriminate]. cbn. exists s. split; [reflexivity|].
      split; [exact Lb|]. split; [right; exact H2|]. exists n, plain, stored. rewrite H2, Ex. cbn [firstn app] in *.
      repeat (split; [assumption|]). exact At.
    + assert (X : exists got', got = [x0; x1] ++ got').
      { destruct got as [|y0 [|y1 got']]; try (cbn in Hl; lia). cbn [app] in E. injection E as -> -> _. exists got'. reflexivity. }
      destruct X as (got' & ->). cbn [app] in E. injection E as E.
      rewrite Ex. cbn [firstn].
      destruct dest as [|d0 [|d1 dest']]; try discriminate. cbn [length] in Ld.
      change (blit (d0 :: d1 :: dest') 0 [x0; x1]) with ([x0; x1] ++ dest').
      assert (Eg : sext 32 (zlen ([x0; x1] ++ got') - Z.of_nat 2) = zlen got').
      { rewrite zlen_app in *. change (zlen [x0; x1]) with 2 in *. rewrite sext_small; pows; lia. }
      rewrite Eg.
      apply (loop_ok key e _ (mkSr (sr_data s) (sr_off s) (sr_dec s) [x0; x1; x2; x3] 0) [x0; x1] dest' got' left n plain stored);
        cbn [sr_data sr_off sr_dec sr_buf sr_blen]; try assumption; try reflexivity.
      * cbn [length app] in *. lia.
Qed.
Lemma left_bytes key s got left e : sr_left key s (got ++ left) e -> Nat.even (length got) = true ->
  zlen got < 2 ^ 31 -> exists s', sr_bytes s (zlen got) = Ok (got, s') /\ sr_left key s' left e.
Proof.
  intros H Ev Hz. unfold sr_bytes. destruct (Z.leb_spec (2 ^ 63) (zlen got)); [pows; lia|].
  apply left_write; try assumption. rewrite repeat_length. unfold zlen. lia.
Qed.

(** Texts. *)
Lemma units_le16 us : Forall (fun u => 0 <= u < 65536) us -> units_of (le16 us) = us.
Proof.
  induction 1 as [|u us H F IH]; [reflexivity|]. cbn [le16 flat_map app units_of]. fold (le16 us). rewrite IH. f_equal. dlia.
Qed.
Lemma le16_length us : length (le16 us) = (2 * length us)%nat.
Proof. induction us as [|u us IH]; [reflexivity|]. cbn [le16 flat_map app length]. fold (le16 us). lia. Qed.
Lemma text_le16 t : unicode t -> text_of_units (le16 (units16 t)) = Ok t.
Proof.
  intros U. assert (S : scalars t) by (apply unicode_scalars, U). unfold text_of_units. rewrite units16_eq, units_le16 by (apply utf16_enc_units, S).
  unfold utf16_strict. now rewrite utf16_items_enc, all_some_map by exact S.
Qed.
Lemma even_double n : Nat.even (2 * n) = true.
Proof. rewrite Nat.even_spec. exists n. reflexivity. Qed.
Lemma left_text key s t left e : sr_left key s (le16 (units16 t) ++ left) e -> unicode t ->
  Z.of_nat (length (units16 t)) < 2 ^ 30 ->
  exists s', sr_text s (2 * Z.of_nat (length (units16 t))) = Ok (t, s') /\ sr_left key s' left e.
Proof.
  intros H U Hz. destruct (left_bytes key s (le16 (units16 t)) left e H) as (s' & E & L').
  - rewrite le16_length. apply even_double.
  - unfold zlen. rewrite le16_length. pows. lia.
  - exists s'. split; [|exact L']. unfold sr_text.
    replace (2 * Z.of_nat (length (units16 t))) with (zlen (le16 (units16 t))) by (unfold zlen; rewrite le16_length; lia).
    rewrite E. cbn [rbind fst snd]. now rewrite text_le16 by exact U.
Qed.
Lemma left_new key data off e plain stored : key_ok key -> at_ data off e stored ->
  added (ms_stream key) 0 plain stored -> (length plain mod 4 = 0)%nat -> sr_left key (sr_new data key off) plain e.
Proof.
  intros K At A M. split; [reflexivity|]. split; [left; reflexivity|]. exists 0%nat, plain, stored.
  cbn [sr_new sr_data sr_off sr_dec sr_buf sr_blen firstn app]. repeat (split; [assumption || reflexivity|]).
  split; [apply snow2_new_ok, K|exact At].
Qed.
