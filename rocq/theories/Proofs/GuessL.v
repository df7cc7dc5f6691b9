(** Lemmas on finding the string key of a file. *)
From Coq Require Import ZArith List Bool Btauto Lia ZifyBool ZifyNat.
From Coq Require String Ascii.
From Verif.Model Require Import Base Utf Keys Reader WzStr Header Directory Png Media Guess.
From Verif.Spec Require Import Wire Stream StrWire Media PropWire KeyFind.
From Verif.Proofs Require Import BaseL WireL KeysL StringL ReaderL StrWireL AtL MediaL StrictL.
From Verif.Props Require Import P_Strict.
Import ListNotations. Import String.StringSyntax.
Open Scope Z_scope.

Definition asc (t : list Z) : bool := forallb (fun c => c <? 128) t.
Definition body ks t := if asc t then body_ascii ks t else body_unicode ks (units16 t).

Lemma units_nonempty t : t <> [] -> 1 <= zlen (units16 t).
Proof.
  destruct t as [|c t]; [congruence|]. intros _. unfold units16. cbn [flat_map]. rewrite zlen_app.
  match goal with |- _ <= _ + zlen ?x => pose proof (zlen_nonneg x) end.
  destruct (c <? 65536); rewrite ?zlen_cons, zlen_nil; lia.
Qed.

Lemma zlen_body ks t : zlen (body ks t) = if asc t then zlen t else 2 * zlen (units16 t).
Proof. unfold body. destruct (asc t); unfold zlen; [rewrite body_ascii_length|rewrite body_unicode_length]; lia. Qed.

Ltac fin := match goal with |- (Ok (mkMeta ?a ?b ?c), ?d) = (Ok (mkMeta ?a' ?b' ?c), ?d') =>
  replace a' with a by lia; replace b' with b by lia; replace d' with d by lia; reflexivity end.

Lemma meta_shape r ks p q t : zlen (rd_buf r) < 2 ^ 31 -> t <> [] -> at_ (rd_buf r) p q (enc_str ks t) ->
  exists o, at_ (rd_buf r) o q (body ks t) /\
    read_wz_string_meta r p = (Ok (mkMeta o (zlen (body ks t)) (if asc t then SAscii else SUnicode)), q).
Proof.
  intros Hs Hn A. rewrite zlen_body. unfold enc_str in A. fold (asc t) in A.
  assert (A' : at_ (rd_buf r) p q ((if asc t then len_ascii (zlen t) else len_unicode (zlen (units16 t))) ++ body ks t)).
  { unfold body, zlen. destruct t; [congruence|]. destruct (asc _); exact A. }
  clear A. apply at_split in A'. destruct A' as [A B].
  pose proof (at_range _ _ _ _ B) as (B1 & B2 & B3). pose proof (at_range _ _ _ _ A) as (A1 & _ & _).
  rewrite zlen_body in B2. pose proof (units_nonempty t Hn) as Hu.
  assert (Hl : 1 <= zlen t) by (destruct t; [congruence|rewrite zlen_cons; pose proof (zlen_nonneg t); lia]).
  destruct (asc t) eqn:E.
  - unfold len_ascii in *. destruct (Z.leb_spec (zlen t) 127).
    + rewrite zlen_cons, zlen_nil in *. exists (p + 1). replace (p + (0 + 1)) with (p + 1) in B by lia. split; [exact B|].
      replace (256 - zlen t) with ((- zlen t) mod 256) in A by (symmetry; apply (Z.mod_unique _ _ (-1)); lia).
      destruct (at_i8 r Hs p _ (- zlen t) ltac:(lia) A) as [R _]. unfold read_wz_string_meta. rewrite (bind_ok _ _ _ _ _ R).
      unfold string_type. replace (- zlen t =? 0) with false by lia. replace (0 <? - zlen t) with false by lia.
      replace (- zlen t =? -128) with false by lia. unfold bind, get_pos, skip, ret. rewrite Z.opp_involutive.
      rewrite wrap_small by (pows; lia). fin.
    + rewrite zlen_cons, zlen_enc_le in *. apply at_cons in A. destruct A as [A C].
      destruct (at_i8 r Hs p _ (-128) ltac:(lia) A) as [R _]. unfold read_wz_string_meta. rewrite (bind_ok _ _ _ _ _ R).
      change (string_type (-128)) with SAscii. change (-128 =? -128) with true. cbv iota.
      destruct (at_i32 r Hs _ _ (zlen t) ltac:(pows; lia) C) as [R' Q]. rewrite (bind_ok _ _ _ _ _ R').
      exists (p + (Z.of_nat 4 + 1)). split; [exact B|]. unfold bind, get_pos, skip, ret.
      rewrite (wrap_small 32), (wrap_small 64 (zlen t)), (wrap_small 64) by (pows; lia). fin.
  - unfold len_unicode in *. destruct (Z.leb_spec (zlen (units16 t)) 126).
    + rewrite zlen_cons, zlen_nil in *. exists (p + 1). replace (p + (0 + 1)) with (p + 1) in B by lia. split; [exact B|].
      replace (zlen (units16 t)) with (zlen (units16 t) mod 256) in A at 1 by (apply Z.mod_small; lia).
      destruct (at_i8 r Hs p _ (zlen (units16 t)) ltac:(lia) A) as [R _]. unfold read_wz_string_meta. rewrite (bind_ok _ _ _ _ _ R).
      unfold string_type. replace (zlen (units16 t) =? 0) with false by lia. replace (0 <? zlen (units16 t)) with true by lia.
      replace (zlen (units16 t) =? 127) with false by lia. unfold bind, get_pos, skip, ret.
      rewrite wrap_small by (pows; lia). fin.
    + rewrite zlen_cons, zlen_enc_le in *. apply at_cons in A. destruct A as [A C].
      destruct (at_i8 r Hs p _ 127 ltac:(lia) A) as [R _]. unfold read_wz_string_meta. rewrite (bind_ok _ _ _ _ _ R).
      change (string_type 127) with SUnicode. change (127 =? 127) with true. cbv iota.
      destruct (at_i32 r Hs _ _ (zlen (units16 t)) ltac:(pows; lia) C) as [R' Q]. rewrite (bind_ok _ _ _ _ _ R').
      exists (p + (Z.of_nat 4 + 1)). split; [exact B|]. unfold bind, get_pos, skip, ret.
      rewrite (wrap_small 32 (zlen (units16 t))), (wrap_small 32), (wrap_small 64) by (pows; lia). fin.
Qed.

Lemma cross ks ks' t : mapi_from resolve_ascii_char 0 (xor_ks ks' 0 (body_ascii ks t)) =
  map (fun i => Z.lxor (nth i t 0) (Z.lxor (ks i) (ks' i))) (seq 0 (length t)).
Proof.
  rewrite body_ascii_eq. transitivity (mapi_from (fun c i => Z.lxor c (Z.lxor (ks i) (ks' i))) 0 t); [|apply mapi_from_seq].
  generalize 0%nat. induction t as [|c t IH]; intro i; [reflexivity|]. cbn [mapi_from xor_ks]. f_equal; [|apply IH].
  unfold resolve_ascii_char, enc_ascii_byte.
  rewrite (wrap_add_l 8 (Z.of_nat i)) by lia.
  apply Z.bits_inj'. intros n Hn. rewrite !Z.lxor_spec. btauto.
Qed.

Lemma high_lxor a b : byte a -> byte b -> Z.lxor a b / 128 = Z.lxor (a / 128) (b / 128).
Proof. intros A B. change 128 with (2 ^ 7). rewrite <- !Z.shiftr_div_pow2 by lia. apply Z.shiftr_lxor. Qed.

Lemma high_01 a : byte a -> a / 128 = 0 \/ a / 128 = 1.
Proof. unfold byte. intro A. pose proof (Z.div_mod a 128). pose proof (Z.mod_pos_bound a 128). lia. Qed.

Lemma cross_high c k k' : 0 <= c < 128 -> byte k -> byte k' -> (0 <= Z.lxor c (Z.lxor k k') < 128 <-> k / 128 = k' / 128).
Proof.
  intros C K K'. pose proof (lxor_byte k k' K K') as X. assert (Cb : byte c) by (unfold byte; lia).
  pose proof (lxor_byte c _ Cb X) as Y. unfold byte in Y.
  pose proof (high_lxor c _ Cb X) as H. rewrite (high_lxor k k' K K') in H. rewrite (Z.div_small c 128 C), Z.lxor_0_l in H.
  destruct (high_01 k K) as [E|E], (high_01 k' K') as [E'|E']; rewrite E, E' in H |- *; cbn in H;
    pose proof (Z.div_mod (Z.lxor c (Z.lxor k k')) 128); pose proof (Z.mod_pos_bound (Z.lxor c (Z.lxor k k')) 128); lia.
Qed.

(** bytes that are an ASCII text *)
Lemma strict_ascii l : bytes l -> (exists t, utf8_strict l = Some t /\ is_ascii t = true) <-> Forall (fun c => 0 <= c < 128) l.
Proof.
  intros B. split.
  - intros (t & E & A). apply strict_some in E; [|exact B]. destruct (utf8_is_enc _ _ E) as [_ ->].
    rewrite (utf8_enc_ascii _ A) in *. unfold is_ascii in A. rewrite forallb_forall in A. unfold bytes in B. rewrite Forall_forall in *.
    intros x I. specialize (A x I). specialize (B x I). unfold byte in B. lia.
  - intros F. exists l. assert (A : is_ascii l = true).
    { apply forallb_forall. rewrite Forall_forall in F. intros x I. specialize (F x I). lia. }
    split; [|exact A]. rewrite <- (utf8_enc_ascii l A) at 1. apply utf8_strict_roundtrip.
    rewrite Forall_forall in F. apply Forall_forall. intros x I. specialize (F x I). unfold is_scalar. lia.
Qed.

Lemma alike_dec ks ks' n : alike ks ks' n \/ ~ alike ks ks' n.
Proof.
  unfold alike. induction n as [|n IH]; [left; intros; lia|].
  destruct IH as [IH|IH]; [|right; intro H; apply IH; intros; apply H; lia].
  destruct (Z.eq_dec (ks n / 128) (ks' n / 128)) as [E|E]; [left|right; intro H; apply E, H; lia].
  intros i Hi. destruct (Nat.eq_dec i n) as [-> |]; [exact E|apply IH; lia].
Qed.

Lemma cross_ascii ks ks' t : (forall j, byte (ks j)) -> (forall j, byte (ks' j)) -> Forall (fun c => 0 <= c < 128) t ->
  let l := mapi_from resolve_ascii_char 0 (xor_ks ks' 0 (body_ascii ks t)) in
  bytes l /\ (Forall (fun c => 0 <= c < 128) l <-> alike ks ks' (length t)).
Proof.
  intros K K' F. cbv zeta. rewrite cross.
  assert (N : forall i, (i < length t)%nat -> 0 <= nth i t 0 < 128).
  { intros i Hi. rewrite Forall_forall in F. apply F, nth_In, Hi. }
  split; [|split].
  - apply Forall_forall. intros x I. apply in_map_iff in I. destruct I as (i & <- & I). apply in_seq in I.
    apply lxor_byte; [unfold byte; specialize (N i); lia|apply lxor_byte; auto].
  - intros G i Hi. rewrite Forall_forall in G. apply (cross_high (nth i t 0)); auto.
    apply G, in_map_iff. exists i. split; [reflexivity|apply in_seq; lia].
  - intros G. apply Forall_forall. intros x I. apply in_map_iff in I. destruct I as (i & <- & I). apply in_seq in I.
    apply cross_high; auto; [apply N|apply G]; lia.
Qed.

Lemma dir_type t : t = 3 \/ t = 4 -> dtype_of t = DDir \/ dtype_of t = DImage.
Proof. intros [-> | ->]; cbn; auto. Qed.

Section guess.
  Variable st : list Z -> nat -> Z.
  Variable buf : list Z.
  Variable h : header.
  Hypothesis Hs : zlen buf < 2 ^ 31.
  Hypothesis Hh : header_of buf = Ok h.

  Lemma verify_ascii ks t o q iv : (forall j, byte (ks j)) -> (forall j, byte (st iv j)) -> Forall (fun c => 0 <= c < 128) t ->
    at_ buf o q (body_ascii ks t) ->
    (alike ks (st iv) (length t) -> verify_with_meta st buf (DEcb iv) (mkMeta o (zlen t) SAscii) = Ok tt) /\
    (~ alike ks (st iv) (length t) -> exists e, verify_with_meta st buf (DEcb iv) (mkMeta o (zlen t) SAscii) = Err e).
  Proof.
    intros K Hst F A. destruct (cross_ascii ks (st iv) t K Hst F) as [B I].
    pose proof (strict_ascii _ B) as S. rewrite I in S.
    unfold verify_with_meta. rewrite Hh. cbn [rbind sm_type sm_off sm_len]. unfold try_resolve_meta, resolve_ascii_raw, get_decrypt_slice.
    pose proof (at_range _ _ _ _ A) as (A1 & A2 & A3). unfold zlen in A2 at 1. rewrite body_ascii_length in A2. fold (zlen t) in A2.
    pose proof (zlen_nonneg t). rewrite wrap_small by (pows; lia). rewrite <- A2. cbn [reader_of rd_buf rd_ks].
    pose proof (range_at _ _ _ _ A) as R. unfold range in R. destruct (slice buf o q) as [l|] eqn:E; [|discriminate]. injection R as ->.
    cbn [rmap rbind]. set (l := mapi_from _ _ _) in *. split; intro G.
    - apply S in G. destruct G as (x & -> & G). cbn [rbind]. rewrite G. reflexivity.
    - destruct (utf8_strict l) as [x|]; cbn [rbind]; [|eauto]. destruct (is_ascii x) eqn:X; [|eauto].
      exfalso. apply G, S. eauto.
  Qed.

  Lemma first_meta_gen a q n ty m : (hd_ident h = IV1 \/ hd_ident h = IV2) ->
    int_at buf (hd_data_start h) a n -> (hd_ident h = IV1 -> 1 <= n <= 1000000) -> at_ buf a (a + 1) [ty] -> (ty = 3 \/ ty = 4) ->
    read_wz_string_meta (plain_rd buf) (a + 1) = (Ok m, q) -> first_meta buf = Ok m.
  Proof.
    intros Id I N A T M. unfold first_meta. rewrite Hh. cbn [rbind].
    rewrite (bind_ok _ _ _ _ _ (at_wzint (plain_rd buf) Hs _ _ _ I)).
    destruct (at_u8 (plain_rd buf) Hs _ _ ty ltac:(lia) A) as [U _].
    assert (U' : read_u8_at buf a = Ok ty) by (apply (f_equal fst) in U; exact U).
    match goal with |- context [bind ?m _ a] => assert (X : m a = (Ok (match hd_ident h with IV1 => n | _ => 1 end), a)) end.
    { destruct Id as [-> | ->] in N |- *.
      - specialize (N eq_refl). replace ((n <? 0) || (1000000 <? n)) with false by lia. reflexivity.
      - unfold bind, get_pos, lift. rewrite U'. destruct (dir_type ty T) as [-> | ->]; reflexivity. }
    rewrite (bind_ok _ _ _ _ _ X).
    replace (match hd_ident h with IV1 => n | _ => 1 end =? 0) with false
      by (destruct Id as [E|E]; rewrite E in *; [specialize (N eq_refl); lia|reflexivity]).
    rewrite (bind_ok _ _ _ _ _ U). destruct (dir_type ty T) as [-> | ->]; rewrite M; reflexivity.
  Qed.
  Lemma first_meta_ok ks t : t <> [] -> (hd_ident h = IV1 \/ hd_ident h = IV2) ->
    first_name (match hd_ident h with IV1 => true | _ => false end) buf (hd_data_start h) (enc_str ks t) ->
    exists o q, at_ buf o q (body ks t) /\
      first_meta buf = Ok (mkMeta o (zlen (body ks t)) (if asc t then SAscii else SUnicode)).
  Proof.
    intros Hn Id (a & q & n & ty & I & N & A & T & B).
    destruct (meta_shape (plain_rd buf) ks (a + 1) q t Hs Hn B) as (o & O & M). exists o, q. split; [exact O|].
    apply (first_meta_gen a q n ty); auto. intro E. rewrite E in N. auto.
  Qed.
End guess.

Lemma iv_key_byte aes iv j : block_cipher aes -> length iv = 4%nat -> bytes iv -> byte (iv_key aes iv j).
Proof.
  intros A L B. unfold iv_key. destruct (forallb _ iv); [unfold byte; lia|]. apply key_byte_byte; assumption.
Qed.
Lemma region_bytes r : length (region_iv r) = 4%nat /\ bytes (region_iv r).
Proof. destruct r; split; try reflexivity; unfold bytes; repeat constructor; lia. Qed.

(** lossy decoding that put no replacement is strict decoding *)
Lemma items_strict items t : map or_repl items = t -> ~ In 0xFFFD t -> all_some items = Some t.
Proof.
  intros <-. induction items as [|[c|] l IH]; cbn [map or_repl all_some]; intro N; [reflexivity| |].
  - rewrite IH; [reflexivity|]. intro I. apply N. now right.
  - exfalso. apply N. now left.
Qed.

Lemma lossy8 l t : bytes l -> utf8_lossy l = t -> Forall (fun c => 0 <= c < 128) t -> l = t.
Proof.
  intros B E F. assert (S : utf8_strict l = Some t).
  { apply items_strict; [exact E|]. intro I. rewrite Forall_forall in F. specialize (F _ I). lia. }
  apply strict_some in S; [|exact B]. destruct (utf8_is_enc _ _ S) as [_ ->]. apply utf8_enc_ascii.
  apply forallb_forall. rewrite Forall_forall in F. intros x I. specialize (F x I). lia.
Qed.
Lemma lossy16 us t : Forall (fun u => 0 <= u < 65536) us -> utf16_lossy us = t -> ~ In 0xFFFD t -> unicode t /\ us = units16 t.
Proof. intros B E N. apply (strict16 us t B). apply items_strict; assumption. Qed.

Lemma resolved_ascii r off len l t : at_ (rd_buf r) off (off + len) l -> zlen (rd_buf r) < 2 ^ 31 -> bytes l -> (forall j, byte (rd_ks r j)) ->
  Forall (fun c => 0 <= c < 128) t ->
  (resolve_meta r SAscii off len = Ok t <-> l = body_ascii (rd_ks r) t).
Proof.
  intros A Hs B K F. pose proof (at_range _ _ _ _ A) as (A1 & A2 & A3). pose proof (zlen_nonneg l).
  unfold resolve_meta, resolve_ascii_raw, get_decrypt_slice. rewrite wrap_small by (pows; lia).
  pose proof (range_at _ _ _ _ A) as R. unfold range in R. destruct (slice _ _ _) as [l'|]; [|discriminate]. injection R as ->.
  cbn [rmap rbind].
  assert (Bl : bytes (mapi_from resolve_ascii_char 0 (xor_ks (rd_ks r) 0 l))).
  { clear -B K. revert B. generalize 0%nat. unfold bytes. induction l as [|a l IH]; intros i B; [constructor|]. inversion_clear B. cbn [xor_ks mapi_from].
    constructor; [|apply IH; assumption]. unfold resolve_ascii_char. apply lxor_byte; [apply lxor_byte; [assumption|apply K]|].
    unfold byte. apply (wrap_range 8). lia. }
  split.
  - intro E. injection E as E. rewrite <- (ascii_back (rd_ks r) l). f_equal. apply lossy8; assumption.
  - intros ->. rewrite ascii_forth. f_equal. rewrite <- (utf8_enc_ascii t) at 1; [apply utf8_roundtrip|];
      [apply Forall_forall|apply forallb_forall]; rewrite Forall_forall in F; intros x I; specialize (F x I); unfold is_scalar; lia.
Qed.

Lemma resolved_unicode r off len l t : at_ (rd_buf r) off (off + len) l -> zlen (rd_buf r) < 2 ^ 31 -> bytes l -> (forall j, byte (rd_ks r j)) ->
  Z.even len = true -> unicode t -> ~ In 0xFFFD t ->
  (resolve_meta r SUnicode off len = Ok t <-> l = body_unicode (rd_ks r) (units16 t)).
Proof.
  intros A Hs B K Ev U N. pose proof (at_range _ _ _ _ A) as (A1 & A2 & A3). pose proof (zlen_nonneg l).
  unfold resolve_meta, resolve_unicode_raw, get_decrypt_slice. rewrite wrap_small by (pows; lia).
  pose proof (range_at _ _ _ _ A) as R. unfold range in R. destruct (slice _ _ _) as [l'|]; [|discriminate]. injection R as ->.
  assert (Ev' : Nat.even (length l) = true).
  { replace len with (zlen l) in Ev by lia. unfold zlen in Ev. apply Z.even_spec in Ev. destruct Ev as [k E]. apply Nat.even_spec. exists (Z.to_nat k). lia. }
  cbn [rbind]. destruct (unicode_back (rd_ks r) l K B Ev') as (us & U1 & U2 & U3). rewrite U1. cbn [rmap rbind].
  split.
  - intro E. injection E as E. destruct (lossy16 us t U2 E N) as [_ ->]. now symmetry.
  - intros ->. rewrite (unicode_forth _ _ K (units_unit t U)) in U1. injection U1 as <-. f_equal. apply utf16_roundtrip, unicode_scalars, U.
Qed.

Lemma at_same buf p q l l' : at_ buf p q l -> at_ buf p q l' -> l = l'.
Proof. intros A B. apply range_at in A, B. congruence. Qed.
Lemma at_head buf p q x l b : at_ buf p q (x :: l) -> at_ buf p (p + 1) [b] -> x = b.
Proof. intros A B. apply at_cons in A. destruct A as [A _]. pose proof (at_same _ _ _ _ _ A B). congruence. Qed.
Lemma slice_cases buf p e : 0 <= p ->
  (exists l, at_ buf p e l /\ slice buf p e = Some l) \/ slice buf p e = None.
Proof.
  intro P. destruct (slice buf p e) as [l|] eqn:S; [left|now right]. exists l. split; [|reflexivity].
  unfold slice in S. destruct ((0 <=? p) && (p <=? e) && (e <=? zlen buf)) eqn:C; [|discriminate].
  destruct (at_here buf p e ltac:(lia) ltac:(lia) ltac:(lia)) as (l' & A & _).
  pose proof (range_at _ _ _ _ A) as R. unfold range in R. unfold slice in R. rewrite C in R. congruence.
Qed.

Lemma ascii_unicode t : Forall (fun c => 0 <= c < 128) t -> unicode t /\ ~ In 0xFFFD t /\ units16 t = t.
Proof.
  intro F. split; [eapply Forall_impl; [|exact F]; cbv beta; intros; lia|]. split.
  - intro I. rewrite Forall_forall in F. specialize (F _ I). lia.
  - unfold units16. induction F as [|c l C F IH]; [reflexivity|]. cbn [flat_map]. replace (c <? 65536) with true by lia.
    rewrite IH. reflexivity.
Qed.

Section image.
  Variable r : rd.
  Hypothesis Hb : bytes (rd_buf r).
  Hypothesis Hs : zlen (rd_buf r) < 2 ^ 31.
  Hypothesis Hk : forall j, byte (rd_ks r j).
  Let buf := rd_buf r.
  Variable t : list Z.
  Hypothesis Ht : Forall (fun c => 0 <= c < 128) t.

  Lemma piece p n : 0 <= p <= zlen buf -> - 2 ^ 31 <= n < 2 ^ 31 ->
    (0 <= n /\ wrap 64 n = n /\ wrap 64 (p + n) = p + n /\ exists l, at_ buf p (p + n) l /\ zlen l = n /\ bytes l) \/
    (slice buf p (wrap 64 (p + wrap 64 n)) = None /\ ~ exists l, at_ buf p (p + n) l).
  Proof.
    intros P N. subst buf. rewrite wrap_add_r by lia. destruct (Z_le_dec 0 n) as [N0|N0].
    - rewrite !wrap_small by (pows; lia). destruct (slice_cases (rd_buf r) p (p + n) ltac:(lia)) as [(l & A & S)|S].
      + left. split; [exact N0|]. split; [reflexivity|]. split; [reflexivity|]. exists l. split; [exact A|].
        destruct (at_range _ _ _ _ A) as (_ & X & _). split; [lia|]. apply (at_bytes _ _ _ _ Hb A).
      + right. split; [exact S|]. intros (l & A). apply range_at in A. unfold range in A. rewrite S in A. discriminate.
    - right. split.
      + unfold slice. destruct (Z_le_dec 0 (p + n)).
        * rewrite wrap_small by (pows; lia). replace (p <=? p + n) with false by lia. rewrite andb_false_r. reflexivity.
        * rewrite wrap64_neg by (pows; lia). replace (p + n + 2 ^ 64 <=? zlen (rd_buf r)) with false by (pows; lia).
          rewrite andb_false_r. reflexivity.
      + intros (l & A). destruct (at_range _ _ _ _ A) as (_ & X & _). pose proof (zlen_nonneg l). lia.
  Qed.

  Lemma ascii_iff p n : 0 <= p <= zlen buf -> - 2 ^ 31 <= n < 2 ^ 31 ->
    (resolve_meta r SAscii p (wrap 64 n) = Ok t <-> n = zlen t /\ at_ buf p (p + n) (body_ascii (rd_ks r) t)).
  Proof.
    intros P N. destruct (piece p n P N) as [(N0 & W & _ & l & A & L & B)|[S No]].
    - rewrite W. rewrite (resolved_ascii r p n l t A Hs B Hk Ht). split.
      + intros ->. split; [|exact A]. rewrite <- L. unfold zlen. rewrite body_ascii_length. reflexivity.
      + intros [_ A']. apply (at_same _ _ _ _ _ A A').
    - split; [|intros [_ A]; exfalso; apply No; eauto].
      unfold resolve_meta, resolve_ascii_raw, get_decrypt_slice. subst buf. rewrite S. discriminate.
  Qed.

  Lemma unicode_iff p n : 0 <= p <= zlen buf -> - 2 ^ 31 <= n < 2 ^ 31 -> Z.even n = true ->
    (resolve_meta r SUnicode p (wrap 64 n) = Ok t <-> n = 2 * zlen t /\ at_ buf p (p + n) (body_unicode (rd_ks r) t)).
  Proof.
    intros P N E. destruct (ascii_unicode t Ht) as (U & NI & U16).
    destruct (piece p n P N) as [(N0 & W & _ & l & A & L & B)|[S No]].
    - rewrite W. rewrite (resolved_unicode r p n l t A Hs B Hk E U NI), U16. split.
      + intros ->. split; [|exact A]. rewrite <- L. unfold zlen. rewrite body_unicode_length. lia.
      + intros [_ A']. apply (at_same _ _ _ _ _ A A').
    - split; [|intros [_ A]; exfalso; apply No; eauto].
      unfold resolve_meta, resolve_unicode_raw, get_decrypt_slice. subst buf. rewrite S. discriminate.
  Qed.
End image.

Lemma at_len buf p q l : at_ buf p q l -> q = p + zlen l.
Proof. intro A. apply (at_range _ _ _ _ A). Qed.

Lemma le4_signed l : bytes l -> zlen l = 4 -> exists n, - 2 ^ 31 <= n < 2 ^ 31 /\ l = enc_le 4 n.
Proof.
  intros B L. exists (sext 32 (le_val l)). split; [apply (sext_range 32); lia|]. rewrite enc_le_eq.
  assert (E : length l = 4%nat) by (unfold zlen in L; lia).
  assert (W : forall y, bytes (le_bytes 4 y)) by (intro y; apply le_bytes_bytes).
  rewrite <- (le_bytes_le_val _ (W (sext 32 (le_val l)))). rewrite le_bytes_length, le_val_le_bytes.
  change (8 * Z.of_nat 4) with 32. rewrite wrap_sext by lia. pose proof (le_val_range l B) as R. rewrite L in R.
  rewrite wrap_small by exact R. rewrite <- E. symmetry. apply le_bytes_le_val, B.
Qed.

Section property.
  Variable r : rd.
  Hypothesis Hb : bytes (rd_buf r).
  Hypothesis Hs : zlen (rd_buf r) < 2 ^ 31.
  Hypothesis Hk : forall j, byte (rd_ks r j).
  Let buf := rd_buf r.

  Lemma i32_cases p : 0 <= p ->
    (exists n, - 2 ^ 31 <= n < 2 ^ 31 /\ at_ buf p (p + 4) (enc_le 4 n) /\ read_i32 r p = (Ok n, p + 4)) \/
    (exists q, read_i32 r p = (Err ERead, q)) /\ ~ exists l, at_ buf p (p + 4) l.
  Proof.
    intro P. subst buf. destruct (slice_cases (rd_buf r) p (p + 4) ltac:(lia)) as [(l & A & S)|S].
    - left. destruct (le4_signed l (at_bytes _ _ _ _ Hb A)) as (n & N & ->); [apply at_len in A; lia|].
      exists n. split; [exact N|]. split; [exact A|]. apply (at_i32 r Hs); assumption.
    - right. split.
      + eexists. unfold read_i32, cur_read, read_i32_at, read_at. rewrite S. reflexivity.
      + intros (l & A). apply range_at in A. unfold range in A. rewrite S in A. discriminate.
  Qed.

  Lemma i8_cases p : 0 <= p ->
    (exists b, byte b /\ at_ buf p (p + 1) [b] /\ read_i8 r p = (Ok (if b <? 128 then b else b - 256), p + 1)) \/
    (exists q, read_i8 r p = (Err ERead, q)) /\ ~ exists l, at_ buf p (p + 1) l.
  Proof.
    intro P. subst buf. destruct (slice_cases (rd_buf r) p (p + 1) ltac:(lia)) as [(l & A & S)|S].
    - left. pose proof (at_bytes _ _ _ _ Hb A) as B. pose proof (at_len _ _ _ _ A) as L.
      destruct l as [|b [|c l]]; rewrite ?zlen_cons, ?zlen_nil in L; [lia| |pose proof (zlen_nonneg l); lia].
      inversion_clear B. exists b. split; [assumption|]. split; [exact A|].
      assert (X : (if b <? 128 then b else b - 256) mod 256 = b).
      { unfold byte in *. destruct (Z.ltb_spec b 128); [apply Z.mod_small; lia|]. symmetry. apply (Z.mod_unique _ _ (-1)); lia. }
      rewrite <- X in A at 1. apply (at_i8 r Hs _ _ _) in A; [exact (proj1 A)|]. unfold byte in *. destruct (b <? 128) eqn:?; lia.
    - right. split.
      + eexists. unfold read_i8, cur_read, read_i8_at, read_at. rewrite S. reflexivity.
      + intros (l & A). apply range_at in A. unfold range in A. rewrite S in A. discriminate.
  Qed.

  Definition good {A} (x : res A) : Prop := match x with Ok _ | Err _ => True | _ => False end.
  Lemma good_bind {A B} (x : res A) (f : A -> res B) : good x -> (forall a, x = Ok a -> good (f a)) -> good (rbind x f).
  Proof. destruct x; cbn; auto. Qed.
  Lemma good_R {A B} (m : R A) (f : A -> R B) p : good (fst (m p)) -> (forall a q, m p = (Ok a, q) -> good (fst (f a q))) -> good (fst (bind m f p)).
  Proof. unfold bind. destruct (m p) as [[a|e| |] q]; cbn; auto. Qed.
  Lemma good_read n f p : (forall buf pos, good (f buf pos : res Z)) -> good (fst (cur_read n f r p)).
  Proof. intro F. apply F. Qed.
  Lemma good_read_at n b p : good (read_at n b p).
  Proof. unfold read_at. destruct (slice _ _ _); exact I. Qed.

  Lemma chunks_good l : Nat.even (length l) = true -> exists us, chunks_u16 l = Ok us.
  Proof.
    revert l. apply (pairs_ind (fun l => exists us, chunks_u16 l = Ok us)); [eexists; reflexivity|].
    intros a b l [us E]. cbn [chunks_u16]. rewrite E. eexists. reflexivity.
  Qed.
  Lemma xor_length ks i l : length (xor_ks ks i l) = length l.
  Proof. revert i. induction l; intro i; cbn; [reflexivity|]. rewrite IHl. reflexivity. Qed.
  Lemma slice_even b p n l : Z.even n = true -> slice b p (wrap 64 (p + n)) = Some l -> Nat.even (@length Z l) = true.
  Proof.
    intros E S. apply slice_some in S. destruct S as (S1 & S2 & S3 & S4).
    assert (X : Z.even (zlen l) = true).
    { replace (zlen l) with (wrap 64 (p + n) - p) by lia. unfold wrap. rewrite Z.even_sub.
      rewrite Z.mod_eq by (pows; lia). rewrite Z.even_sub, Z.even_mul, Z.even_add, E.
      change (Z.even (2 ^ 64)) with true. destruct (Z.even p); reflexivity. }
    unfold zlen in X. apply Z.even_spec in X. destruct X as [k X]. apply Nat.even_spec. exists (Z.to_nat k). lia.
  Qed.
  Lemma good_resolve ty p n : (ty <> SAscii -> Z.even n = true) -> good (resolve_meta r ty p n) /\ good (try_resolve_meta r ty p n).
  Proof.
    intro E. unfold resolve_meta, try_resolve_meta, resolve_unicode_raw, resolve_ascii_raw, resolve_pkg2_dir_raw, get_decrypt_slice, get_pkg2_decrypt_slice.
    destruct ty; [| | |split; exact I]; (destruct (slice _ _ _) as [l|] eqn:S; [|split; exact I]); cbn [rbind rmap].
    - split; [exact I|]. destruct (utf8_strict _); exact I.
    - destruct (chunks_good (xor_ks (rd_ks r) 0 l)) as [us U]; [rewrite xor_length; apply (slice_even _ _ _ _ (E ltac:(discriminate)) S)|].
      unfold rmap. rewrite U. cbn [rbind]. split; [exact I|]. destruct (utf16_strict _); exact I.
    - destruct (chunks_good (xor_ks (rd_pks r) 0 l)) as [us U]; [rewrite xor_length; apply (slice_even _ _ _ _ (E ltac:(discriminate)) S)|].
      unfold rmap. rewrite U. cbn [rbind]. split; [exact I|]. destruct (utf16_strict _); exact I.
  Qed.

  Lemma even_wrap_sext n : Z.even (wrap 64 (sext 32 (n * 2))) = true.
  Proof.
    assert (M : forall k x, 0 < k -> Z.even (x mod 2 ^ k) = Z.even x).
    { intros k x K. rewrite Z.mod_eq by lia. rewrite Z.even_sub, Z.even_mul. replace (Z.even (2 ^ k)) with true; [destruct (Z.even x); reflexivity|].
      symmetry. rewrite Z.even_pow by exact K. reflexivity. }
    unfold wrap at 1. rewrite M by lia. unfold sext, wrap. destruct (_ <? _); [|rewrite Z.even_sub; change (Z.even (2 ^ 32)) with true];
      rewrite M, Z.even_mul by lia; destruct (Z.even n); reflexivity.
  Qed.

  Lemma good_read_string p : good (fst (read_wz_string r p)).
  Proof.
    unfold read_wz_string. apply good_R; [apply good_read; intros; unfold read_i8_at, rmap; apply good_bind; [apply good_read_at|intros; exact I]|].
    assert (G32 : forall q, good (fst (read_i32 r q))).
    { intros q. apply good_read; intros; unfold read_i32_at, rmap; apply good_bind; [apply good_read_at|intros; exact I]. }
    intros sl q _. unfold string_type. destruct (sl =? 0); [exact I|]. destruct (0 <? sl).
    - unfold read_unicode_string. apply good_R.
      { unfold unicode_str_len. destruct (sl =? 127); [apply G32|exact I]. }
      intros n q' _. destruct (n =? 0); [exact I|]. apply good_R; [exact I|]. intros p' q'' _. apply good_R.
      { apply good_resolve. intros _. apply even_wrap_sext. }
      intros s q3 _. exact I.
    - unfold read_ascii_string. apply good_R.
      { unfold ascii_str_len. destruct (sl =? -128); [apply G32|exact I]. }
      intros n q' _. cbv zeta. destruct (wrap 64 n =? 0); [exact I|]. apply good_R; [exact I|]. intros p' q'' _. apply good_R.
      { apply good_resolve. congruence. }
      intros s q3 _. exact I.
  Qed.

  Lemma last_part (f : Z -> res text) (g : text -> R text) p :
    (forall s q, fst (g s q) = Ok s) -> fst (bind get_pos (fun x => bind (lift (f x)) g) p) = f p.
  Proof. intro G. unfold bind, get_pos, lift. cbn. destruct (f p); cbn; try reflexivity. apply G. Qed.

  Let P : list Z := codes "Property".
  Lemma P_ascii : Forall (fun c => 0 <= c < 128) P.
  Proof. unfold P. repeat constructor; vm_compute; congruence. Qed.
  Lemma P_zlen : zlen P = 8. Proof. reflexivity. Qed.
  Lemma ascii_len : forall k, zlen (body_ascii k P) = 8.
  Proof. intro k. unfold zlen. rewrite body_ascii_length. reflexivity. Qed.
  Lemma unicode_len : forall k, zlen (body_unicode k P) = 16.
  Proof. intro k. unfold zlen. rewrite body_unicode_length. reflexivity. Qed.

  (** What follows the length byte. *)
  Lemma short_ascii p n : 0 <= p <= zlen buf -> - 2 ^ 31 <= n < 2 ^ 31 ->
    (fst ((if wrap 64 n =? 0 then ret [] else
             bind get_pos (fun x => bind (lift (resolve_meta r SAscii x (wrap 64 n))) (fun s => bind (skip (wrap 64 n)) (fun _ => ret s)))) p) = Ok P
     <-> n = 8 /\ at_ buf p (p + 8) (body_ascii (rd_ks r) P)).
  Proof.
    intros B N. destruct (Z.eqb_spec (wrap 64 n) 0) as [E|E].
    - split; [discriminate|]. intros [-> _]. discriminate E.
    - rewrite last_part by reflexivity. unfold buf. rewrite (ascii_iff r Hb Hs Hk P P_ascii p n B N), P_zlen.
      split; intros [-> A]; split; auto.
  Qed.
  Lemma short_unicode p n : 0 <= p <= zlen buf -> - 2 ^ 31 <= n < 2 ^ 31 ->
    (fst ((if n =? 0 then ret [] else
             bind get_pos (fun x => bind (lift (resolve_meta r SUnicode x (wrap 64 (sext 32 (n * 2))))) (fun s => bind (skip (wrap 64 (sext 32 (n * 2)))) (fun _ => ret s)))) p) = Ok P
     <-> n mod 2 ^ 31 = 8 /\ at_ buf p (p + 16) (body_unicode (rd_ks r) P)).
  Proof.
    intros B N. destruct (Z.eqb_spec n 0) as [E|E].
    - split; [discriminate|]. intros [X _]. subst n. discriminate X.
    - rewrite last_part by reflexivity. unfold buf.
      assert (Ev : Z.even (sext 32 (n * 2)) = true).
      { pose proof (even_wrap_sext n) as W. unfold wrap in W. rewrite Z.mod_eq in W by (pows; lia). rewrite Z.even_sub, Z.even_mul in W.
        change (Z.even (2 ^ 64)) with true in W. destruct (Z.even (sext 32 (n * 2))); [reflexivity|discriminate W]. }
      rewrite (unicode_iff r Hb Hs Hk P P_ascii p (sext 32 (n * 2)) B (sext_range 32 _ ltac:(lia)) Ev), P_zlen.
      assert (Q : sext 32 (n * 2) = 16 <-> n mod 2 ^ 31 = 8).
      { unfold sext, wrap. cbv zeta. change (2 ^ (32 - 1)) with (2 ^ 31). pose proof (Z.mod_pos_bound (n * 2) (2 ^ 32) ltac:(lia)).
        pose proof (Z.mod_pos_bound n (2 ^ 31) ltac:(lia)).
        assert (D : (n * 2) mod 2 ^ 32 = 2 * (n mod 2 ^ 31)).
        { change (2 ^ 32) with (2 ^ 31 * 2). rewrite Z.mul_mod_distr_r by (pows; lia). lia. }
        rewrite D in *. pows. destruct (_ <? _) eqn:X; lia. }
      split.
      + intros [X A]. rewrite X in A. split; [apply Q, X|exact A].
      + intros [X A]. apply Q in X. rewrite X. split; [reflexivity|exact A].
  Qed.

  Lemma property_iff : fst (read_wz_string r 1) = Ok P <-> exists q l, says_property (rd_ks r) l /\ at_ buf 1 q l.
  Proof.
    assert (Hd : forall q l, says_property (rd_ks r) l -> at_ buf 1 q l -> exists x, at_ buf 1 (1 + 1) [x]).
    { intros q l S A. destruct S; apply at_cons in A; destruct A as [A _]; eauto. }
    unfold read_wz_string, bind at 1. destruct (i8_cases 1 ltac:(lia)) as [(b & B & A & ->)|[[q ->] No]].
    2: { split; [discriminate|]. intros (q' & l & S & A). exfalso. apply No. destruct (Hd _ _ S A). eauto. }
    change (1 + 1) with 2 in *. pose proof (at_range _ _ _ _ A) as (_ & A1 & A2). 
    assert (P2 : 0 <= 2 <= zlen buf) by (rewrite zlen_cons, zlen_nil in A1; lia).
    unfold byte in B.
    destruct (Z.eq_dec b 0) as [->|N0].
    { change (if 0 <? 128 then 0 else 0 - 256) with 0. cbn [string_type Z.eqb]. split; [discriminate|].
      intros (q & l & S & A'). destruct S; pose proof (at_head _ _ _ _ _ _ A' A); discriminate. }
    destruct (Z.ltb_spec b 128) as [Lt|Ge].
    - unfold string_type. destruct (Z.eqb_spec b 0) as [?Hb0|?Hb0]; [lia|]. destruct (Z.ltb_spec 0 b); [|lia].
      unfold read_unicode_string, unicode_str_len. destruct (Z.eqb_spec b 127) as [->|N127].
      + unfold bind at 1. destruct (i32_cases 2 ltac:(lia)) as [(n & N & I & ->)|[[q ->] No]].
        * pose proof (at_range _ _ _ _ I) as (_ & I1 & I2). change (2 + 4) with 6 in *.
          assert (P6 : 0 <= 6 <= zlen buf) by (change (zlen (enc_le 4 n)) with 4 in I1; lia).
          rewrite (short_unicode 6 n P6 N). split.
          -- intros [M X]. exists 22, (127 :: enc_le 4 n ++ body_unicode (rd_ks r) P). split; [constructor; exact M|].
             apply at_cons. split; [exact A|]. apply at_split. split; [exact I|exact X].
          -- intros (q & l & S & X). destruct S as [| | |m M]; pose proof (at_head _ _ _ _ _ _ X A) as E; try discriminate.
             apply at_cons in X. destruct X as [_ X]. apply at_split in X. destruct X as [X Y].
             change (zlen (enc_le 4 m)) with 4 in *. change (1 + 1 + 4) with 6 in *. change (1 + 1) with 2 in *.
             pose proof (at_same _ _ _ _ _ X I) as En. pose proof (at_len _ _ _ _ Y) as L. fold P in L. rewrite (unicode_len (rd_ks r)) in L. subst q.
             split; [|exact Y]. rewrite !enc_le_eq in En. apply (f_equal le_val) in En. rewrite !le_val_le_bytes in En.
             change (8 * Z.of_nat 4) with 32 in En. rewrite <- M. unfold wrap in En.
             clear - En. pows. Z.div_mod_to_equations. lia.
        * split; [discriminate|]. intros (q' & l & S & X). exfalso. destruct S; pose proof (at_head _ _ _ _ _ _ X A) as E; try discriminate.
          apply at_cons in X. destruct X as [_ X]. apply at_split in X. destruct X as [X _]. apply No. eexists. exact X.
      + unfold bind at 1, ret at 1. rewrite (short_unicode 2 b P2 ltac:(pows; lia)). rewrite Z.mod_small by (pows; lia). split.
        * intros [-> X]. exists 18, (8 :: body_unicode (rd_ks r) P). split; [constructor|]. apply at_cons. split; [exact A|exact X].
        * intros (q & l & S & X). destruct S; pose proof (at_head _ _ _ _ _ _ X A) as E; subst b; try discriminate; try lia.
          split; [reflexivity|]. apply at_cons in X. destruct X as [_ X]. pose proof (at_len _ _ _ _ X) as L. fold P in L. rewrite (unicode_len (rd_ks r)) in L. subst q. exact X.
    - unfold string_type. destruct (Z.eqb_spec (b - 256) 0) as [?Hb0|?Hb0]; [lia|]. destruct (Z.ltb_spec 0 (b - 256)); [lia|].
      unfold read_ascii_string, ascii_str_len. destruct (Z.eqb_spec (b - 256) (-128)) as [E128|N128].
      + assert (b = 128) by lia. subst b.
        unfold bind at 1. destruct (i32_cases 2 ltac:(lia)) as [(n & N & I & ->)|[[q ->] No]].
        * pose proof (at_range _ _ _ _ I) as (_ & I1 & I2). change (2 + 4) with 6 in *.
          assert (P6 : 0 <= 6 <= zlen buf) by (change (zlen (enc_le 4 n)) with 4 in I1; lia).
          cbv zeta. rewrite (short_ascii 6 n P6 N). split.
          -- intros [-> X]. exists 14, (128 :: enc_le 4 8 ++ body_ascii (rd_ks r) P). split; [constructor|].
             apply at_cons. split; [exact A|]. apply at_split. split; [exact I|exact X].
          -- intros (q & l & S & X). destruct S as [| | |m M]; pose proof (at_head _ _ _ _ _ _ X A) as E; try discriminate.
             apply at_cons in X. destruct X as [_ X]. apply at_split in X. destruct X as [X Y].
             change (zlen (enc_le 4 8)) with 4 in *. change (1 + 1 + 4) with 6 in *. change (1 + 1) with 2 in *.
             pose proof (at_same _ _ _ _ _ X I) as En. pose proof (at_len _ _ _ _ Y) as L. fold P in L. rewrite (ascii_len (rd_ks r)) in L. subst q.
             split; [|exact Y]. rewrite !enc_le_eq in En. apply (f_equal le_val) in En. rewrite !le_val_le_bytes in En.
             change (8 * Z.of_nat 4) with 32 in En. change (wrap 32 8) with 8 in En. unfold wrap in En. pows.
             Z.div_mod_to_equations. lia.
        * split; [discriminate|]. intros (q' & l & S & X). exfalso. destruct S; pose proof (at_head _ _ _ _ _ _ X A) as E; try discriminate.
          apply at_cons in X. destruct X as [_ X]. apply at_split in X. destruct X as [X _]. apply No. eexists. exact X.
      + unfold bind at 1, ret at 1. cbv zeta. rewrite (short_ascii 2 (- (b - 256)) P2 ltac:(pows; lia)). split.
        * intros [E X]. assert (b = 248) by lia. subst b. exists 10, (248 :: body_ascii (rd_ks r) P). split; [constructor|]. apply at_cons. split; [exact A|exact X].
        * intros (q & l & S & X). destruct S; pose proof (at_head _ _ _ _ _ _ X A) as E; subst b; try discriminate; try lia.
          split; [reflexivity|]. apply at_cons in X. destruct X as [_ X]. pose proof (at_len _ _ _ _ X) as L. fold P in L. rewrite (ascii_len (rd_ks r)) in L. subst q. exact X.
  Qed.
End property.

Lemma says_start ks ks' buf q q' l l' : says_property ks l -> says_property ks' l' -> at_ buf 1 q l -> at_ buf 1 q' l' ->
  ks 0%nat = ks' 0%nat.
Proof.
  intros S S' A A'.
  assert (X : forall a b p e e' x y, at_ buf p e (Z.lxor x a :: y) -> forall y', at_ buf p e' (Z.lxor x b :: y') -> a = b).
  { intros a b p e e' x y B y' B'. apply at_cons in B, B'. pose proof (at_same _ _ _ _ _ (proj1 B) (proj1 B')) as E.
    injection E as E. apply (f_equal (Z.lxor x)) in E. rewrite <- !Z.lxor_assoc, !Z.lxor_nilpotent, !Z.lxor_0_l in E. exact E. }
  destruct S, S'; apply at_cons in A, A'; destruct A as [B A], A' as [B' A']; pose proof (at_same _ _ _ _ _ B B') as E; try discriminate E; clear E.
  - exact (X _ _ _ _ _ _ _ A _ A').
  - apply at_split in A, A'. exact (X _ _ _ _ _ _ _ (proj2 A) _ (proj2 A')).
  - exact (X _ _ _ _ _ _ _ A _ A').
  - apply at_split in A, A'. destruct A as [_ A], A' as [_ A'].
    change (zlen (enc_le 4 n)) with 4 in A. change (zlen (enc_le 4 n0)) with 4 in A'. exact (X _ _ _ _ _ _ _ A _ A').
Qed.

(** Nothing here panics. *)
Lemma pick_good buf ix : Forall (fun i => Z.of_nat i < zlen buf) ix -> good (pick buf ix).
Proof.
  induction 1 as [|i l I F IH]; cbn; [exact Logic.I|]. destruct (nth_error buf i) eqn:E.
  - unfold rmap. apply good_bind; [exact IH|intros; exact Logic.I].
  - apply nth_error_None in E. unfold zlen in I. lia.
Qed.
Lemma random_good buf size f fl : (size <= zlen buf -> good (f buf)) -> good (read_random_header buf size f fl).
Proof.
  intro F. unfold read_random_header. destruct (Z.ltb_spec (zlen buf) size); [exact I|]. apply good_bind; [apply F; lia|].
  intros [[a b] c] _. destruct (_ =? _); exact I.
Qed.
Lemma good_rmap_read n b p (f : Z -> Z) : good (rmap f (read_at n b p)).
Proof. unfold rmap. apply good_bind; [apply good_read_at|intros; exact I]. Qed.
Lemma read_header_good buf : good (read_header buf).
Proof.
  unfold read_header. apply good_bind.
  { unfold get_ident. destruct (slice buf 0 4) as [l|]; [|exact I].
    repeat match goal with |- good match ?x with _ => _ end => destruct x end; exact I. }
  intros id _.
  assert (V : forall id, id <> IUnknown -> good (rbind (read_u64_at buf 4) (fun fsize => rbind (read_u32_at buf 12) (fun fstart =>
    match id with
    | IV1 => let e := get_encrypted_version buf fsize fstart in
      let ds := match e with Some _ => fstart + 2 | None => fstart end in Ok (mkHeader IV1 fsize fstart ds e 0 0 FNone, fstart)
    | _ => rbind (read_u32_at buf fstart) (fun h1 => rbind (read_u32_at buf (fstart + 4)) (fun h2 =>
      Ok (mkHeader IV2 fsize fstart (fstart + 8) None h1 h2 FNone, fstart)))
    end)))).
  { intros i _. apply good_bind; [apply good_read_at|]. intros a _. apply good_bind; [apply good_read_at|]. intros b _.
    destruct i; [exact I| |]; (apply good_bind; [apply good_read_at|]; intros; apply good_bind; [apply good_read_at|]; intros; exact I). }
  destruct id; [apply (V IV1); discriminate|apply (V IV2); discriminate|].
  assert (G1 : good (read_random_header buf 150 read_kmst1202 FRandom64)).
  { apply random_good. intro L. unfold read_kmst1202.
    apply good_bind; [apply pick_good; repeat constructor; lia|]. intros. apply good_bind; [apply pick_good; repeat constructor; lia|].
    intros. apply good_bind; [apply pick_good; repeat constructor; lia|]. intros. exact I. }
  destruct (read_random_header buf 150 _ _); [exact I| |contradiction|contradiction].
  apply random_good. intro L. unfold read_kmst1201.
  apply good_bind; [apply pick_good; repeat constructor; lia|]. intros. apply good_bind; [apply pick_good; repeat constructor; lia|].
  intros. apply good_bind; [apply pick_good; repeat constructor; lia|]. intros. exact I.
Qed.
Lemma header_of_good buf : good (header_of buf).
Proof. unfold header_of. pose proof (read_header_good buf) as G. destruct (read_header buf) as [[h p]|e| |]; try exact I; contradiction. Qed.

Section total.
  Variable st : list Z -> nat -> Z.

  Definition even_meta (m : smeta) : Prop := sm_type m <> SAscii -> Z.even (sm_len m) = true.
  Lemma even_wrap k x : 0 < k -> Z.even (wrap k x) = Z.even x.
  Proof.
    intros K. unfold wrap. rewrite Z.mod_eq by lia. rewrite Z.even_sub, Z.even_mul. replace (Z.even (2 ^ k)) with true; [destruct (Z.even x); reflexivity|].
    symmetry. rewrite Z.even_pow by exact K. reflexivity.
  Qed.
  Definition fine (m : R smeta) : Prop := forall p, good (fst (m p)) /\ forall x q, m p = (Ok x, q) -> even_meta x.
  Lemma fine_bind {A} (m : R A) f : (forall p, good (fst (m p))) -> (forall a, fine (f a)) -> fine (bind m f).
  Proof.
    intros G F p. split.
    - apply good_R; [apply G|]. intros a q _. apply F.
    - intros x q. unfold bind. destruct (m p) as [[a|e| |] q'] eqn:E; try discriminate. apply F.
  Qed.
  Lemma fine_ret m : even_meta m -> fine (ret m).
  Proof. intros E p. split; [exact I|]. intros x q H. injection H as <- _. exact E. Qed.
  Lemma fine_fail e : fine (fail e).
  Proof. intros p. split; [exact I|]. discriminate. Qed.
  Lemma good_read_i32 r p : good (fst (read_i32 r p)).
  Proof. apply good_read. intros. apply good_rmap_read. Qed.
  Lemma good_read_i8 r p : good (fst (read_i8 r p)).
  Proof. apply good_read. intros. apply good_rmap_read. Qed.
  Lemma good_read_u8 r p : good (fst (read_u8 r p)).
  Proof. apply good_read. intros. apply good_read_at. Qed.
  Lemma good_int r p : good (fst (read_wz_int r p)).
  Proof.
    unfold read_wz_int. apply good_R; [apply good_read_i8|]. intros a q _. destruct (_ =? _); [apply good_read_i32|exact I].
  Qed.
  Lemma fine_meta r : fine (read_wz_string_meta r).
  Proof.
    unfold read_wz_string_meta. apply fine_bind; [apply good_read_i8|]. intros sl.
    assert (M : forall p n t, (t <> SAscii -> Z.even n = true) -> fine (bind (skip n) (fun _ => ret (mkMeta p n t)))).
    { intros p n t E. apply fine_bind; [intro; exact I|]. intros _. apply fine_ret. exact E. }
    destruct (string_type sl).
    - destruct (_ =? _).
      + apply fine_bind; [apply good_read_i32|]. intro n. apply fine_bind; [intro; exact I|]. intro p.
        apply fine_bind; [intro; exact I|]. intros _. apply fine_ret. intros X. cbn in X. congruence.
      + apply fine_bind; [intro; exact I|]. intro p. apply M. congruence.
    - destruct (_ =? _).
      + apply fine_bind; [apply good_read_i32|]. intro n. apply fine_bind; [intro; exact I|]. intro p.
        apply M. intros _. rewrite even_wrap, Z.even_mul by lia. apply orb_true_r.
      + apply fine_bind; [intro; exact I|]. intro p. apply M. intros _. rewrite Z.even_mul. apply orb_true_r.
    - destruct (_ =? _).
      + apply fine_bind; [apply good_read_i32|]. intro n. apply fine_bind; [intro; exact I|]. intro p.
        apply fine_bind; [intro; exact I|]. intros _. apply fine_ret. intros X. cbn in X. congruence.
      + apply fine_bind; [intro; exact I|]. intro p. apply M. congruence.
    - apply fine_ret. intros _. reflexivity.
  Qed.
  Lemma fine_meta_at r o : fine (read_wz_string_meta_at r o).
  Proof.
    intro p. unfold read_wz_string_meta_at, at_offset. destruct (fine_meta r o) as [G E]. destruct (read_wz_string_meta r o) as [x q].
    split; [exact G|]. intros y q' H. injection H as -> <-. apply (E y q eq_refl).
  Qed.
  Lemma fine_pkg2 r : fine (read_pkg2_dir_meta r).
  Proof.
    unfold read_pkg2_dir_meta. apply fine_bind; [apply good_read_i8|]. intro len. destruct (_ <=? _).
    - apply fine_ret. intros _. reflexivity.
    - apply fine_bind; [intro; exact I|]. intro p. apply fine_bind; [intro; exact I|]. intros _. apply fine_ret. intros _. cbn [sm_len].
      rewrite even_wrap, even_wrap, Z.even_mul by lia. apply orb_true_r.
  Qed.

  Definition good_meta (x : res smeta) : Prop := good x /\ forall m, x = Ok m -> even_meta m.
  Lemma fine_good m p : fine m -> good_meta (fst (m p)).
  Proof.
    intros F. destruct (F p) as [G E]. split; [exact G|]. intros x H. destruct (m p) as [y q]. cbn in H. subst y. apply (E x q eq_refl).
  Qed.
  Lemma good_meta_bind {A} (x : res A) f : good x -> (forall a, x = Ok a -> good_meta (f a)) -> good_meta (rbind x f).
  Proof.
    intros G F. split.
    - apply good_bind; [exact G|]. intros a E. apply F, E.
    - intros m. destruct x; try discriminate. apply F. reflexivity.
  Qed.
  Lemma first_meta_good buf : good_meta (first_meta buf).
  Proof.
    unfold first_meta. apply good_meta_bind; [apply header_of_good|]. intros h _. apply fine_good.
    apply fine_bind; [apply good_int|]. intro n. apply fine_bind.
    - intro p. destruct (hd_ident h).
      + destruct (_ || _); exact I.
      + apply good_R; [exact I|]. intros. apply good_R; [apply good_read_at|]. intros b q' _. destruct (dtype_of b); exact I.
      + exact I.
    - intro k. destruct (k =? 0); [apply fine_fail|]. apply fine_bind; [apply good_read_u8|]. intro b.
      destruct (dtype_of b); try apply fine_fail; try apply fine_meta.
      apply fine_bind; [apply good_read_i32|]. intro so. apply fine_meta_at.
  Qed.
  Lemma first_pkg2_good buf : good_meta (first_pkg2_meta buf).
  Proof.
    unfold first_pkg2_meta. apply good_meta_bind; [apply header_of_good|]. intros h _.
    destruct (hd_ident h); [split; [exact I|discriminate]| |split; [exact I|discriminate]]. apply fine_good.
    apply fine_bind; [apply good_int|]. intro n. apply fine_bind; [apply good_read_u8|]. intro t. destruct (t =? 128); [|apply fine_pkg2].
    apply fine_bind; [intro; exact I|]. intro p. apply fine_bind; [intro; exact I|]. intros _. apply fine_bind; [apply good_int|]. intro x.
    destruct (x =? n); [|apply fine_fail]. apply fine_ret. intros _. reflexivity.
  Qed.

  Lemma verify_meta_good buf d m : even_meta m -> good (verify_with_meta st buf d m).
  Proof.
    intros E. unfold verify_with_meta. apply good_bind; [apply header_of_good|]. intros _ _. apply good_bind; [apply good_resolve, E|].
    intros t _. destruct (is_ascii t); exact I.
  Qed.
  Lemma first_verified_good buf m ds : even_meta m -> good (first_verified st buf m ds).
  Proof.
    intros E. induction ds as [|d t IH]; [exact I|]. cbn [first_verified]. pose proof (verify_meta_good buf d m E) as G.
    destruct (verify_with_meta st buf d m); try exact IH; try contradiction. exact I.
  Qed.
  Lemma try_all_good buf m ds : good_meta m -> good (try_all st buf m ds).
  Proof.
    intros [G E]. destruct m as [m|e| |]; try contradiction; [|exact I]. cbn [try_all].
    destruct (sm_type m) eqn:T; try exact I; apply first_verified_good, E; reflexivity.
  Qed.
  Lemma guess_good buf : good (guess_decr st buf).
  Proof.
    unfold guess_decr. apply good_bind; [apply try_all_good, first_meta_good|]. intros [d|] _; [exact I|]. apply try_all_good, first_pkg2_good.
  Qed.
  Lemma verify_good buf d : good (verify_decr st buf d).
  Proof. unfold verify_decr. destruct (first_meta_good buf) as [G E]. apply good_bind; [exact G|]. intros m H. apply verify_meta_good, E, H. Qed.
  Lemma verify_iv_good buf iv : good (verify_iv_file st buf iv).
  Proof.
    unfold verify_iv_file. destruct (first_meta_good buf) as [G E]. apply good_bind; [exact G|]. intros m H.
    apply good_bind; [apply good_resolve, E, H|intros; exact I].
  Qed.
  Lemma guess_iv_good buf : good (guess_iv_file st buf).
  Proof.
    unfold guess_iv_file. induction (map iv_of_version _) as [|iv l IH]; [exact I|]. cbn [first_file_iv].
    pose proof (verify_iv_good buf iv) as G. destruct (verify_iv_file st buf iv); try exact IH; try contradiction. exact I.
  Qed.
  Lemma verify_img_good buf iv : exists b, verify_img st buf iv = Ok b.
  Proof.
    unfold verify_img. pose proof (good_read_string (mkRd buf (st iv) (st iv)) 1) as G.
    destruct (fst (read_wz_string _ 1)); try contradiction; eexists; reflexivity.
  Qed.
  Lemma first_img_good buf ivs : exists o, first_img_iv st buf ivs = Ok o.
  Proof.
    induction ivs as [|iv l IH]; [eexists; reflexivity|]. cbn [first_img_iv]. destruct (verify_img_good buf iv) as [b ->]. cbn [rbind].
    destruct b; [eexists; reflexivity|exact IH].
  Qed.
End total.

Lemma decoded_nth ks l i s x : nth_error l i = Some x ->
  nth_error (mapi_from resolve_ascii_char s (xor_ks ks s l)) i = Some (resolve_ascii_char (Z.lxor x (ks (s + i)%nat)) (s + i)).
Proof.
  revert i s. induction l as [|y l IH]; intros [|i] s E; try discriminate E; cbn [xor_ks mapi_from nth_error] in *.
  - injection E as ->. rewrite Nat.add_0_r. reflexivity.
  - rewrite (IH i (S s) E). replace (S s + i)%nat with (s + S i)%nat by lia. reflexivity.
Qed.
Lemma decoded_bytes ks l s : bytes l -> (forall j, byte (ks j)) -> bytes (mapi_from resolve_ascii_char s (xor_ks ks s l)).
Proof.
  intros B K. revert s. induction B as [|x l X B IH]; intro s; cbn [xor_ks mapi_from]; [constructor|]. constructor; [|apply IH].
  apply lxor_byte; [apply lxor_byte; [exact X|apply K]|]. unfold byte, wrap. change (2 ^ 8) with 256. apply Z.mod_pos_bound. lia.
Qed.
Lemma verify_bad st buf h iv o q l i x : zlen buf < 2 ^ 31 -> header_of buf = Ok h -> at_ buf o q l -> bytes l -> (forall j, byte (st iv j)) ->
  nth_error l i = Some x -> 128 <= resolve_ascii_char (Z.lxor x (st iv i)) i ->
  exists e, verify_with_meta st buf (DEcb iv) (mkMeta o (zlen l) SAscii) = Err e.
Proof.
  intros Hs Hh A B K N G. unfold verify_with_meta. rewrite Hh. cbn [rbind sm_type sm_off sm_len].
  unfold try_resolve_meta, resolve_ascii_raw, get_decrypt_slice. pose proof (at_range _ _ _ _ A) as (A1 & A2 & A3).
  pose proof (zlen_nonneg l). rewrite wrap_small by (pows; lia). rewrite <- A2. cbn [reader_of rd_buf rd_ks].
  pose proof (range_at _ _ _ _ A) as R. unfold range in R. destruct (slice buf o q) as [l'|] eqn:E; [|discriminate]. injection R as ->.
  cbn [rmap rbind]. pose proof (decoded_nth (st iv) l i 0 x N) as D. pose proof (decoded_bytes (st iv) l 0 B K) as Bd.
  pose proof (strict_ascii _ Bd) as S. cbn [Nat.add] in D.
  destruct (utf8_strict (mapi_from resolve_ascii_char 0 (xor_ks (st iv) 0 l))) as [y|]; cbn [rbind]; [|eauto].
  destruct (is_ascii y) eqn:Y; [|eauto]. exfalso. destruct S as [S _].
  specialize (S (ex_intro _ y (conj eq_refl Y))). rewrite Forall_forall in S. apply nth_error_In in D. apply S in D. lia.
Qed.

Lemma number_key_eq key j : 0 <= key < 2 ^ 64 -> nth (j mod 8) (pkg2_keys key) 0 = number_key key j.
Proof.
  intro K. unfold number_key, pkg2_keys. rewrite (wrap_small 64) by assumption. rewrite <- enc_le_eq.
  unfold enc_le. cbn [seq map]. assert (H : (j mod 8 < 8)%nat) by (apply Nat.mod_upper_bound; lia).
  generalize dependent (j mod 8)%nat. intros n H. do 8 (destruct n as [|n]; [reflexivity|]). lia.
Qed.
