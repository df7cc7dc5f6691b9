(** C204-C207: the reading functions on plain byte slices. *)
From Coq Require Import ZArith List Bool Lia.
From Verif.Model Require Import Base Utf Keys Reader FreeRead Image.
From Verif.Spec Require Import Wire StrWire FreeRead.
From Verif.Proofs Require Import BaseL WireL ReaderL StringL StrWireL FreeReadL.
From Coq Require String Ascii.
Import String.StringSyntax.

(** C204: every Unicode text stored without a key is read back. *)
Theorem C204_free_string :
  forall t post, unicode t -> bytes post -> zlen (enc_str (fun _ => 0) t ++ post) < 2 ^ 31 ->
    free_string (enc_str (fun _ => 0) t ++ post) = Ok t.
Proof. exact free_stored. Qed.
Print Assumptions C204_free_string.

(** C204: also as a block, inline or by offset from [base]. *)
Theorem C204_free_block :
  forall t base buf, unicode t -> bytes buf -> zlen buf < 2 ^ 31 -> 0 <= base ->
    (forall tag post, tag = 0 \/ tag = 0x73 -> buf = tag :: enc_str (fun _ => 0) t ++ post ->
       free_string_block buf base = Ok t) /\
    (forall tag a more pre post, tag = 1 \/ tag = 0x1B -> - 2 ^ 31 <= a < 2 ^ 31 -> buf = tag :: enc_le 4 a ++ more ->
       buf = pre ++ enc_str (fun _ => 0) t ++ post -> zlen pre = base + a ->
       free_string_block buf base = Ok t).
Proof.
  intros t base buf U Bb B Hbase. split.
  - intros tag post Ht E. unfold free_string_block, read_u8_at. subst buf.
    change (tag :: enc_str (fun _ => 0) t ++ post) with ([] ++ [tag] ++ (enc_str (fun _ => 0) t ++ post)) at 1.
    change 0 with (zlen (@nil Z)) at 4. rewrite read_at_app by reflexivity. cbn [rbind le_val].
    replace (tag + 256 * 0) with tag by lia. replace ((tag =? 0) || (tag =? 115)) with true by lia. cbn [tl].
    inversion_clear Bb as [|? ? B0 Br]. apply Forall_app in Br as [_ Br]. rewrite zlen_cons in B.
    apply free_stored; [exact U|exact Br|lia].
  - intros tag a more pre post Ht Ha E1 E2 Hp. unfold free_string_block, read_u8_at, read_i32_at.
    assert (R1 : read_at 1 buf 0 = Ok tag).
    { rewrite E1. change (tag :: enc_le 4 a ++ more) with ([] ++ [tag] ++ (enc_le 4 a ++ more)).
      change 0 with (zlen (@nil Z)). rewrite read_at_app by reflexivity. cbn [le_val]. f_equal. lia. }
    assert (R2 : rmap (sext 32) (read_at 4 buf 1) = Ok a).
    { rewrite E1. change (tag :: enc_le 4 a ++ more) with ([tag] ++ enc_le 4 a ++ more). change 1 with (zlen [tag]).
      rewrite (read_at_enc 4). unfold rmap, rbind. rewrite sext_wrap by lia. reflexivity. }
    rewrite R1. cbn [rbind]. replace ((tag =? 0) || (tag =? 115)) with false by lia.
    replace ((tag =? 1) || (tag =? 27)) with true by lia. rewrite R2. cbn [rbind].
    rewrite wrap_add_l by lia. replace (a + base) with (zlen pre) by lia.
    assert (Z : zlen buf = zlen pre + zlen (enc_str (fun _ => 0) t ++ post)) by (rewrite E2, zlen_app; reflexivity).
    pose proof (zlen_nonneg pre). pose proof (zlen_nonneg (enc_str (fun _ => 0) t ++ post)).
    rewrite wrap_small by (change (2 ^ 31) with 2147483648 in B; change (2 ^ 64) with 18446744073709551616; lia).
    rewrite Z. rewrite E2 at 1. rewrite <- (app_nil_r (pre ++ _)), <- app_assoc. rewrite slice_mid.
    rewrite E2 in Bb. apply Forall_app in Bb as [_ Bb]. apply Forall_app in Bb as [_ Bb].
    apply free_stored; [exact U|exact Bb|lia].
Qed.
Print Assumptions C204_free_block.

(** C204: compressed integers, and UTF-8 texts of a known length. *)
Theorem C204_free_numbers :
  forall pre post v, zlen pre < 2 ^ 63 ->
    (- 2 ^ 31 <= v < 2 ^ 31 -> free_int (pre ++ enc_wzint 4 v ++ post) (zlen pre) = Ok v) /\
    (- 2 ^ 63 <= v < 2 ^ 63 -> free_int64 (pre ++ enc_wzint 8 v ++ post) (zlen pre) = Ok v).
Proof.
  intros pre post v Hp. pose proof (zlen_nonneg pre) as Np. unfold free_int, free_int64, read_i8_at, read_i32_at, read_i64_at, enc_wzint.
  assert (W : wrap 64 (zlen pre + 1) = zlen (pre ++ [128])).
  { rewrite zlen_app, wrap_small; [reflexivity|]. change (2 ^ 63) with 9223372036854775808 in Hp. change (2 ^ 64) with 18446744073709551616. lia. }
  rewrite W. destruct ((-127 <=? v) && (v <=? 127)) eqn:K.
  - rewrite (read_at_enc 1). unfold rmap, rbind. rewrite sext_wrap by (cbn; lia). replace (v =? -128) with false by lia. auto.
  - cbn [app].
    assert (R : forall l, read_at 1 (pre ++ 128 :: l) (zlen pre) = Ok 128).
    { intro l. change (128 :: l) with ([128] ++ l). rewrite read_at_app by reflexivity. reflexivity. }
    rewrite !R. unfold rmap, rbind. change (sext 8 128 =? -128) with true. cbv iota.
    replace (pre ++ 128 :: enc_le 4 v ++ post) with ((pre ++ [128]) ++ enc_le 4 v ++ post) by (rewrite <- app_assoc; reflexivity).
    replace (pre ++ 128 :: enc_le 8 v ++ post) with ((pre ++ [128]) ++ enc_le 8 v ++ post) by (rewrite <- app_assoc; reflexivity).
    rewrite (read_at_enc 4), (read_at_enc 8). split; intro; rewrite sext_wrap by (cbn in *; lia); reflexivity.
Qed.
Print Assumptions C204_free_numbers.
Theorem C204_free_text :
  forall pre t post, unicode t ->
    free_string_by_len (pre ++ utf8_enc t ++ post) (zlen (utf8_enc t)) (zlen pre) = Ok t.
Proof.
  intros pre t post U. unfold free_string_by_len. destruct (Z.eqb_spec (zlen (utf8_enc t)) 0) as [E|E].
  - rewrite <- (utf8_roundtrip t (unicode_scalars t U)). destruct (utf8_enc t); [reflexivity|]. rewrite zlen_cons in E.
    pose proof (zlen_nonneg l). lia.
  - rewrite slice_mid, utf8_roundtrip; [reflexivity|apply unicode_scalars; exact U].
Qed.
Print Assumptions C204_free_text.

Example C204_ex :
  free_string (enc_str (fun _ => 0) (txt "Mob") ++ [7]) = Ok (txt "Mob") /\
  free_string_block (1 :: enc_le 4 2 ++ 9 :: enc_str (fun _ => 0) [0x732B] ++ [7]) 4 = Ok [0x732B] /\
  free_int (9 :: enc_wzint 4 (-1000)) 1 = Ok (-1000) /\ free_string_by_len (5 :: txt "PKG1" ++ [0]) 4 1 = Ok (txt "PKG1").
Proof. repeat split; reflexivity. Qed.

(** C205: on any bytes, free function and reader say the same at any place, unless a long length is negative: same
    texts, same read error of the length; the free function panics exactly where the reader reports a range error. *)
Theorem C205_free_and_reader :
  forall pre l, bytes l -> zlen (pre ++ l) < 2 ^ 31 -> ~ negative_length l ->
    fst (read_wz_string (mkRd (pre ++ l) (fun _ => 0) (fun _ => 0)) (zlen pre)) = or_error (free_string l).
Proof. exact strings_agree. Qed.
Print Assumptions C205_free_and_reader.
Example C205_ex :
  bytes [3; 1; 2; 3] /\ ~ negative_length [3; 1; 2; 3] /\ free_string [3; 1; 2; 3] = Panic /\
  fst (read_wz_string (mkRd [9; 9; 3; 1; 2; 3] (fun _ => 0) (fun _ => 0)) 2) = Err EOob /\
  free_string [127; 1; 0] = Err ERead.
Proof.
  split; [repeat constructor; unfold byte; lia|]. split; [intros [[H|H] _]; discriminate H|]. repeat split; reflexivity.
Qed.

(** C206: broken input is not answered by an error. *)
Theorem C206_free_no_panic_refuted :
  (exists l, bytes l /\ free_string l = Panic) /\
  (exists l, bytes l /\ free_string_block l 0 = Panic /\
             fst (read_wz_string_block (mkRd l (fun _ => 0) (fun _ => 0)) 0 0) = Err ERead) /\
  (exists l, bytes l /\ free_string_by_len l 4 0 = Panic).
Proof.
  split; [exists [254; 1]|split; [exists [1; 100; 0; 0; 0]|exists [80; 75]]];
    (split; [repeat constructor; unfold byte; lia|repeat split; reflexivity]).
Qed.
Print Assumptions C206_free_no_panic_refuted.

(** C207: with a negative long length the two differ: the reader returns a text, the free function another. *)
Theorem C207_negative_length_refuted :
  exists l t, bytes l /\ t <> [] /\ fst (read_wz_string (mkRd l (fun _ => 0) (fun _ => 0)) 0) = Ok t /\ free_string l = Ok [].
Proof.
  exists [127; 1; 0; 0; 128; 235; 170], (txt "A"). split; [repeat constructor; unfold byte; lia|]. split; [discriminate|]. split; reflexivity.
Qed.
Print Assumptions C207_negative_length_refuted.
