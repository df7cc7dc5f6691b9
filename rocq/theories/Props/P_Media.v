(** C36, C37, C108-C113: sounds, raw data and scripts. *)
From Coq Require Import ZArith List Bool Lia Arith ZifyBool.
From Coq Require String.
Import String.StringSyntax.
From Verif.Model Require Import Base Utf Keys Reader Image Png Media.
From Verif.Spec Require Import Wire Stream StrWire PropWire PropView Aes Media.
From Verif.Proofs Require Import BaseL WireL KeysL AtL StringL BlowL AesL MediaL.
From Verif.Props Require Import P_Keys P_Image P_Directory.
Ltac Zify.zify_post_hook ::= idtac.

(** *** Sounds *)
Lemma wav_shape fmt n : length fmt = 16%nat -> 0 <= n -> n + 36 < 2 ^ 32 ->
  write_at (write_at (write_at wav_header 4 (le_bytes 4 (wrap 32 (n + 36)))) 20 fmt) 40 (le_bytes 4 n) =
  codes "RIFF" ++ enc_le 4 (n + 36) ++ codes "WAVE" ++ codes "fmt " ++ enc_le 4 16 ++ fmt ++ codes "data" ++ enc_le 4 n.
Proof.
  intros L N M. rewrite wrap_small by lia. rewrite !enc_le_eq.
  do 16 (destruct fmt as [|? fmt]; [discriminate L|]). destruct fmt; [|discriminate L]. reflexivity.
Qed.

(** C36: a WAV sound is exported as a WAV file: its data chunk has exactly the stored data, all sizes are right, and
    the format is the one in the stored header.  Writing to a stream gives the same bytes as the buffer. *)
Theorem C36_wav : forall r s header data, snd_type s = Wav ->
  at_ (rd_buf r) (snd_header_offset s) (snd_header_offset s + snd_header_size s) header ->
  at_ (rd_buf r) (snd_offset s) (snd_offset s + snd_length s) data ->
  68 <= zlen header -> snd_length s + 36 < 2 ^ 32 -> zlen (rd_buf r) < 2 ^ 63 ->
  let file := wav_file (firstn 16 (skipn 52 header)) data in
  snd_buffer r s = Ok file /\ (forall out, snd_write_to r s out = Ok (out ++ file)) /\
  (* the size of the RIFF chunk is what follows it *)
  exists n rest, file = codes "RIFF" ++ enc_le 4 n ++ rest /\ n = zlen rest /\ n < 2 ^ 32.
Proof.
  intros r s header data T H D L36 Hl Hb.
  pose proof (at_range _ _ _ _ H) as (H1 & H2 & H3). pose proof (at_range _ _ _ _ D) as (D1 & D2 & D3).
  pose proof (zlen_nonneg data).
  assert (W : get_wav_header r s = Ok (codes "RIFF" ++ enc_le 4 (snd_length s + 36) ++ codes "WAVE" ++ codes "fmt " ++
    enc_le 4 16 ++ firstn 16 (skipn 52 header) ++ codes "data" ++ enc_le 4 (snd_length s))).
  { unfold get_wav_header, snd_header. rewrite wrap_small by lia. rewrite (range_at _ _ _ _ H). cbn [rbind].
    assert (R : range header 0x34 (0x34 + 16) = Ok (firstn 16 (skipn 52 header))).
    { unfold range, slice. replace (_ && _ && _) with true by (symmetry; lia). reflexivity. }
    rewrite R. cbn [rbind]. rewrite wav_shape; [reflexivity| |lia|exact Hl].
    unfold zlen in L36. rewrite firstn_length, skipn_length. lia. }
  assert (S : snd_data r s = Ok data) by (unfold snd_data; rewrite wrap_small by lia; apply range_at; exact D).
  assert (E : snd_length s = Z.of_nat (length data)) by (unfold zlen in *; lia).
  assert (F : wav_file (firstn 16 (skipn 52 header)) data = (codes "RIFF" ++ enc_le 4 (snd_length s + 36) ++ codes "WAVE" ++
    codes "fmt " ++ enc_le 4 16 ++ firstn 16 (skipn 52 header) ++ codes "data" ++ enc_le 4 (snd_length s)) ++ data).
  { unfold wav_file. rewrite E, <- !app_assoc. reflexivity. }
  cbv zeta. split; [|split].
  - unfold snd_buffer. rewrite S, T. cbn [rbind]. rewrite W. cbn [rmap]. rewrite F. reflexivity.
  - intros out. unfold snd_write_to. rewrite S, T. cbn [rbind]. rewrite W. cbn [rbind]. rewrite F. f_equal. rewrite <- !app_assoc. reflexivity.
  - eexists _, _. split; [unfold wav_file; reflexivity|]. rewrite !zlen_app, !zlen_enc_le.
    assert (zlen (firstn 16 (skipn 52 header)) = 16) by (unfold zlen in *; rewrite firstn_length, skipn_length; lia).
    change (zlen (codes "WAVE")) with 4. change (zlen (codes "fmt ")) with 4. change (zlen (codes "data")) with 4.
    unfold zlen in *. lia.
Qed.
Print Assumptions C36_wav.

(** C36: every sound of a parsed image whose data are in the file can be exported; others than WAV unchanged. *)
Theorem C36_shown : forall r s off size dur hoff header data,
  shows r (Node (OSound s) []) (PSound off size dur hoff) -> 0 <= hoff ->
  at_ (rd_buf r) hoff off header -> at_ (rd_buf r) off (off + size) data -> zlen (rd_buf r) < 2 ^ 31 ->
  snd_buffer r s = Ok (match snd_type s with Wav => wav_file (firstn 16 (skipn 52 header)) data | _ => data end) /\
  (forall out, snd_write_to r s out =
     Ok (out ++ match snd_type s with Wav => wav_file (firstn 16 (skipn 52 header)) data | _ => data end)) /\
  (snd_type s = Wav <-> zlen header = 70 /\ ~ (dur = 1000 /\ length_field (rd_buf r) hoff size)).
Proof.
  intros r s off size dur hoff header data S H0 H D Hb.
  pose proof (at_range _ _ _ _ H) as (H1 & H2 & H3). pose proof (at_range _ _ _ _ D) as (D1 & D2 & D3).
  assert (SI : exists ty, s = mkSound off size hoff (off - hoff) dur ty /\ sound_kind (rd_buf r) hoff off size dur ty)
    by (inversion S; eauto).
  destruct SI as (ty & -> & Kd).
  cbn [snd_type]. pose proof (zlen_nonneg data). change (2 ^ 31) with 2147483648 in Hb.
  apply and_assoc. split.
  - destruct ty.
    1, 3: split; [|intros out]; unfold snd_buffer, snd_write_to, snd_data; cbn [snd_offset snd_length snd_type]; rewrite wrap_small by lia;
      rewrite (range_at _ _ _ _ D); reflexivity.
    assert (W : snd_buffer r (mkSound off size hoff (off - hoff) dur Wav) = Ok (wav_file (firstn 16 (skipn 52 header)) data) /\
      forall out, snd_write_to r (mkSound off size hoff (off - hoff) dur Wav) out = Ok (out ++ wav_file (firstn 16 (skipn 52 header)) data)).
    { destruct (C36_wav r (mkSound off size hoff (off - hoff) dur Wav) header data) as (W1 & W2 & _);
        cbn [snd_type snd_header_offset snd_header_size snd_offset snd_length].
      + reflexivity.
      + replace (hoff + (off - hoff)) with off by lia. exact H.
      + exact D.
      + cbn in Kd. destruct Kd as [K _]. lia.
      + change (2 ^ 32) with 4294967296. lia.
      + change (2 ^ 63) with 9223372036854775808. lia.
      + exact (conj W1 W2). }
    exact W.
  - assert (E70 : zlen header = off - hoff) by lia. rewrite E70.
    destruct ty; cbn in Kd; (split; [intros X|intros [X1 X2]]); try discriminate X; try reflexivity; tauto.
Qed.
Print Assumptions C36_shown.
(** A sound with a header of 70 bytes that counts up, and three bytes of data. *)
Definition ex_header : list Z := map Z.of_nat (seq 0 70).
Definition ex_sound_rd : rd := mkRd (ex_header ++ [201; 202; 203]) (fun _ => 0) (fun _ => 0).
Example C36_ex : snd_buffer ex_sound_rd (mkSound 70 3 0 70 5 Wav) =
  Ok (codes "RIFF" ++ [39; 0; 0; 0] ++ codes "WAVEfmt " ++ [16; 0; 0; 0] ++
      [52; 53; 54; 55; 56; 57; 58; 59; 60; 61; 62; 63; 64; 65; 66; 67] ++ codes "data" ++ [3; 0; 0; 0] ++ [201; 202; 203]) /\
  snd_buffer ex_sound_rd (mkSound 70 3 0 70 5 Mp3) = Ok [201; 202; 203].
Proof. split; vm_compute; reflexivity. Qed.

(** C112: raw data and videos are handed out as stored. *)
Theorem C112_stored : forall r off len data, at_ (rd_buf r) off (off + len) data -> zlen (rd_buf r) < 2 ^ 63 ->
  raw_buffer r off len = Ok data.
Proof.
  intros r off len data D Hb. pose proof (at_range _ _ _ _ D) as (D1 & D2 & D3). unfold raw_buffer.
  pose proof (zlen_nonneg data). rewrite wrap_small by lia. apply range_at, D.
Qed.
Print Assumptions C112_stored.
Example C112_ex : raw_buffer ex_sound_rd 68 4 = Ok [68; 69; 201; 202].
Proof. reflexivity. Qed.

(** C113 (refuted): the data of a media property of a parsed image can be had, or parsing fails. *)
Definition ex_cut (ty : list Z) (tail : list Z) : list Z :=
  0x73 :: enc_str key0 (codes "Property") ++ [0; 0] ++ [1] ++ (0x73 :: enc_str key0 (codes "a")) ++ 9 :: enc_le 4 90 ++
  (0x73 :: enc_str key0 ty) ++ tail.
Theorem C113_data_present_refuted : exists r1 off1 len1 r2 off2 len2 r3 s us1 us2 us3,
  image_children 40 r1 (codes "x.img") 0 0 = Ok ([(codes "a", Node (ORaw off1 len1) [])], us1) /\
  raw_buffer r1 off1 len1 = Panic /\
  image_children 40 r2 (codes "x.img") 0 0 = Ok ([(codes "a", Node (OVideo off2 len2) [])], us2) /\
  raw_buffer r2 off2 len2 = Panic /\
  image_children 40 r3 (codes "x.img") 0 0 = Ok ([(codes "a", Node (OSound s) [])], us3) /\
  snd_buffer r3 s = Panic.
Proof.
  exists (rd0 (ex_cut (codes "RawData") [0; 9; 1; 2; 3])). do 2 eexists.
  exists (rd0 (ex_cut (codes "Canvas#Video") [0; 0; 0; 9; 1; 2; 3])). do 2 eexists.
  exists (rd0 (ex_cut (codes "Sound_DX8") (0 :: 70 :: 5 :: repeat 1 8))). do 4 eexists.
  split; [vm_compute; reflexivity|]. split; [vm_compute; reflexivity|].
  split; [vm_compute; reflexivity|]. split; [vm_compute; reflexivity|].
  split; [vm_compute; reflexivity|]. vm_compute; reflexivity.
Qed.
Print Assumptions C113_data_present_refuted.

(** *** Scripts *)
(** The first 64 bytes. *)
Definition probe (data : list Z) : list Z := firstn 64 data.

(** C109: what comes out of a script in the file: it is opened with the first of the three keys that makes a text of
    its first 64 bytes.  The key buffers shared with the rest of the program may have any history. *)
Theorem C109_script : forall aes cs r off data, block_cipher aes -> cells_in_use aes cs -> bytes (rd_buf r) ->
  at_ (rd_buf r) off (off + zlen data) data -> zlen (rd_buf r) < 2 ^ 63 ->
  exists out cs', extract_lua aes cs r off (zlen data) = (out, cs') /\ cells_in_use aes cs' /\
  ((exists e, out = Err e /\ forall s, ~ readable aes s (probe data)) \/
   exists s, readable aes s (probe data) /\ (forall s', earlier s' s -> ~ readable aes s' (probe data)) /\
     ((exists t, out = Ok t /\ sealed aes s t data) \/ (exists e, out = Err e /\ ~ readable aes s data))).
Proof.
  intros aes cs r off data A C B D Hb. pose proof (at_range _ _ _ _ D) as (D1 & D2 & D3). pose proof (zlen_nonneg data).
  pose proof (at_bytes _ _ _ _ B D) as Bd.
  assert (DP : at_ (rd_buf r) off (off + Z.min 64 (zlen data)) (probe data)).
  { rewrite <- (firstn_skipn 64 data) in D at 2. apply at_split in D as [D _].
    replace (Z.min 64 (zlen data)) with (zlen (firstn 64 data)); [exact D|].
    unfold zlen. rewrite firstn_length. lia. }
  pose proof (at_bytes _ _ _ _ B DP) as Bp.
  unfold extract_lua. rewrite (Z.add_comm (zlen data) off), !wrap_small by lia.
  rewrite (range_at _ _ _ _ D), (range_at _ _ _ _ DP).
  destruct (guess_spec aes (probe data) A Bp lua_ivs cs C) as (cs1 & C1 & [(pre & v & post & E & N & R & ->)|[N ->]]).
  - rewrite (ensure_decrypt aes v) by (try apply cell_in_use; try assumption; lia).
    set (cs2 := set_cell cs1 v _).
    assert (C2 : cells_in_use aes cs2) by (apply set_in_use; [exact C1|apply in_use_ensure; [apply cell_in_use, C1|assumption]]).
    assert (Fst : forall s', earlier s' (seal_of v) -> ~ readable aes s' (probe data)).
    { intros s' H'. destruct (first_three _ _ _ E s' H') as (u & I & <-). apply N, I. }
    destruct (utf8_strict (xor_ks (seal_key aes (seal_of v)) 0 data)) as [t|] eqn:U.
    + exists (Ok t), cs2. split; [reflexivity|]. split; [exact C2|]. right. exists (seal_of v). split; [exact R|].
      split; [exact Fst|]. left. exists t. split; [reflexivity|]. apply sealed_open; assumption.
    + eexists _, cs2. split; [reflexivity|]. split; [exact C2|]. right. exists (seal_of v). split; [exact R|].
      split; [exact Fst|]. right. eexists. split; [reflexivity|]. rewrite readable_open by assumption. congruence.
  - eexists _, cs1. split; [reflexivity|]. split; [exact C1|]. left. eexists. split; [reflexivity|].
    intros s. destruct s; [apply (N Msea)|apply (N Gms)|apply (N NoIv)]; cbn; tauto.
Qed.
Print Assumptions C109_script.

(** C108: a script sealed with one of the keys is read correctly when its first 64 bytes are whole characters and no
    earlier key makes a text of them. *)
Lemma utf8_app a b : forall s t, utf8 s a -> utf8 t b -> utf8 (s ++ t) (a ++ b).
Proof.
  intros s t H Ht. induction H as [|c cs x xs C U IH]; [exact Ht|]. rewrite <- app_assoc. cbn [app]. constructor; assumption.
Qed.
Lemma sealed_part aes s data t : block_cipher aes -> bytes data -> sealed aes s t data ->
  (exists t1 p1, utf8 t1 p1 /\ firstn 64 (xor_ks (seal_key aes s) 0 data) = p1) -> readable aes s (probe data).
Proof.
  intros A B S (t1 & p1 & U & E). exists t1. exists p1. split; [exact U|]. subst p1.
  assert (X : forall k i l n, firstn n (xor_ks k i l) = xor_ks k i (firstn n l)).
  { intros k i l n. revert i l. induction n as [|n IH]; intros i l; [reflexivity|]. destruct l; [reflexivity|].
    cbn [xor_ks firstn]. rewrite IH. reflexivity. }
  rewrite X. pose proof (xor_ks_xored (seal_key aes s) 0 (xor_ks (seal_key aes s) 0 (probe data))) as Y.
  rewrite xor_ks_twice in Y. exact Y.
Qed.
Lemma sealed_same aes s t t' data : block_cipher aes -> bytes data -> sealed aes s t data -> sealed aes s t' data -> t = t'.
Proof. intros A B S S'. apply sealed_open in S; [|assumption..]. apply sealed_open in S'; [|assumption..]. congruence. Qed.
Theorem C108_sealed : forall aes cs r off s t1 t2 p1 p2 data, block_cipher aes -> cells_in_use aes cs -> bytes (rd_buf r) ->
  at_ (rd_buf r) off (off + zlen data) data -> zlen (rd_buf r) < 2 ^ 63 ->
  utf8 t1 p1 -> utf8 t2 p2 -> xored (seal_key aes s) 0 (p1 ++ p2) data ->
  length p1 = 64%nat \/ (p2 = [] /\ (length p1 <= 64)%nat) ->
  (forall s', earlier s' s -> ~ readable aes s' (probe data)) ->
  fst (extract_lua aes cs r off (zlen data)) = Ok (t1 ++ t2).
Proof.
  intros aes cs r off s t1 t2 p1 p2 data A C B D Hb U1 U2 X L N. pose proof (at_bytes _ _ _ _ B D) as Bd.
  assert (S : sealed aes s (t1 ++ t2) data) by (exists (p1 ++ p2); split; [apply utf8_app; assumption|exact X]).
  assert (R : readable aes s (probe data)).
  { apply (sealed_part aes s data (t1 ++ t2) A Bd S). exists t1, p1. split; [exact U1|].
    rewrite (RawL.xored_unique _ _ _ _ X), xor_ks_twice. destruct L as [L|[-> L]].
    - rewrite firstn_app, L, firstn_O, app_nil_r. rewrite <- L. apply firstn_all.
    - rewrite app_nil_r. apply firstn_all2. exact L. }
  destruct (C109_script aes cs r off data A C B D Hb) as (out & cs' & -> & _ & [(e & _ & K)|(s1 & R1 & N1 & K)]).
  - destruct (K s R).
  - assert (s1 = s) by (destruct s1, s; try reflexivity; exfalso;
      first [apply (N1 SealSea); [exact I|exact R] | apply (N1 SealGms); [exact I|exact R]
            |apply (N SealSea); [exact I|exact R1] | apply (N SealGms); [exact I|exact R1]]).
    subst s1. destruct K as [(t & -> & S')|(e & -> & K)].
    + cbn. f_equal. apply (sealed_same aes s _ _ data); assumption.
    + destruct K. exists (t1 ++ t2). exact S.
Qed.
Print Assumptions C108_sealed.

(** C37: a script of at most 64 bytes that one of the keys makes a text of is read. *)
Theorem C37_short : forall aes cs r off s data, block_cipher aes -> cells_in_use aes cs -> bytes (rd_buf r) ->
  at_ (rd_buf r) off (off + zlen data) data -> zlen data <= 64 -> zlen (rd_buf r) < 2 ^ 63 -> readable aes s data ->
  exists t s', fst (extract_lua aes cs r off (zlen data)) = Ok t /\ sealed aes s' t data.
Proof.
  intros aes cs r off s data A C B D L Hb R.
  assert (P : probe data = data) by (apply firstn_all2; unfold zlen in L; lia).
  destruct (C109_script aes cs r off data A C B D Hb) as (out & cs' & -> & _ & [(e & _ & K)|(s1 & R1 & N1 & K)]).
  - destruct (K s). rewrite P. exact R.
  - rewrite P in R1. destruct K as [(t & -> & S)|(e & _ & K)]; [|destruct (K R1)]. exists t, s1. auto.
Qed.
Print Assumptions C37_short.

(** The key of the decryptors (util/maple_crypto_constants.rs:1-11,17-26). *)
Definition user_key : list Z :=
  [0x13; 0; 0; 0; 0x08; 0; 0; 0; 0x06; 0; 0; 0; 0xB4; 0; 0; 0; 0x1B; 0; 0; 0; 0x0F; 0; 0; 0; 0x33; 0; 0; 0; 0x52; 0; 0; 0].
Lemma user_key_cipher : block_cipher (aes256 user_key).
Proof. apply aes256_block_cipher; [reflexivity|]. repeat (apply Forall_cons; [split; [discriminate|reflexivity]|]). constructor. Qed.
Example C108_ex : block_cipher (aes256 user_key) /\
  map (key_byte (aes256 user_key) WZ_GMSIV) (seq 0 6) = [0x96; 0xAE; 0x3F; 0xA4; 0x48; 0xFA].
Proof. split; [apply user_key_cipher|vm_compute; reflexivity]. Qed.

(** C37 (refuted): every script that one of the keys makes a text of is read: here one that is not encrypted at all. *)
Definition script_rd (plain : list Z) : rd := mkRd plain (fun _ => 0) (fun _ => 0).
Lemma plain_sealed aes t plain : utf8 t plain -> sealed aes SealNone t plain.
Proof.
  intros U. exists plain. split; [exact U|]. split; [reflexivity|]. intros j d E. cbn. rewrite Z.lxor_0_r. exact E.
Qed.
Lemma ascii_utf8 t : forallb (fun c => (0 <=? c) && (c <? 128)) t = true -> utf8 t t.
Proof.
  induction t as [|c t IH]; cbn; intros H; [constructor|]. apply andb_true_iff in H as [Hc Ht].
  change (c :: t) with ([c] ++ t) at 2. constructor; [constructor; lia|apply IH, Ht].
Qed.
Theorem C37_straddle_refuted : exists t data, sealed (aes256 user_key) SealNone t data /\ t = repeat 97 63 ++ [0xE9; 33] /\
  exists e, fst (extract_lua (aes256 user_key) fresh_cells (script_rd data) 0 (zlen data)) = Err e.
Proof.
  exists (repeat 97 63 ++ [0xE9; 33]), (repeat 97 63 ++ [0xC3; 0xA9; 33]). split; [|split; [reflexivity|]].
  - apply plain_sealed. apply utf8_app; [apply ascii_utf8; reflexivity|].
    change [0xC3; 0xA9; 33] with ([0xC3; 0xA9] ++ [33] ++ []).
    apply (utf8_cons 0xE9 [33]); [apply (utf8_2 3 41); lia|].
    apply (utf8_cons 33 []); [apply utf8_1; lia|constructor].
  - eexists. vm_compute. reflexivity.
Qed.
Print Assumptions C37_straddle_refuted.

(** C110 (refuted): a script that is not encrypted is read as it is. *)
Theorem C110_plain_refuted : exists t, sealed (aes256 user_key) SealNone (codes "I=1") (codes "I=1") /\
  fst (extract_lua (aes256 user_key) fresh_cells (script_rd (codes "I=1")) 0 3) = Ok t /\ t <> codes "I=1".
Proof.
  eexists. split; [apply plain_sealed, ascii_utf8; reflexivity|]. split; [vm_compute; reflexivity|discriminate].
Qed.
Print Assumptions C110_plain_refuted.

(** A longer script is: here a text of 67 bytes sealed with the second key. *)
Definition ex_script : list Z := codes "local x = 1 -- the first sixty-four bytes are all that is looked at".
Example C108_script_ex :
  let data := xor_ks (seal_key (aes256 user_key) SealGms) 0 ex_script in
  fst (extract_lua (aes256 user_key) fresh_cells (script_rd (7 :: data)) 1 (zlen data)) = Ok ex_script.
Proof. vm_compute. reflexivity. Qed.

(** C111 (refuted): a script whose stored length cannot be right is an error. *)
Theorem C111_length_refuted : exists r off len us, bytes (rd_buf r) /\
  image_children 40 r (codes "a.lua") 0 0 = Ok ([(codes "Script", Node (OLua off len) [])], us) /\
  forall aes cs, fst (extract_lua aes cs r off len) = Panic.
Proof.
  exists (script_rd [1; 9; 65]). do 3 eexists. split; [repeat constructor; discriminate|]. split; [vm_compute; reflexivity|].
  intros aes cs. reflexivity.
Qed.
Print Assumptions C111_length_refuted.
