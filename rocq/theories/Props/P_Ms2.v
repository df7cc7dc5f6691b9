(** Archives of version 2 (.ms with ChaCha20). *)
From Coq Require Import ZArith List Bool Lia.
From Verif.Model Require Import Base Utf Reader Png Snow2 Ms.
From Verif.Spec Require Import Wire Stream StrWire PropWire Media Aes Snow2 Ms MsFile MsFile2 ChaCha.
From Verif.Proofs Require Import BaseL WireL StringL StrWireL AtL PngL MediaL Snow2L MsReadL MsFileL MsRead2L MsFile2L.
From Verif.Props Require Import P_Ms P_MsRead2.
Import ListNotations.
Open Scope Z_scope.

(** *** C128: the images of a version 2 table are placed as those of version 1. *)
Theorem C128_placed : forall block buf h fb ms stop,
  block64 block -> Z.of_nat (length buf) < 2 ^ 63 -> utf8 (mh_name h) fb -> mh_name h <> [] -> mh_count h = len ms -> mh_ms h = 2 ->
  Forall meta_ok ms -> table2 block buf fb (mh_estart h) stop ms ->
  exists es from, ms_parse block h buf = Ok es /\ data_from stop from /\
    Forall2 (fun e m => me_off e = from + 1024 * m_start m /\ me_block e = m_aligned m) es ms.
Proof.
  intros block buf h fb ms stop B64 Hz U Nn Hc Hv F T.
  destruct (parse2_ok block B64 buf h fb ms stop Hz U Nn Hc Hv F T) as (from & D & E & P).
  eexists _, from. split; [unfold ms_parse; rewrite Hv; cbn [Z.eqb Pos.eqb]; exact E|]. split; [exact D|].
  clear E T F Hc. induction ms as [|m ms IH]; cbn [map]; constructor.
  - destruct (P m (or_introl eq_refl)) as (_ & _ & _ & _ & _ & _ & _ & _ & _ & _ & _ & _ & E1 & E2). auto.
  - apply IH. intros m' H. apply P. right. exact H.
Qed.
Print Assumptions C128_placed.

(** *** C129: an image of version 2 with an ASCII name comes back byte by byte, cut to its stored size. *)
Theorem C129_image : forall block buf salt from m e image,
  Z.of_nat (length buf) < 2 ^ 63 -> meta_ok m ->
  me_version e = 2 -> me_salt e = salt -> me_name e = m_name m -> me_key e = m_key m -> me_size e = m_size m ->
  me_off e = from + 1024 * m_start m -> me_block e = m_aligned m ->
  image_at2 block buf salt from m image -> to_wz_image block buf e = Ok image.
Proof.
  intros block buf salt from m e image Hz Hm E1 E2 E3 E4 E5 E6 E7 I.
  unfold to_wz_image. rewrite E1. cbn [Z.eqb Pos.eqb].
  set (e' := mkEntry salt (m_name m) (m_sum m) (m_flags m) (m_start m) (m_size m) (m_aligned m) (m_u1 m) (m_u2 m) (m_key m) 0 0 2
    (from + 1024 * m_start m) (m_aligned m)).
  replace (to_wz_image_v2 block buf e) with (to_wz_image_v2 block buf e').
  - apply (image_read2 block buf salt from m e' image 0 0 Hz Hm); [|exact I]. repeat split.
  - unfold to_wz_image_v2. now rewrite E2, E3, E4, E5, E6, E7.
Qed.
Print Assumptions C129_image.

(** What is read as a header of version 1 is none. *)
Definition not_version1 (buf file : list Z) : Prop :=
  exists salt hash version count sum table,
    head1 buf file salt hash version count sum table /\ ~ (version = 2 /\ hash_fits hash version count sum).
(** *** C130: a file laid out as an archive of version 2, and not by chance as one of version 1, opens, lists
    its entries in order under their names, and gives every image back byte by byte. *)
Theorem C130_archive : forall block buf file images from,
  block64 block -> bytes buf -> Z.of_nat (length buf) < 2 ^ 63 -> archive2 block buf file images from -> not_version1 buf file ->
  exists h es, ms_open block file buf = Ok h /\ ms_parse block h buf = Ok es /\
    Forall2 (fun e p => me_name e = m_name (fst p) /\ me_size e = m_size (fst p) /\ me_flags e = m_flags (fst p) /\
                        me_sum e = m_sum (fst p) /\ me_unk3 e = m_u3 (fst p) /\ me_unk4 e = m_u4 (fst p) /\
                        to_wz_image block buf e = Ok (snd p)) es images.
Proof.
  intros block buf file images from B64 B Hz (salt & fb & hash & table & stop & Hh & U & F & T & D & I) (s1 & h1 & v1 & c1 & sum1 & t1 & H1 & N1).
  assert (E1 : exists x, from_ms_file file buf = Err x).
  { destruct (head1_run buf file s1 h1 v1 c1 sum1 t1 B H1) as (q & _ & E). rewrite E.
    destruct (Z.eqb_spec v1 2) as [V|V]; [|eauto].
    destruct (Z.eqb_spec ((h1 - (sum1 + v1 + c1)) mod 2 ^ 32) 0) as [Hf|Hf]; [|eauto]. exfalso. apply N1. split; assumption. }
  destruct E1 as (x & E1).
  assert (Nn : map small file ++ salt <> []).
  { destruct Hh as (nb & fb' & rand & n0 & n1 & n2 & n3 & hidden & more & enc & H'). cbv zeta in H'.
    destruct H' as (_ & _ & Nn & _). destruct (map small file); [congruence|discriminate]. }
  destruct (head2_run block B64 buf file salt hash 4 (len images) table B Hh) as (q & _ & E). cbn [Z.eqb Pos.eqb] in E.
  set (h := mkMsHeader salt (map small file ++ salt) hash 4 (len images) q table 2) in *.
  destruct (parse2_ok block B64 buf h fb (map fst images) stop Hz U Nn) as (from' & D' & E' & P); try assumption; try reflexivity.
  { unfold len. now rewrite map_length. }
  assert (from' = from) by (apply (data_unique stop); assumption). subst from'.
  exists h. eexists. split; [unfold ms_open; rewrite E1, E; reflexivity|]. split; [exact E'|].
  clear E' T D D' E. change (mh_salt h) with salt in *. clearbody h. clear Hh U Nn h E1 N1 H1.
  induction images as [|[m image] images IH]; cbn [map fst snd]; constructor.
  - cbn [map fst] in *. inversion_clear F as [|? ? Fm _]. inversion_clear I as [|? ? Im _]. cbn [fst snd] in *.
    assert (Q := P m (or_introl eq_refl)). assert (Q' := Q).
    destruct Q' as (Q1 & Q2 & Q3 & Q4 & Q5 & Q6 & Q7 & Q8 & Q9 & Q10 & Q11 & Q12 & Q13 & Q14).
    repeat (split; [assumption|]). unfold to_wz_image. rewrite Q12. cbn [Z.eqb Pos.eqb].
    apply (image_read2 block buf salt from m _ image _ _ Hz Fm Q Im).
  - cbn [map] in *. inversion_clear F as [|? ? _ Fs]. inversion_clear I as [|? ? _ Is]. apply IH; [exact Fs|exact Is|].
    intros m' Hm'. apply P. right. exact Hm'.
Qed.
Print Assumptions C130_archive.

(** [masked], block by block. *)
Definition quick (key nonce : list Z) (ctr : nat -> Z) (plain : list Z) : list Z :=
  map (fun p => Z.lxor (fst p) (snd p)) (combine plain (flat_map (fun k => chacha_block key nonce (ctr k)) (seq 0 (Datatypes.S (length plain / 64))))).
Lemma quick_ok key nonce ctr plain : length key = 32%nat -> length nonce = 12%nat -> quick key nonce ctr plain = masked (mask chacha_block key nonce ctr) plain.
Proof. intros K N. symmetry. apply masked_blocks; [exact chacha64|exact K|exact N|]. pose proof (Nat.div_mod (length plain) 64 ltac:(discriminate)). pose proof (Nat.mod_upper_bound (length plain) 64 ltac:(discriminate)). lia. Qed.
(** An archive of two images.  The first entry of the table ends on a block boundary. *)
Definition e2_hidden : list Z := [54; 5; 106; 6].
Definition e2_head (count : Z) : list piece := [Number 77; Number count].
Definition e2_enc (count : Z) : list Z :=
  quick (head_key2 ex_fb) (repeat 0 12) (counter (ends 0 (e2_head count))) (stream (e2_head count) ++ repeat 0 56).
Definition e2_meta1 : meta := Meta [77; 111; 98; 47] 5 6 2 1030 1032 7 8 ex_key1 11 (-12).
Definition e2_meta2 : meta := Meta [97; 66; 46] (-5) 0 0 3 8 0 0 ex_key2 0 13.
Definition e2_metas : list meta := [e2_meta1; e2_meta2].
Definition e2_pieces : list piece := flat_map pieces2 e2_metas.
Definition e2_table : list Z := quick (table_key2 ex_fb) (repeat 0 12) (counter (ends 0 e2_pieces)) (stream e2_pieces ++ [0; 0]).
Definition e2_store (m : meta) (plain : list Z) : list Z :=
  quick (image_key2 ex_digits (m_key m) (m_name m)) (image_nonce ex_salt) (fun k => image_counter ex_salt + Z.of_nat k)
    (firstn 1024 plain) ++ skipn 1024 plain.
Definition e2_stored1 : list Z := e2_store e2_meta1 (ex_image1 ++ [1; 1]).
Definition e2_stored2 : list Z := e2_store e2_meta2 (ex_image2 ++ [0; 0; 0; 0; 0]).
Definition e2_archive : list Z := Eval vm_compute in
  ex_rand ++ [1] ++ [7; 1; 2; 3] ++ e2_hidden ++ e2_enc 2 ++ repeat 0 131 ++ e2_table ++ repeat 0 509 ++ e2_stored2 ++ repeat 0 2040 ++ e2_stored1.
Lemma e2_head_ok : head2 chacha_block e2_archive ex_file ex_salt 77 4 2 387.
Proof.
  exists [97; 98; 46; 109; 115], ex_fb, ex_rand, 7, 1, 2, 3, e2_hidden, (repeat 0 56), (e2_enc 2).
  cbv zeta. change (total [97; 98; 46; 109; 115] mod 312 + 30) with 183. change (183 + 5 + 2 * len ex_salt) with 192.
  split; [apply utf8_check; vm|]. split; [apply utf8_check; vm|]. split; [discriminate|].
  split; [apply (bytes_dec ex_salt); vm|]. split; [vm|]. split; [discriminate|].
  split; [apply at_slice; vm|]. split; [apply at_slice; vm|]. split; [apply at_slice; vm|]. split; [vm|]. split; [apply at_slice; vm|].
  split; [intros [|[|i]] H; [vm|vm|cbn in H; lia]|].
  split; [split; [discriminate|vm]|]. split; [lia|]. split; [split; [discriminate|vm]|]. split; [vm|].
  split; [apply quick_ok; reflexivity|]. split; [apply at_slice; vm|]. split; [vm_compute; discriminate|]. vm.
Qed.
Lemma e2_image image m filler :
  forallb (fun c => (0 <=? c) && (c <? 128)) (m_name m) = true ->
  len image = m_size m -> len (image ++ filler) = m_aligned m ->
  slice e2_archive (1024 + 1024 * m_start m) (1024 + 1024 * m_start m + m_aligned m) = Some (e2_store m (image ++ filler)) ->
  image_at2 chacha_block e2_archive ex_salt 1024 m image.
Proof.
  intros A L La S. exists ex_digits, filler, (e2_store m (image ++ filler)).
  split.
  - split; [apply Forall_forall; intros x Hx; cbn in Hx; lia|]. split; [vm|]. right. do 2 eexists. split; [reflexivity|discriminate].
  - split; [apply Forall_forall; intros x Hx; rewrite forallb_forall in A; specialize (A x Hx); lia|].
    split; [exact L|]. split; [exact La|]. split; [unfold e2_store; rewrite quick_ok by reflexivity; reflexivity|]. apply at_slice, S.
Qed.
Example C130_example_archive : archive2 chacha_block e2_archive ex_file [(e2_meta1, ex_image1); (e2_meta2, ex_image2)] 1024.
Proof.
  exists ex_salt, ex_fb, 77, 387, 515. split; [exact e2_head_ok|]. split; [apply utf8_check; vm|].
  split.
  { apply Forall_cons; [|apply Forall_cons; [|apply Forall_nil]];
      (split; [repeat (apply Forall_cons || apply Forall_nil); cbn; lia|]; split; [discriminate|]; split; [vm|];
       repeat (split; [cbn; unfold i32; lia|]); split; [apply bytes_dec; vm|]; cbn; unfold i32; lia). }
  split.
  { exists [0; 0], e2_table. split; [apply quick_ok; reflexivity|]. split; [cbn; lia|]. split; [vm|]. split; [apply at_slice; vm|].
    apply Forall_forall. intros p Hp.
    assert (X : forallb (fun p => 515 + len (piece_bytes p) <=? len e2_archive) (flat_map pieces2 (map fst [(e2_meta1, ex_image1); (e2_meta2, ex_image2)])) = true) by vm.
    rewrite forallb_forall in X. apply Z.leb_le, X, Hp. }
  split; [split; [vm|lia]|].
  apply Forall_cons; [|apply Forall_cons; [|apply Forall_nil]]; cbn [fst snd].
  - apply (e2_image _ _ [1; 1]); vm.
  - apply (e2_image _ _ [0; 0; 0; 0; 0]); vm.
Qed.
(** The same bytes read as a header of version 1: ten characters of salt, and a version that is not 2. *)
Definition e2_salt1 : list Z := Eval vm_compute in map (fun i => Z.lxor (nth i ex_rand 0) (nth (187 + 2 * i) e2_archive 0)) (seq 0 10).
Definition e2_fb1 : list Z := [97; 98; 46; 109; 115] ++ utf8_enc e2_salt1.
Definition e2_dec1 : list Z := Eval vm_compute in fst (fst (decrypt_slice (snow2_new (head_key e2_fb1)) (firstn 12 (skipn 207 e2_archive)))).
Example C130_example_first : not_version1 e2_archive ex_file.
Proof.
  exists e2_salt1, (sext 32 (le_val (firstn 4 e2_dec1))), (nth 4 e2_dec1 0), (sext 32 (le_val (firstn 4 (skipn 5 e2_dec1)))).
  eexists _, _. split; [|intros [V _]; discriminate V].
  exists [97; 98; 46; 109; 115], e2_fb1, ex_rand, 1, 7, 1, 2, (firstn 20 (skipn 187 e2_archive)), (skipn 9 e2_dec1), (firstn 12 (skipn 207 e2_archive)).
  cbv zeta. change (total [97; 98; 46; 109; 115] mod 312 + 30) with 183. change (183 + 4 + 2 * len e2_salt1) with 207.
  split; [apply utf8_check; vm|]. split; [apply utf8_check; vm|]. split; [discriminate|].
  split; [apply (bytes_dec e2_salt1); vm|]. split; [vm|]. split; [discriminate|].
  split; [apply at_slice; vm|]. split; [apply at_slice; vm|]. split; [vm|]. split; [apply at_slice; vm|].
  split; [intros i H; change (length e2_salt1) with 10%nat in H; do 10 (destruct i as [|i]; [vm|]); lia|].
  split; [split; [discriminate|vm]|]. split; [split; [discriminate|vm]|]. split; [split; [discriminate|vm]|]. split; [vm|].
  split; [apply added_check; [apply head_key_ok|vm|vm]|]. split; [apply at_slice; vm|]. split; reflexivity.
Qed.
(** What the archive opens and parses to. *)
Definition e2_h : ms_header := Eval vm_compute in match ms_open chacha_block ex_file e2_archive with Ok h => h | _ => mkMsHeader [] [] 0 0 0 0 0 0 end.
Definition e2_entries : list ms_entry := Eval vm_compute in match ms_parse chacha_block e2_h e2_archive with Ok l => l | _ => [] end.
Definition e2_first : ms_entry := Eval vm_compute in hd (mkEntry [] [] 0 0 0 0 0 0 0 [] 0 0 0 0 0) e2_entries.
Definition e2_second : ms_entry := Eval vm_compute in last e2_entries (mkEntry [] [] 0 0 0 0 0 0 0 [] 0 0 0 0 0).
Example C128_example :
  ms_open chacha_block ex_file e2_archive = Ok e2_h /\ ms_parse chacha_block e2_h e2_archive = Ok [e2_first; e2_second] /\
  (me_off e2_first, me_block e2_first, me_off e2_second, me_block e2_second) = (1024 + 2 * 1024, 1032, 1024, 8).
Proof. split; [vm|]. split; vm. Qed.
(** More than 1024 bytes: both parts of the image. *)
Example C129_example :
  to_wz_image chacha_block e2_archive e2_first = Ok ex_image1 /\ len ex_image1 = 1030 /\ to_wz_image chacha_block e2_archive e2_second = Ok ex_image2.
Proof.
  split; [|split; vm]. apply (C129_image chacha_block e2_archive ex_salt 1024 e2_meta1 e2_first ex_image1); try reflexivity.
  - split; [repeat (apply Forall_cons || apply Forall_nil); cbn; lia|]; split; [discriminate|]; split; [vm|];
       repeat (split; [cbn; unfold i32; lia|]); split; [apply bytes_dec; vm|]; cbn; unfold i32; lia.
  - apply (e2_image _ _ [1; 1]); vm.
Qed.
Example C130_example : exists h a b,
  ms_open chacha_block ex_file e2_archive = Ok h /\ ms_parse chacha_block h e2_archive = Ok [a; b] /\
  me_name a = [77; 111; 98; 47] /\ to_wz_image chacha_block e2_archive a = Ok ex_image1 /\
  me_name b = [97; 66; 46] /\ to_wz_image chacha_block e2_archive b = Ok ex_image2 /\ (me_off a, me_unk4 a) = (3072, -12).
Proof.
  destruct C128_example as (H & P & _). destruct C129_example as (X & _ & Y). exists e2_h, e2_first, e2_second.
  split; [exact H|]. split; [exact P|]. split; [reflexivity|]. split; [exact X|]. split; [reflexivity|]. split; [exact Y|reflexivity].
Qed.

(** *** C131: what is laid out as a header of version 2 is opened only with version 4, and gives salt, name,
    hash, count and table start as stored. *)
Theorem C131_header : forall block buf file salt hash version count table,
  block64 block -> bytes buf -> head2 block buf file salt hash version count table ->
  (version = 4 ->
     exists h, from_ms_file_v2 block file buf = Ok h /\ mh_salt h = salt /\ mh_name h = map small file ++ salt /\
       mh_hash h = hash /\ mh_version h = 4 /\ mh_count h = count /\ mh_estart h = table /\ mh_ms h = 2) /\
  (version <> 4 -> from_ms_file_v2 block file buf = Err (EOther 32)).
Proof.
  intros block buf file salt hash version count table B64 B H.
  destruct (head2_run block B64 buf file salt hash version count table B H) as (q & _ & E). rewrite E.
  split.
  - intros ->. cbn [Z.eqb Pos.eqb]. eexists. split; [reflexivity|]. repeat split.
  - intros N. destruct (Z.eqb_spec version 4); [contradiction|reflexivity].
Qed.
Print Assumptions C131_header.
Example C131_example :
  (exists h, from_ms_file_v2 chacha_block ex_file e2_archive = Ok h /\ mh_salt h = ex_salt /\ mh_count h = 2 /\ mh_hash h = 77 /\ mh_estart h = 387) /\
  from_ms_file_v2 chacha_block ex_file (firstn 183 e2_archive ++ [0] ++ skipn 184 e2_archive) = Err (EOther 32).
Proof.
  split; [|vm_compute; reflexivity]. eexists. split; [vm_compute; reflexivity|]. repeat split.
Qed.

(** *** C132 (false): an image of version 2 can be read whatever its name.  A name with a character that is
    not ASCII panics. *)
Theorem C132_name_refuted : exists buf e, bytes buf /\ unicode (me_name e) /\ me_name e <> [] /\ me_size e <= me_block e /\
  me_off e + me_block e <= len buf /\ me_version e = 2 /\ forall block, to_wz_image block buf e = Panic.
Proof.
  exists (repeat 7 16), (mkEntry ex_salt [97; 0xE9] 0 0 0 4 8 0 0 ex_key1 0 0 2 0 8).
  split; [apply bytes_dec; reflexivity|]. split; [repeat (apply Forall_cons || apply Forall_nil); lia|].
  split; [discriminate|]. split; [discriminate|]. split; [discriminate|]. split; [reflexivity|]. intros block. vm_compute. reflexivity.
Qed.
Print Assumptions C132_name_refuted.

(** *** C133 (false): an accepted header of version 2 can be parsed without a panic.  Its hash is not checked
    and its count may be negative. *)
Definition e2_negative : list Z := Eval vm_compute in firstn 192 e2_archive ++ e2_enc (-1) ++ skipn 256 e2_archive.
Theorem C133_count_refuted : exists buf file h,
  bytes buf /\ from_ms_file_v2 chacha_block file buf = Ok h /\ mh_count h = -1 /\ ms_parse chacha_block h buf = Panic.
Proof.
  exists e2_negative, ex_file.
  eexists. split; [apply bytes_dec; vm_compute; reflexivity|]. split; [vm_compute; reflexivity|]. split; [reflexivity|].
  vm_compute. reflexivity.
Qed.
Print Assumptions C133_count_refuted.

(** *** C134 (false): every archive of version 2 opens.  Trying it as version 1 first can panic. *)
Definition C134_full : Prop := forall buf file images from,
  bytes buf -> Z.of_nat (length buf) < 2 ^ 63 -> archive2 chacha_block buf file images from ->
  exists h, ms_open chacha_block file buf = Ok h.
Definition e3_file : list Z := [97; 46; 109; 115].
Definition e3_rand : list Z := 0x55 :: repeat 0 84.
Definition e3_enc : list Z :=
  quick (head_key2 e3_file) (repeat 0 12) (counter (ends 0 (e2_head 0))) (stream (e2_head 0) ++ repeat 0 56).
Definition e3_archive : list Z := Eval vm_compute in e3_rand ++ [46] ++ [42; 0; 0; 0] ++ e3_enc ++ repeat 0 300.
Theorem C134_open_refuted : exists buf file images from,
  bytes buf /\ Z.of_nat (length buf) < 2 ^ 63 /\ archive2 chacha_block buf file images from /\ ms_open chacha_block file buf = Panic.
Proof.
  exists e3_archive, e3_file, [], 1024. split; [apply bytes_dec; vm_compute; reflexivity|]. split; [vm|]. split; [|vm_compute; reflexivity].
  exists [], e3_file, 77, (90 + 8 + (3 * 367) mod 212 + 64), 203.
  split.
  { exists e3_file, e3_file, e3_rand, 42, 0, 0, 0, [], (repeat 0 56), e3_enc.
    cbv zeta. change (total e3_file mod 312 + 30) with 85. change (85 + 5 + 2 * len []) with 90.
    split; [apply utf8_check; vm|]. split; [apply utf8_check; vm|]. split; [discriminate|].
    split; [constructor|]. split; [vm|]. split; [discriminate|].
    split; [apply at_slice; vm|]. split; [apply at_slice; vm|]. split; [apply at_slice; vm|]. split; [vm|].
    split; [exists (firstn 90 e3_archive), (skipn 90 e3_archive); split; [reflexivity|split; vm]|].
    split; [intros i H; cbn in H; lia|].
    split; [split; [discriminate|vm]|]. split; [lia|]. split; [split; [discriminate|vm]|]. split; [vm|].
    split; [apply quick_ok; reflexivity|]. split; [apply at_slice; vm|]. split; [vm_compute; discriminate|]. vm. }
  split; [apply utf8_check; vm|]. split; [constructor|].
  split; [|split; [split; [vm|lia]|constructor]].
  exists [], []. split; [reflexivity|]. split; [cbn; lia|]. split; [reflexivity|].
  split; [|constructor].
  exists (firstn 203 e3_archive), (skipn 203 e3_archive). split; [cbn [app]; symmetry; apply firstn_skipn|]. split; vm.
Qed.
Print Assumptions C134_open_refuted.
Theorem C134_full_is_false : ~ C134_full.
Proof.
  destruct C134_open_refuted as (buf & file & images & from & B & L & A & P). intros F.
  destruct (F buf file images from B L A) as (h & E). congruence.
Qed.
Print Assumptions C134_full_is_false.
