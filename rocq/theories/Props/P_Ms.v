(** Archives of version 1 (.ms with Snow2). *)
From Coq Require Import ZArith List Bool Lia.
From Verif.Model Require Import Base Utf Reader Png Snow2 Ms.
From Verif.Spec Require Import Wire Stream StrWire PropWire Media Aes Snow2 Ms MsFile.
From Verif.Proofs Require Import BaseL WireL StringL StrWireL AtL PngL MediaL Snow2L MsReadL MsFileL.
Import ListNotations.
Open Scope Z_scope.

(** *** C41: the images of a version 1 table start at the first multiple of 1024 from the end of the table on;
    each is placed at its stored start times 1024 from there, with its stored block size. *)
Theorem C41_placed : forall block buf h fb ms stop,
  Z.of_nat (length buf) < 2 ^ 63 -> utf8 (mh_name h) fb -> mh_name h <> [] -> mh_count h = len ms -> mh_ms h = 1 ->
  Forall meta_ok ms -> table1 buf fb (mh_estart h) stop ms ->
  exists es from, ms_parse block h buf = Ok es /\ data_from stop from /\
    Forall2 (fun e m => me_off e = from + 1024 * m_start m /\ me_block e = m_aligned m) es ms.
Proof.
  intros block buf h fb ms stop Hz U Nn Hc Hv F T.
  destruct (parse1_ok buf h fb ms stop Hz U Nn Hc Hv F T) as (from & D & E & P).
  eexists _, from. split; [unfold ms_parse; rewrite Hv; cbn [Z.eqb Pos.eqb]; exact E|]. split; [exact D|].
  clear E T F Hc. induction ms as [|m ms IH]; cbn [map]; constructor.
  - destruct (P m (or_introl eq_refl)) as (_ & _ & _ & _ & _ & _ & _ & _ & _ & _ & _ & _ & E1 & E2). auto.
  - apply IH. intros m' H. apply P. right. exact H.
Qed.
Print Assumptions C41_placed.

(** *** C45: an image of version 1 comes back byte by byte, cut to its stored size. *)
Theorem C45_image : forall block buf salt from m e image,
  Z.of_nat (length buf) < 2 ^ 63 -> meta_ok m ->
  me_version e = 1 -> me_salt e = salt -> me_name e = m_name m -> me_key e = m_key m -> me_size e = m_size m ->
  me_off e = from + 1024 * m_start m -> me_block e = m_aligned m ->
  image_at buf salt from m image -> to_wz_image block buf e = Ok image.
Proof.
  intros block buf salt from m e image Hz Hm E1 E2 E3 E4 E5 E6 E7 I.
  unfold to_wz_image. rewrite E1. cbn [Z.eqb Pos.eqb].
  set (e' := mkEntry salt (m_name m) (m_sum m) (m_flags m) (m_start m) (m_size m) (m_aligned m) (m_u1 m) (m_u2 m) (m_key m) 0 0 1
    (from + 1024 * m_start m) (m_aligned m)).
  replace (to_wz_image_v1 buf e) with (to_wz_image_v1 buf e').
  - apply (image_read1 buf salt from m e' image Hz Hm); [|exact I]. repeat split.
  - unfold to_wz_image_v1. now rewrite E2, E3, E4, E5, E6, E7.
Qed.
Print Assumptions C45_image.

(** *** C120: a file laid out as an archive of version 1 opens, lists its entries in order under their names,
    and gives every image back byte by byte. *)
Theorem C120_archive : forall block buf file images from,
  bytes buf -> Z.of_nat (length buf) < 2 ^ 63 -> archive1 buf file images from ->
  exists h es, ms_open block file buf = Ok h /\ ms_parse block h buf = Ok es /\
    Forall2 (fun e p => me_name e = m_name (fst p) /\ me_size e = m_size (fst p) /\ me_flags e = m_flags (fst p) /\
                        me_sum e = m_sum (fst p) /\ to_wz_image block buf e = Ok (snd p)) es images.
Proof.
  intros block buf file images from B Hz (salt & fb & hash & sum & table & stop & Hh & Hf & U & F & T & D & I).
  assert (Nn : map small file ++ salt <> []).
  { destruct Hh as (nb & fb' & rand & n0 & n1 & n2 & n3 & hidden & pad & enc & H'). cbv zeta in H'.
    destruct H' as (_ & _ & Nn & _). destruct (map small file); [congruence|discriminate]. }
  destruct (head1_run buf file salt hash 2 (len images) sum table B Hh) as (q & _ & E).
  cbn [Z.eqb Pos.eqb] in E. unfold hash_fits in Hf. rewrite Hf in E. cbn [Z.eqb] in E.
  set (h := mkMsHeader salt (map small file ++ salt) hash 2 (len images) q table 1) in *.
  destruct (parse1_ok buf h fb (map fst images) stop Hz U Nn) as (from' & D' & E' & P); try assumption; try reflexivity.
  { unfold len. now rewrite map_length. }
  assert (from' = from) by (apply (data_unique stop); assumption). subst from'.
  exists h. eexists. split; [unfold ms_open; rewrite E; reflexivity|]. split; [exact E'|].
  clear E' T D D' E. change (mh_salt h) with salt in *. clearbody h. clear Hf Hh U Nn h.
  induction images as [|[m image] images IH]; cbn [map fst snd]; constructor.
  - cbn [map fst] in *. inversion_clear F as [|? ? Fm _]. inversion_clear I as [|? ? Im _]. cbn [fst snd] in *.
    assert (Q := P m (or_introl eq_refl)). assert (Q' := Q).
    destruct Q' as (Q1 & Q2 & Q3 & Q4 & Q5 & Q6 & Q7 & Q8 & Q9 & Q10 & Q11 & Q12 & Q13 & Q14).
    repeat (split; [assumption|]). unfold to_wz_image. rewrite Q12. cbn [Z.eqb Pos.eqb].
    apply (image_read1 buf salt from m _ image Hz Fm Q Im).
  - cbn [map] in *. inversion_clear F as [|? ? _ Fs]. inversion_clear I as [|? ? _ Is]. apply IH; [exact Fs|exact Is|].
    intros m' Hm'. apply P. right. exact Hm'.
Qed.
Print Assumptions C120_archive.

(** An archive of two images built here, and the proof that it is one. *)
Lemma added_decrypt key out : key_ok key -> bytes out ->
  added (ms_stream key) 0 (fst (fst (decrypt_slice (snow2_new key) out))) out.
Proof.
  intros K B. destruct (added_total key 0 out B) as (plain & A & _).
  destruct (decrypt_slice_ok key 0 _ _ _ (snow2_new_ok key K) A) as (d & E & _). rewrite E. exact A.
Qed.
Fixpoint words_of (l : list Z) : list Z :=
  match l with a :: b :: c :: d :: r => (a + 256 * b + 65536 * c + 16777216 * d) :: words_of r | _ => [] end.
(** Hiding, with the key stream taken from the decryption of zeros. *)
Definition seal_ (key l : list Z) : list Z :=
  let ks := words_of (fst (fst (decrypt_slice (snow2_new key) (repeat 0 (length l))))) in
  flat_map (fun p => enc_le 4 (fst p - snd p)) (combine (words_of l) ks).
Definition ex_file : list Z := [65; 98; 46; 109; 115].
Definition ex_salt : list Z := [120; 57].
Definition ex_fb : list Z := [97; 98; 46; 109; 115; 120; 57].
Definition ex_rand : list Z := map (fun i => (37 * Z.of_nat i + 11) mod 256) (seq 0 183).
Definition ex_hidden : list Z := [115; 5; 9; 6].
Definition ex_sum : Z := 9 + 2 ^ 8 * 1 + 2 ^ 16 * 2 + 2 ^ 24 * 3 + sum16 ex_hidden.
Definition ex_hash : Z := ex_sum + 4.
Definition ex_enc : list Z := seal_ (head_key ex_fb) (enc_le 4 ex_hash ++ [2] ++ enc_le 4 2 ++ [0; 0; 0]).
Definition ex_key1 : list Z := [1; 2; 3; 4; 5; 6; 7; 8; 9; 10; 11; 12; 13; 14; 15; 16].
Definition ex_key2 : list Z := repeat 250 16.
Definition ex_meta1 : meta := Meta [97; 0xE9; 46] 5 6 2 1030 1032 7 8 ex_key1 0 0.
Definition ex_meta2 : meta := Meta [77; 111; 98; 47] (-5) 0 0 3 8 0 0 ex_key2 0 0.
Definition ex_metas : list meta := [ex_meta1; ex_meta2].
Definition ex_plain : list Z := stream (flat_map pieces1 ex_metas) ++ [0; 0].
Definition ex_table : list Z := seal_ (table_key ex_fb 16) ex_plain.
Definition ex_digits : list Z := [4; 0; 9; 1; 4; 8; 1; 8; 6].
Definition ex_image1 : list Z := map (fun i => (i * i) mod 256) (map Z.of_nat (seq 0 1030)).
Definition ex_image2 : list Z := [200; 100; 50].
Definition ex_store (key plain : list Z) : list Z :=
  let once := seal_ key plain in seal_ key (firstn 1024 once) ++ skipn 1024 once.
Definition ex_stored1 : list Z := ex_store (image_key1 ex_digits ex_key1 [97; 0xC3; 0xA9; 46]) (ex_image1 ++ [1; 1]).
Definition ex_stored2 : list Z := ex_store (image_key1 ex_digits ex_key2 [77; 111; 98; 47]) (ex_image2 ++ [0; 0; 0; 0; 0]).
Definition ex_archive : list Z := Eval vm_compute in
  ex_rand ++ [9; 1; 2; 3] ++ ex_hidden ++ ex_enc ++ repeat 0 153 ++ ex_table ++ repeat 0 556 ++ ex_stored2 ++ repeat 0 2040 ++ ex_stored1.
Lemma at_slice (buf : list Z) p q l : slice buf p q = Some l -> at_ buf p q l.
Proof.
  intros H. apply slice_some in H. destruct H as (H0 & H1 & _ & H2 & a & b & E & Ha).
  exists a, b. unfold zlen in *. split; [exact E|]. lia.
Qed.
Lemma bytes_dec (l : list Z) : forallb (fun b => (0 <=? b) && (b <? 256)) l = true -> bytes l.
Proof.
  intros H. apply Forall_forall. intros x Hx. rewrite forallb_forall in H. specialize (H x Hx).
  apply andb_prop in H. destruct H as [H1 H2]. apply Z.leb_le in H1. apply Z.ltb_lt in H2. split; assumption.
Qed.
Lemma added_check key plain out : key_ok key -> forallb (fun b => (0 <=? b) && (b <? 256)) out = true ->
  fst (fst (decrypt_slice (snow2_new key) out)) = plain -> added (ms_stream key) 0 plain out.
Proof. intros K B <-. apply added_decrypt; [exact K|apply bytes_dec, B]. Qed.
Lemma utf8_check t l : forallb (fun b => (0 <=? b) && (b <? 256)) l = true -> utf8_strict l = Some t -> utf8 t l.
Proof. intros B H. apply strict_some; [apply bytes_dec, B|exact H]. Qed.
Ltac vm := vm_compute; reflexivity.
Lemma ex_head : head1 ex_archive ex_file ex_salt ex_hash 2 2 ex_sum 356.
Proof.
  exists [97; 98; 46; 109; 115], ex_fb, ex_rand, 9, 1, 2, 3, ex_hidden, [0; 0; 0], ex_enc.
  cbv zeta. change (total [97; 98; 46; 109; 115] mod 312 + 30) with 183. change (183 + 4 + 2 * len ex_salt) with 191.
  split; [apply utf8_check; vm|]. split; [apply utf8_check; vm|]. split; [discriminate|].
  split; [apply (bytes_dec ex_salt); vm|]. split; [vm|]. split; [discriminate|].
  split; [apply at_slice; vm|]. split; [apply at_slice; vm|]. split; [vm|]. split; [apply at_slice; vm|].
  split; [intros [|[|i]] H; [vm|vm|cbn in H; lia]|].
  split; [split; [discriminate|vm]|]. split; [lia|]. split; [split; [discriminate|vm]|]. split; [vm|].
  split; [apply added_check; [apply head_key_ok|vm|vm]|]. split; [apply at_slice; vm|]. split; vm.
Qed.
Lemma ex_image image m name filler stored : 
  utf8_strict name = Some (m_name m) -> forallb (fun b => (0 <=? b) && (b <? 256)) name = true ->
  len image = m_size m -> len (image ++ filler) = m_aligned m -> forallb (fun b => (0 <=? b) && (b <? 256)) (image ++ filler) = true ->
  forallb (fun b => (0 <=? b) && (b <? 256)) stored = true ->
  (let key := image_key1 ex_digits (m_key m) name in
   let once := seal_ key (image ++ filler) in let head := seal_ key (firstn 1024 once) in
   forallb (fun b => (0 <=? b) && (b <? 256)) once = true /\ forallb (fun b => (0 <=? b) && (b <? 256)) head = true /\
   fst (fst (decrypt_slice (snow2_new key) once)) = image ++ filler /\
   fst (fst (decrypt_slice (snow2_new key) head)) = firstn 1024 once /\ stored = head ++ skipn 1024 once) ->
  slice ex_archive (1024 + 1024 * m_start m) (1024 + 1024 * m_start m + m_aligned m) = Some stored ->
  image_at ex_archive ex_salt 1024 m image.
Proof.
  intros U Bn L La B Bs (B1 & B2 & E1 & E2 & E3) S. exists ex_digits, name, filler, stored.
  split.
  - split; [apply Forall_forall; intros x Hx; cbn in Hx; lia|]. split; [vm|]. right. do 2 eexists. split; [reflexivity|discriminate].
  - split; [apply utf8_check; assumption|]. split; [exact L|]. split; [exact La|]. split; [apply bytes_dec, B|].
    split; [|apply at_slice, S]. eexists _, _. split; [apply added_check; [apply image_key1_ok|exact B1|exact E1]|].
    split; [apply added_check; [apply image_key1_ok|exact B2|exact E2]|exact E3].
Qed.
Example C120_example_archive : archive1 ex_archive ex_file [(ex_meta1, ex_image1); (ex_meta2, ex_image2)] 1024.
Proof.
  exists ex_salt, ex_fb, ex_hash, ex_sum, 356, 468. split; [exact ex_head|]. split; [vm|]. split; [apply utf8_check; vm|].
  split.
  { assert (X : forall m, unicode (m_name m) -> m_name m <> [] -> length (m_key m) = 16%nat ->
      forallb (fun b => (0 <=? b) && (b <? 256)) (m_key m) = true ->
      (let ok v := (- 2 ^ 31 <=? v) && (v <? 2 ^ 31) in
       (len (units16 (m_name m)) <? 2 ^ 30) && ok (m_sum m) && ok (m_flags m) && ((0 <=? m_start m) && (m_start m <? 2 ^ 31)) &&
       ((0 <=? m_size m) && (m_size m <=? m_aligned m)) && (m_aligned m <? 2 ^ 31) && ok (m_u1 m) && ok (m_u2 m) && ok (m_u3 m) && ok (m_u4 m) = true) ->
      meta_ok m).
    { intros m U N L B H. cbv zeta in H. repeat (apply andb_prop in H; destruct H as [H ?]).
      repeat match goal with K : _ && _ = true |- _ => apply andb_prop in K; destruct K end.
      repeat match goal with K : (_ <? _) = true |- _ => apply Z.ltb_lt in K | K : (_ <=? _) = true |- _ => apply Z.leb_le in K end.
      assert (Bk := bytes_dec _ B). unfold meta_ok, i32. repeat (split; [assumption || (split; assumption)|]). assumption. }
    apply Forall_cons; [|apply Forall_cons; [|apply Forall_nil]]; apply X; [|discriminate|vm|vm|vm| |discriminate|vm|vm|vm];
      cbn [m_name ex_meta1 ex_meta2]; repeat (apply Forall_cons || apply Forall_nil); lia. }
  split.
  { exists [0; 0], ex_table. split; [apply added_check; [apply mod_key_ok, seq_length|vm|vm]|].
    split; [cbn; lia|]. split; [vm|]. apply at_slice. vm. }
  split; [split; [vm|lia]|].
  repeat (apply Forall_cons || apply Forall_nil); cbn [fst snd].
  - apply (ex_image _ _ [97; 0xC3; 0xA9; 46] [1; 1] ex_stored1); try vm. cbv zeta. split; [vm|]. split; [vm|]. split; [vm|]. split; [vm|]. vm.
  - apply (ex_image _ _ [77; 111; 98; 47] [0; 0; 0; 0; 0] ex_stored2); try vm. cbv zeta. split; [vm|]. split; [vm|]. split; [vm|]. split; [vm|]. vm.
Qed.
Example C120_example : forall block, exists h a b,
  ms_open block ex_file ex_archive = Ok h /\ ms_parse block h ex_archive = Ok [a; b] /\
  me_name a = [97; 0xE9; 46] /\ to_wz_image block ex_archive a = Ok ex_image1 /\
  me_name b = [77; 111; 98; 47] /\ to_wz_image block ex_archive b = Ok ex_image2 /\ me_off a = 3072.
Proof.
  intros block. eexists _, _, _. split; [vm_compute; reflexivity|]. split; [vm_compute; reflexivity|].
  split; [reflexivity|]. split; [vm_compute; reflexivity|]. split; [reflexivity|]. split; [vm_compute; reflexivity|]. reflexivity.
Qed.
Example C41_example : forall block, exists h a b,
  ms_open block ex_file ex_archive = Ok h /\ ms_parse block h ex_archive = Ok [a; b] /\
  (me_off a, me_block a, me_off b, me_block b) = (1024 + 2 * 1024, 1032, 1024, 8).
Proof.
  intros block. eexists _, _, _. split; [vm_compute; reflexivity|]. split; [vm_compute; reflexivity|]. reflexivity.
Qed.
(** More than 1024 bytes: both parts of the image. *)
Example C45_example : forall block,
  to_wz_image block ex_archive (mkEntry ex_salt [97; 0xE9; 46] 0 0 0 1030 1032 0 0 ex_key1 0 0 1 3072 1032) = Ok ex_image1.
Proof. intros block. vm_compute. reflexivity. Qed.

(** *** C121: what is laid out as a header of version 1 is opened only with version 2 and a fitting hash. *)
Theorem C121_header : forall buf file salt hash version count sum table,
  bytes buf -> head1 buf file salt hash version count sum table ->
  (version = 2 -> hash_fits hash version count sum ->
     exists h, from_ms_file file buf = Ok h /\ mh_salt h = salt /\ mh_name h = map small file ++ salt /\
       mh_hash h = hash /\ mh_version h = 2 /\ mh_count h = count /\ mh_estart h = table /\ mh_ms h = 1) /\
  (version <> 2 -> from_ms_file file buf = Err (EOther 30)) /\
  (version = 2 -> ~ hash_fits hash version count sum -> from_ms_file file buf = Err (EOther 31)).
Proof.
  intros buf file salt hash version count sum table B H.
  destruct (head1_run buf file salt hash version count sum table B H) as (q & _ & E). rewrite E. unfold hash_fits.
  split; [|split].
  - intros -> Hf. rewrite Hf. cbn [Z.eqb Pos.eqb]. eexists. split; [reflexivity|]. repeat split.
  - intros N. destruct (Z.eqb_spec version 2); [contradiction|reflexivity].
  - intros -> N. cbn [Z.eqb Pos.eqb]. destruct (Z.eqb_spec ((hash - (sum + 2 + count)) mod 2 ^ 32) 0); [contradiction|reflexivity].
Qed.
Print Assumptions C121_header.
Definition ex_bad : list Z := firstn 191 ex_archive ++ seal_ (head_key ex_fb) (enc_le 4 (ex_hash + 1) ++ [2] ++ enc_le 4 2 ++ [0; 0; 0]) ++ skipn 203 ex_archive.
Definition ex_old : list Z := firstn 191 ex_archive ++ seal_ (head_key ex_fb) (enc_le 4 ex_hash ++ [1] ++ enc_le 4 2 ++ [0; 0; 0]) ++ skipn 203 ex_archive.
Example C121_example : from_ms_file ex_file ex_bad = Err (EOther 31) /\ from_ms_file ex_file ex_old = Err (EOther 30) /\
  exists h, from_ms_file ex_file ex_archive = Ok h /\ mh_count h = 2.
Proof.
  split; [vm_compute; reflexivity|]. split; [vm_compute; reflexivity|]. eexists. split; [vm_compute; reflexivity|reflexivity].
Qed.

(** *** C122 (false): opening bytes that are no archive is an error.  Short files panic. *)
Definition C122_full : Prop := forall block file buf, bytes buf -> file <> [] -> ms_open block file buf <> Panic.
Theorem C122_open_refuted : exists file buf, bytes buf /\ file <> [] /\ forall block, ms_open block file buf = Panic.
Proof.
  exists [97; 46; 109; 115], [1; 2; 3; 4]. split; [apply bytes_dec; reflexivity|]. split; [discriminate|].
  intros block. vm_compute. reflexivity.
Qed.
Print Assumptions C122_open_refuted.
Theorem C122_full_is_false : ~ C122_full.
Proof. destruct C122_open_refuted as (file & buf & B & N & P). intros F. apply (F (fun _ _ _ => []) file buf B N), P. Qed.
Print Assumptions C122_full_is_false.

(** *** C123 (false): a parsed entry can always be turned into an image without a panic.  An entry without a
    name, or with a size above its block size, panics. *)
Theorem C123_image_refuted : exists buf e1 e2,
  bytes buf /\ me_name e1 = [] /\ me_size e1 <= me_block e1 /\ me_name e2 <> [] /\ me_block e2 < me_size e2 /\
  forall block, to_wz_image block buf e1 = Panic /\ to_wz_image block buf e2 = Panic.
Proof.
  exists (repeat 7 16), (mkEntry ex_salt [] 0 0 0 4 8 0 0 ex_key1 0 0 1 0 8), (mkEntry ex_salt [97] 0 0 0 9 8 0 0 ex_key1 0 0 1 0 8).
  split; [apply bytes_dec; reflexivity|]. split; [reflexivity|]. split; [discriminate|]. split; [discriminate|]. split; [reflexivity|].
  intros block. split; vm_compute; reflexivity.
Qed.
Print Assumptions C123_image_refuted.

(** *** C124 (false): a header that passes the hash check can be parsed without a panic.  The count may be
    negative. *)
Theorem C124_count_refuted : exists buf file h,
  bytes buf /\ from_ms_file file buf = Ok h /\ mh_count h = -1 /\ forall block, ms_parse block h buf = Panic.
Proof.
  exists (firstn 191 ex_archive ++ seal_ (head_key ex_fb) (enc_le 4 (ex_sum + 1) ++ [2] ++ enc_le 4 (-1) ++ [0; 0; 0]) ++ skipn 203 ex_archive), ex_file.
  eexists. split; [apply bytes_dec; vm_compute; reflexivity|]. split; [vm_compute; reflexivity|]. split; [reflexivity|].
  intros block. vm_compute. reflexivity.
Qed.
Print Assumptions C124_count_refuted.
