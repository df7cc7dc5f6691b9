(** C238-C241: what is in .ms archives, read by path. *)
From Coq Require Import ZArith List Bool Lia ZifyBool ZifyNat Permutation.
From Coq Require String Ascii.
From Verif.Model Require Import Base Utf Keys Reader WzStr Header Offset VersionPkg1 VersionPkg2 Directory Image Media Guess File Node Snow2 Ms World.
From Verif.Spec Require Import Wire Stream StrWire HeaderSpec Version Media PropWire PropView DirWire DirView DirWire2 Aes KeyFind PropEnc PathSpec Tree ChaCha Snow2 Ms MsFile MsFile2 Whole.
From Verif.Proofs Require Import OpenL BaseL KeysL FileL NodeL WorldL WalkWL GuessL Snow2L MsReadL MsFileL.
From Verif.Props Require Import P_Media P_Header P_Strict P_Version P_Directory P_Node P_Guess P_File P_Ms P_MsRead2 P_Ms2 P_Whole P_Tour.
Import ListNotations. Import String.StringSyntax.
Open Scope Z_scope.

(** The bytes are an archive of version 1, or one of version 2 and not by chance one of version 1. *)
Definition archive (block : list Z -> list Z -> Z -> list Z) (buf file : list Z) (images : list (meta * list Z)) : Prop :=
  exists from, archive1 buf file images from \/ (block64 block /\ archive2 block buf file images from /\ not_version1 buf file).
(** Its images are property images, without a key, with this content. *)
Definition holds (images : list (meta * list Z)) (cs : list (list Z * content)) : Prop :=
  Forall2 (fun p c => fst c = m_name (fst p) /\ not_text (m_name (fst p)) /\
    exists props, snd c = CImage props /\ laid_image (snd p) (fun _ => 0) 0 props /\ Forall (fun e => linkless (snd e)) props) images cs.
(** Properties are read from one of the images, without a key. *)
Definition of_image (images : list (meta * list Z)) (r : rd) : Prop := exists p, In p images /\ rd_buf r = snd p /\ forall j, rd_ks r j = 0.

Definition no_shared : shared := mkShared (mkRd [] (fun _ => 0) (fun _ => 0)) (mkHeader IV1 0 0 0 None 0 0 FNone) false OPkg1 0.

Lemma archive_entries block buf file images : bytes buf -> zlen buf < 2 ^ 63 -> archive block buf file images ->
  exists h es, ms_open block file buf = Ok h /\ ms_parse block h buf = Ok es /\
    Forall2 (fun e p => me_name e = m_name (fst p) /\ to_wz_image block buf e = Ok (snd p) /\ zlen (snd p) < 2 ^ 31) es images.
Proof.
  intros Hb Hs (from & [A|(B6 & A & N)]).
  - destruct (C120_archive block buf file images from Hb Hs A) as (h & es & O & P & F). exists h, es. split; [exact O|]. split; [exact P|].
    destruct A as (salt & fb & hash & sum & table & stop & _ & _ & _ & M & _ & _ & I). clear - F M I.
    induction F as [|e p es images (N & _ & _ & _ & T) _ IH]; constructor.
    + cbn [map] in M. inversion_clear M as [|? ? (_ & _ & _ & _ & _ & _ & Sz & Al & _) _]. inversion_clear I as [|? ? (ds & nm & fl & sto & _ & _ & L & _) _].
      unfold len in L. unfold zlen. repeat split; [exact N|exact T|lia].
    + inversion_clear M. inversion_clear I. auto.
  - destruct (C130_archive block buf file images from B6 Hb Hs A N) as (h & es & O & P & F). exists h, es. split; [exact O|]. split; [exact P|].
    destruct A as (salt & fb & hash & table & stop & _ & _ & M & _ & _ & I). clear - F M I.
    induction F as [|e p es images (N & _ & _ & _ & _ & _ & T) _ IH]; constructor.
    + cbn [map] in M. inversion_clear M as [|? ? (_ & _ & _ & _ & _ & _ & Sz & Al & _) _]. inversion_clear I as [|? ? (ds & fl & sto & _ & _ & L & _) _].
      unfold len in L. unfold zlen. repeat split; [exact N|exact T|lia].
    + inversion_clear M. inversion_clear I. auto.
Qed.

Lemma archive_opens block name buf file images cs : bytes buf -> zlen buf < 2 ^ 63 -> archive block buf file images -> holds images cs ->
  exists w0 f0, w_open_ms block name file buf = Ok w0 /\ forall f, (f0 <= f)%nat -> exists w,
    w_parse (iv_key (aes256 user_key)) block f w0 0 0 = (Ok tt, w) /\ (0 < f)%nat /\
    opened_world (iv_key (aes256 user_key)) block (of_image images) f no_shared name (PlDir cs) w.
Proof.
  intros Hb Hs A H. destruct (archive_entries block buf file images Hb Hs A) as (h & es & O & P & F).
  unfold w_open_ms. rewrite O. cbn [rmap rbind]. set (st := iv_key (aes256 user_key)).
  assert (R : exists f0, forall f, (f0 <= f)%nat -> Forall2 (fun e c => me_name e = fst c /\ exists x props kids, snd c = CImage props /\ to_wz_image block buf e = Ok x /\
    of_image images (own_reader st x) /\ readable f (own_reader st x) (me_name e) 0 (wrap 64 (me_size e)) props kids) es cs).
  { assert (In_ : forall p, In p images -> In p images) by auto. revert In_. generalize images at 2 3 as all. clear P A O. revert cs H.
    induction F as [|e p es images (N & T & Sz) _ IH]; intros cs H all In_; inversion H as [|? c ? cs' (Nc & Nt & props & Ec & L & Li) H']; subst; [exists 0%nat; constructor|].
    destruct (IH cs' H' all) as (f1 & R1); [intros q Q; apply In_; right; exact Q|].
    assert (Ne : snd p <> []).
    { intro E. destruct L as (q & e' & (a & b & E1 & _) & _). rewrite E in E1. destruct a; discriminate. }
    assert (Ow : own_reader st (snd p) = mkRd (snd p) (fun _ => 0) (rd_pks (own_reader st (snd p)))).
    { unfold own_reader, fresh_reader. destruct (snd p); [congruence|]. reflexivity. }
    destruct (image_reads (own_reader st (snd p)) (me_name e) (wrap 64 (me_size e)) 0 props) as (f2 & kids & R2).
    { rewrite Ow. exact Sz. } { rewrite Ow. intro j. cbn. split; lia. } { rewrite Ow. exact L. } { rewrite N. exact Nt. } { exact Li. }
    exists (Nat.max f1 f2). intros f Hf. constructor; [|apply R1; lia]. split; [rewrite N; symmetry; exact Nc|]. exists (snd p), props, kids.
    split; [exact Ec|]. split; [exact T|]. split; [|apply R2; lia]. exists p. split; [apply In_; left; reflexivity|]. rewrite Ow. split; reflexivity. }
  destruct R as (f0 & R). eexists _, (Nat.max f0 1). split; [reflexivity|]. intros f Hf.
  destruct (archive_read st block (of_image images) no_shared f name buf h es cs P (R f ltac:(lia))) as (w & E & O').
  exists w. split; [exact E|]. split; [lia|exact O'].
Qed.

(** C238: lookups in an archive of property images give what is in the images. *)
Theorem C238_archive_content : forall block name buf file images cs,
  bytes buf -> zlen buf < 2 ^ 63 -> archive block buf file images -> holds images cs ->
  exists w0 f0, w_open_ms block name file buf = Ok w0 /\ forall f, (f0 <= f)%nat -> exists w,
    w_parse (iv_key (aes256 user_key)) block f w0 0 0 = (Ok tt, w) /\
    serves (iv_key (aes256 user_key)) block f w (of_image images) name (PlDir cs) /\ steady (iv_key (aes256 user_key)) block f w.
Proof.
  intros block name buf file images cs Hb Hs A H. destruct (archive_opens block name buf file images cs Hb Hs A H) as (w0 & f0 & O & P).
  exists w0, f0. split; [exact O|]. intros f Hf. destruct (P f Hf) as (w & E & F & W). exists w. split; [exact E|].
  split; [eapply world_serves; eassumption|eapply world_steady; eassumption].
Qed.
Print Assumptions C238_archive_content.

(** C239: forced walks go through all of it, and it is looked up as before afterwards. *)
Theorem C239_archive_tour : forall block name buf file images cs,
  bytes buf -> zlen buf < 2 ^ 63 -> archive block buf file images -> holds images cs ->
  exists w0 f0, w_open_ms block name file buf = Ok w0 /\ forall f, (f0 <= f)%nat -> exists w,
    w_parse (iv_key (aes256 user_key)) block f w0 0 0 = (Ok tt, w) /\
    tours (iv_key (aes256 user_key)) block f w (of_image images) name (PlDir cs) /\
    forall w1, used (iv_key (aes256 user_key)) block f w w1 -> serves (iv_key (aes256 user_key)) block f w1 (of_image images) name (PlDir cs).
Proof.
  intros block name buf file images cs Hb Hs A H. destruct (archive_opens block name buf file images cs Hb Hs A H) as (w0 & f0 & O & P).
  exists w0, f0. split; [exact O|]. intros f Hf. destruct (P f Hf) as (w & E & F & W). exists w. split; [exact E|].
  split; [eapply world_tours; eassumption|]. intros w1 U. eapply world_still_serves; eassumption.
Qed.
Print Assumptions C239_archive_tour.

(** C240: at any time [at] gives the image of that name, whatever the name looks like, and nothing for any other name. *)
Theorem C240_archive_names : forall block name buf file images cs,
  bytes buf -> zlen buf < 2 ^ 63 -> archive block buf file images -> holds images cs ->
  exists w0 f0, w_open_ms block name file buf = Ok w0 /\ forall f, (f0 <= f)%nat -> exists w,
    w_parse (iv_key (aes256 user_key)) block f w0 0 0 = (Ok tt, w) /\
    forall w1 n, used (iv_key (aes256 user_key)) block f w w1 ->
      (forall c, last_named cs n c -> exists i, node_at (w_heap w1) 0 n = Some i /\ presents (iv_key (aes256 user_key)) block w1 (of_image images) i (place_of c)) /\
      (~ In n (map fst cs) -> node_at (w_heap w1) 0 n = None).
Proof.
  intros block name buf file images cs Hb Hs A H. destruct (archive_opens block name buf file images cs Hb Hs A H) as (w0 & f0 & O & P).
  exists w0, f0. split; [exact O|]. intros f Hf. destruct (P f Hf) as (w & E & F & W). exists w. split; [exact E|]. intros w1 n U.
  pose proof (used_opened _ _ _ f F _ _ _ w w1 W U) as (B & Ap & k & sl & Hc & Un).
  destruct (parse_place f _ _ _ _ w1 0 _ F B Ap) as (w2 & P2 & _ & _ & _ & (In_ & No) & _).
  unfold w_parse in P2. rewrite Hc in P2. cbn [nd_kind] in P2. rewrite Un in P2. injection P2 as <-.
  split.
  - intros c L. destruct (In_ n _ (inside_dir _ _ _ L)) as (j & Ej & Aj & _). exists j. split; [exact Ej|]. eapply place_presents, Aj.
  - intro N. apply No. constructor. exact N.
Qed.
Print Assumptions C240_archive_names.

(** Archives of both versions with the images "a.img" and "Mob/x.img". *)
Definition arc_props : list (list Z * prop) := [(codes "b", PInt 70000)].
Definition arc_a : list Z := Eval vm_compute in ser_image (fun _ => 0) small_props.
Definition arc_x : list Z := Eval vm_compute in ser_image (fun _ => 0) arc_props.
Definition arc_content : list (list Z * content) := [(codes "a.img", CImage small_props); (codes "Mob/x.img", CImage arc_props)].
Definition arc_meta1 : meta := Meta (codes "a.img") 5 6 1 85 88 7 8 ex_key1 11 (-12).
Definition arc_meta2 : meta := Meta (codes "Mob/x.img") (-5) 0 0 (len arc_x) 32 0 0 ex_key2 0 13.
Definition arc_metas : list meta := [arc_meta1; arc_meta2].
Definition arc_images : list (meta * list Z) := [(arc_meta1, arc_a); (arc_meta2, arc_x)].
Definition arc_fill1 : list Z := [0; 0; 0].
Definition arc_fill2 : list Z := Eval vm_compute in repeat 0 (32 - length arc_x).
Definition arc_table1 : list Z := seal_ (table_key ex_fb 16) (stream (flat_map pieces1 arc_metas)).
Definition arc_stored1 : list Z := ex_store (image_key1 ex_digits ex_key1 (codes "a.img")) (arc_a ++ arc_fill1).
Definition arc_stored2 : list Z := ex_store (image_key1 ex_digits ex_key2 (codes "Mob/x.img")) (arc_x ++ arc_fill2).
Definition arc1 : list Z := Eval vm_compute in
  ex_rand ++ [9; 1; 2; 3] ++ ex_hidden ++ ex_enc ++ repeat 0 153 ++ arc_table1 ++ repeat 0 544 ++ arc_stored2 ++ repeat 0 992 ++ arc_stored1.
Definition arc_pieces := flat_map pieces2 arc_metas.
Definition arc_table2 : list Z := quick (table_key2 ex_fb) (repeat 0 12) (counter (ends 0 arc_pieces)) (stream arc_pieces ++ repeat 0 52).
Definition arc2 : list Z := Eval vm_compute in
  ex_rand ++ [1] ++ [7; 1; 2; 3] ++ e2_hidden ++ e2_enc 2 ++ repeat 0 131 ++ arc_table2 ++ repeat 0 445 ++
  e2_store arc_meta2 (arc_x ++ arc_fill2) ++ repeat 0 992 ++ e2_store arc_meta1 (arc_a ++ arc_fill1).
Lemma arc_metas_ok : Forall meta_ok arc_metas.
Proof.
  apply Forall_cons; [|apply Forall_cons; [|apply Forall_nil]];
    (split; [repeat (apply Forall_cons || apply Forall_nil); cbn; lia|]; split; [discriminate|]; split; [vm|];
     repeat (split; [cbn; unfold i32; lia|]); split; [apply bytes_dec; vm|]; cbn; unfold i32; lia).
Qed.
Lemma arc1_image image m filler stored :
  utf8_strict (m_name m) = Some (m_name m) -> forallb (fun b => (0 <=? b) && (b <? 256)) (m_name m) = true ->
  len image = m_size m -> len (image ++ filler) = m_aligned m -> forallb (fun b => (0 <=? b) && (b <? 256)) (image ++ filler) = true ->
  (let key := image_key1 ex_digits (m_key m) (m_name m) in
   let once := seal_ key (image ++ filler) in let head := seal_ key (firstn 1024 once) in
   forallb (fun b => (0 <=? b) && (b <? 256)) once = true /\ forallb (fun b => (0 <=? b) && (b <? 256)) head = true /\
   fst (fst (decrypt_slice (snow2_new key) once)) = image ++ filler /\
   fst (fst (decrypt_slice (snow2_new key) head)) = firstn 1024 once /\ stored = head ++ skipn 1024 once) ->
  slice arc1 (1024 + 1024 * m_start m) (1024 + 1024 * m_start m + m_aligned m) = Some stored ->
  image_at arc1 ex_salt 1024 m image.
Proof.
  intros U Bn L La B (B1 & B2 & E1 & E2 & E3) S. exists ex_digits, (m_name m), filler, stored.
  split.
  - split; [apply Forall_forall; intros x Hx; cbn in Hx; lia|]. split; [vm|]. right. do 2 eexists. split; [reflexivity|discriminate].
  - split; [apply utf8_check; assumption|]. split; [exact L|]. split; [exact La|]. split; [apply bytes_dec, B|].
    split; [|apply at_slice, S]. eexists _, _. split; [apply added_check; [apply image_key1_ok|exact B1|exact E1]|].
    split; [apply added_check; [apply image_key1_ok|exact B2|exact E2]|exact E3].
Qed.
Lemma arc1_head : head1 arc1 ex_file ex_salt ex_hash 2 2 ex_sum 356.
Proof.
  exists [97; 98; 46; 109; 115], ex_fb, ex_rand, 9, 1, 2, 3, ex_hidden, [0; 0; 0], ex_enc.
  cbv zeta. change (total [97; 98; 46; 109; 115] mod 312 + 30) with 183. change (183 + 4 + 2 * len ex_salt) with 191.
  split; [apply utf8_check; vm|]. split; [apply utf8_check; vm|]. split; [discriminate|].
  split; [apply (bytes_dec ex_salt); vm|]. split; [vm|]. split; [discriminate|].
  split; [apply at_slice; vm|]. split; [apply at_slice; vm|]. split; [vm|]. split; [apply at_slice; vm|].
  split; [intros [|[|i]] H; [vm|vm|cbn in H; lia]|].
  split; [split; [discriminate|vm]|]. split; [lia|]. split; [split; [discriminate|vm]|]. split; [vm|].
  split; [apply added_check; [apply head_key_ok|vm|vm]|]. split; [apply at_slice; vm|]. split; vm.
Qed.
Lemma arc1_archive : archive chacha_block arc1 ex_file arc_images.
Proof.
  exists 1024. left. exists ex_salt, ex_fb, ex_hash, ex_sum, 356, 480. split; [exact arc1_head|]. split; [vm|]. split; [apply utf8_check; vm|].
  split; [exact arc_metas_ok|]. split.
  { exists [], arc_table1. split; [apply added_check; [apply mod_key_ok, seq_length|vm|vm]|].
    split; [cbn; lia|]. split; [vm|]. apply at_slice. vm. }
  split; [split; [vm|lia]|].
  apply Forall_cons; [|apply Forall_cons; [|apply Forall_nil]]; cbn [fst snd].
  - apply (arc1_image _ _ arc_fill1 arc_stored1); try vm. cbv zeta. split; [vm|]. split; [vm|]. split; [vm|]. split; [vm|]. vm.
  - apply (arc1_image _ _ arc_fill2 arc_stored2); try vm. cbv zeta. split; [vm|]. split; [vm|]. split; [vm|]. split; [vm|]. vm.
Qed.
Lemma arc2_image image m filler :
  forallb (fun c => (0 <=? c) && (c <? 128)) (m_name m) = true ->
  len image = m_size m -> len (image ++ filler) = m_aligned m ->
  slice arc2 (1024 + 1024 * m_start m) (1024 + 1024 * m_start m + m_aligned m) = Some (e2_store m (image ++ filler)) ->
  image_at2 chacha_block arc2 ex_salt 1024 m image.
Proof.
  intros A L La S. exists ex_digits, filler, (e2_store m (image ++ filler)).
  split.
  - split; [apply Forall_forall; intros x Hx; cbn in Hx; lia|]. split; [vm|]. right. do 2 eexists. split; [reflexivity|discriminate].
  - split; [apply Forall_forall; intros x Hx; rewrite forallb_forall in A; specialize (A x Hx); lia|].
    split; [exact L|]. split; [exact La|]. split; [unfold e2_store; rewrite quick_ok by reflexivity; reflexivity|]. apply at_slice, S.
Qed.
Lemma arc2_head : head2 chacha_block arc2 ex_file ex_salt 77 4 2 387.
Proof.
  exists [97; 98; 46; 109; 115], ex_fb, ex_rand, 7, 1, 2, 3, e2_hidden, (repeat 0 56), (e2_enc 2).
  cbv zeta. change (total [97; 98; 46; 109; 115] mod 312 + 30) with 183. change (183 + 5 + 2 * len ex_salt) with 192.
  split; [apply utf8_check; vm|]. split; [apply utf8_check; vm|]. split; [discriminate|].
  split; [apply (bytes_dec ex_salt); vm|]. split; [vm|]. split; [discriminate|].
  split; [apply at_slice; vm|]. split; [apply at_slice; vm|]. split; [apply at_slice; vm|]. split; [vm|]. split; [apply at_slice; vm|].
  split; [intros [|[|i]] H; [vm|vm|cbn in H; lia]|].
  split; [split; [discriminate|vm]|]. split; [lia|]. split; [split; [discriminate|vm]|]. split; [vm|].
  split; [apply quick_ok; reflexivity|]. split; [apply at_slice; vm|]. split; [vm_compute; discriminate|]. vm.
Qed.
Lemma arc2_first : not_version1 arc2 ex_file.
Proof.
  exists e2_salt1, (sext 32 (le_val (firstn 4 e2_dec1))), (nth 4 e2_dec1 0), (sext 32 (le_val (firstn 4 (skipn 5 e2_dec1)))).
  eexists _, _. split; [|intros [V _]; discriminate V].
  exists [97; 98; 46; 109; 115], e2_fb1, ex_rand, 1, 7, 1, 2, (firstn 20 (skipn 187 arc2)), (skipn 9 e2_dec1), (firstn 12 (skipn 207 arc2)).
  cbv zeta. change (total [97; 98; 46; 109; 115] mod 312 + 30) with 183. change (183 + 4 + 2 * len e2_salt1) with 207.
  split; [apply utf8_check; vm|]. split; [apply utf8_check; vm|]. split; [discriminate|].
  split; [apply (bytes_dec e2_salt1); vm|]. split; [vm|]. split; [discriminate|].
  split; [apply at_slice; vm|]. split; [apply at_slice; vm|]. split; [vm|]. split; [apply at_slice; vm|].
  split; [intros i H; change (length e2_salt1) with 10%nat in H; do 10 (destruct i as [|i]; [vm|]); lia|].
  split; [split; [discriminate|vm]|]. split; [split; [discriminate|vm]|]. split; [split; [discriminate|vm]|]. split; [vm|].
  split; [apply added_check; [apply head_key_ok|vm|vm]|]. split; [apply at_slice; vm|]. split; reflexivity.
Qed.
Lemma arc2_archive : archive chacha_block arc2 ex_file arc_images.
Proof.
  exists 1024. right. split; [exact chacha64|]. split; [|exact arc2_first].
  exists ex_salt, ex_fb, 77, 387, 579. split; [exact arc2_head|]. split; [apply utf8_check; vm|].
  split; [exact arc_metas_ok|]. split.
  { exists (repeat 0 52), arc_table2. split; [apply quick_ok; reflexivity|]. split; [cbn; lia|]. split; [vm|]. split; [apply at_slice; vm|].
    apply Forall_forall. intros p Hp.
    assert (X : forallb (fun p => 579 + len (piece_bytes p) <=? len arc2) (flat_map pieces2 (map fst arc_images)) = true) by vm.
    rewrite forallb_forall in X. apply Z.leb_le, X, Hp. }
  split; [split; [vm|lia]|].
  apply Forall_cons; [|apply Forall_cons; [|apply Forall_nil]]; cbn [fst snd].
  - apply (arc2_image _ _ arc_fill1); vm.
  - apply (arc2_image _ _ arc_fill2); vm.
Qed.
Lemma arc_holds : holds arc_images arc_content.
Proof.
  constructor; [|constructor; [|constructor]]; cbn [fst snd arc_meta1 arc_meta2 m_name]; (split; [reflexivity|]).
  - split; [apply (not_text_img (codes "a"))|]. exists small_props. split; [reflexivity|]. split; [|repeat constructor].
    apply (serialised_image _ _ _ 85); [vm_compute; reflexivity|exact small_good|]. exists [], []. repeat split.
  - split; [apply (not_text_img (codes "Mob/x"))|]. exists arc_props. split; [reflexivity|]. split; [|repeat constructor].
    apply (serialised_image _ _ _ (zlen arc_x)); [vm_compute; reflexivity|repeat (constructor; try lia); apply lit_unicode; reflexivity|]. exists [], []. repeat split.
Qed.
(** Opened and read. *)
Definition arc_read (buf : list Z) : world :=
  match w_open_ms chacha_block (codes "Ab") ex_file buf with Ok w => snd (w_parse (iv_key (aes256 user_key)) chacha_block 20 w 0 0) | _ => nowhere [] end.
Definition arc_looked (buf : list Z) : Prop :=
  let st := iv_key (aes256 user_key) in
  let '(x, w1) := w_at_path_parsed st chacha_block 20 (arc_read buf) 0 (codes "a.img/s/v") in
  match x with
  | Ok i => prop_at w1 i = Some (OVector 3 (-4)) /\ get_full_path 9 (w_heap w1) i = Ok (codes "Ab/a.img/s/v") /\
            fst (w_at_path_parsed st chacha_block 20 w1 0 (codes "a.img/b")) = Err ENotFound
  | _ => False
  end.
Example C238_example :
  (bytes arc1 /\ archive chacha_block arc1 ex_file arc_images) /\ (bytes arc2 /\ archive chacha_block arc2 ex_file arc_images) /\ holds arc_images arc_content /\
  leads (PlDir arc_content) [codes "a.img"; codes "s"; codes "v"] (PlProp (PVec 3 (-4))) /\ arc_looked arc1 /\ arc_looked arc2.
Proof.
  split; [split; [apply bytes_dec; vm|exact arc1_archive]|]. split; [split; [apply bytes_dec; vm|exact arc2_archive]|]. split; [exact arc_holds|].
  split; [|vm_compute; repeat split].
  eapply leads_on; [constructor; exists [], [(codes "Mob/x.img", CImage arc_props)]; split; [reflexivity|intros [E|[]]; discriminate E]|].
  eapply leads_on; [constructor; exists [(codes "a", PInt 300)], [(codes "a", PShort 7)]; split; [reflexivity|intros [E|[]]; discriminate E]|].
  eapply leads_on; [econstructor; [constructor|exists [(codes "x", PStr (codes "hi"))], []; split; [reflexivity|intros []]]|constructor].
Qed.
Example C239_example :
  let st := iv_key (aes256 user_key) in
  let x := w_walk st chacha_block 20 (@rev (text * id)) 9 true (arc_read arc2) 0 in
  seen x = [codes "Ab"; codes "Ab/Mob/x.img"; codes "Ab/Mob/x.img/b"; codes "Ab/a.img"; codes "Ab/a.img/s"; codes "Ab/a.img/s/v"; codes "Ab/a.img/s/x"; codes "Ab/a.img/a"] /\
  at_path (w_heap (snd x)) 0 (codes "a.img") <> None /\ at_path (w_heap (snd x)) 0 (codes "a.img/s") = None /\
  match fst (w_at_path_parsed st chacha_block 20 (snd x) 0 (codes "a.img/a")) with Ok _ => True | _ => False end.
Proof. vm_compute. repeat split. discriminate. Qed.
Example C240_example :
  let st := iv_key (aes256 user_key) in
  let w1 := snd (w_walk st chacha_block 20 (fun l => l) 9 true (arc_read arc1) 0) in
  node_at (w_heap (arc_read arc1)) 0 (codes "Mob/x.img") = Some 2 /\ node_at (w_heap w1) 0 (codes "Mob/x.img") = Some 2 /\ node_at (w_heap w1) 0 (codes "Mob") = None.
Proof. vm_compute. repeat split. Qed.

(** C241: the path made of the name of an archive and the name of an image does not lead to the image if the name has a slash in it. *)
Theorem C241_paths_in_archives_refuted : exists buf file images cs n c i,
  bytes buf /\ archive chacha_block buf file images /\ holds images cs /\ last_named cs n c /\
  match w_open_ms chacha_block (codes "Ab") file buf with
  | Ok w0 =>
    let st := iv_key (aes256 user_key) in
    let '(x, w) := w_parse st chacha_block 20 w0 0 0 in
    x = Ok tt /\ fst (w_at_path_parsed st chacha_block 20 w 0 n) = Err ENotFound /\ at_path (w_heap w) 0 n = None /\
    node_at (w_heap w) 0 n = Some i /\ get_full_path 5 (w_heap w) i = Ok (codes "Ab/" ++ n)
  | _ => False
  end.
Proof.
  exists arc1, ex_file, arc_images, arc_content, (codes "Mob/x.img"), (CImage arc_props), 2.
  split; [apply bytes_dec; vm|]. split; [exact arc1_archive|]. split; [exact arc_holds|].
  split; [exists [(codes "a.img", CImage small_props)], []; split; [reflexivity|intros []]|].
  vm_compute. repeat split.
Qed.
Print Assumptions C241_paths_in_archives_refuted.
