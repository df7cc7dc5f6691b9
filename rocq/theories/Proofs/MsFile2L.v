(** Opening .ms archives of version 2. *)
From Coq Require Import ZArith List Bool Lia ZifyNat.
From Verif.Model Require Import Base Utf Reader Png Snow2 Ms.
From Verif.Spec Require Import Wire Stream StrWire PropWire Media Aes Snow2 Ms MsFile MsFile2.
From Verif.Proofs Require Import BaseL WireL StringL StrWireL AtL PngL MediaL Snow2L MsReadL MsFileL MsRead2L.
Import ListNotations.
Open Scope Z_scope.
Ltac Zify.zify_post_hook ::= idtac.
Ltac dlia := Z.div_mod_to_equations; lia.

Lemma byte_cases (f : Z -> bool) : forallb f (map Z.of_nat (seq 0 256)) = true -> forall b, 0 <= b < 256 -> f b = true.
Proof.
  intros H b Hb. rewrite forallb_forall in H. apply H. apply in_map_iff. exists (Z.to_nat b).
  split; [lia|]. apply in_seq. lia.
Qed.
Lemma half_byte b : 0 <= b < 256 -> wrap 8 (Z.shiftr (sext 8 b) 1) = half b.
Proof.
  intros H. apply Z.eqb_eq. revert b H. apply (byte_cases (fun b => wrap 8 (Z.shiftr (sext 8 b) 1) =? half b)). vm_compute. reflexivity.
Qed.
Lemma salt_char c : 0 <= c < 256 ->
  let a := Z.lxor c 0x4B in wrap 8 (wrap 8 (wrap 8 (Z.shiftl (Z.lor a 0x4B) 1) - a) - 75) = c.
Proof.
  intros H. cbv zeta. apply Z.eqb_eq. revert c H.
  apply (byte_cases (fun c => wrap 8 (wrap 8 (wrap 8 (Z.shiftl (Z.lor (Z.lxor c 75) 75) 1) - Z.lxor c 75) - 75) =? c)). vm_compute. reflexivity.
Qed.
Lemma key_base_idx i : (i < 32)%nat -> idx key_base (Z.of_nat i) = Ok (nth i base_key 0).
Proof. intros H. rewrite idx_nth by (unfold zlen; cbn [length key_base]; lia). now rewrite Nat2Z.id. Qed.
Lemma map_nth_seq (l : list Z) : map (fun i => nth i l 0) (seq 0 (length l)) = l.
Proof. induction l as [|x l IH]; [reflexivity|]. cbn [length seq map nth]. f_equal. rewrite <- seq_shift, map_map. exact IH. Qed.

Lemma on_base_length f : length (on_base f) = 32%nat.
Proof. unfold on_base. now rewrite map_length, seq_length. Qed.
Section v2.
  Variable block : list Z -> list Z -> Z -> list Z.
  Hypothesis block_len : block64 block.

  Section head.
    Variables (buf file salt : list Z) (hash version count table : Z).
    Hypothesis Bb : bytes buf.
    Hypothesis H : head2 block buf file salt hash version count table.
    Lemma head2_run : exists q, q + 72 <= table /\
      from_ms_file_v2 block file buf =
        if version =? 4 then Ok (mkMsHeader salt (map small file ++ salt) hash 4 count q table 2) else Err (EOther 32).
    Proof.
      destruct H as (nb & fb & rand & n0 & n1 & n2 & n3 & hidden & more & enc & H').
      cbv zeta in H'. set (name := map small file) in *. set (p := total nb mod 312 + 30) in *.
      set (q := p + 5 + 2 * len salt) in *.
      destruct H' as (Un & Uf & Nn & Hs & L256 & Lp & Ar & Av & An & En & Ah & Eh & Ih & Iv & Ic & Lm & Se & Ae & Lb & Et).
      assert (Np := Z.mod_pos_bound (total nb) 312 ltac:(lia)).
      assert (Hp : 30 <= p <= 341) by (unfold p; lia).
      assert (Br := at_bytes _ _ _ _ Bb Ar).
      assert (Lr : zlen rand = p) by (destruct (at_range _ _ _ _ Ar) as (? & ? & ?); lia).
      assert (Lh : zlen hidden = 2 * len salt) by (destruct (at_range _ _ _ _ Ah) as (? & ? & ?); unfold q in *; lia).
      assert (Ls : 0 <= len salt) by (rewrite len_zlen; apply zlen_nonneg).
      assert (Eb : map (fun b => wrap 8 (Z.shiftr (sext 8 b) 1)) rand = map half rand).
      { apply map_ext_in. intros b Hb. apply half_byte. apply (proj1 (Forall_forall _ _) Br b Hb). }
      assert (Nh : forall i, (i < length rand)%nat -> nth i (map half rand) 0 = half (nth i rand 0)).
      { intros i Hi. rewrite (nth_indep _ 0 (half 0)) by (now rewrite map_length). apply map_nth. }
      assert (Lmr : zlen (map half rand) = p) by (unfold zlen; rewrite map_length; exact Lr).
      exists q. split.
      { rewrite Et. assert (M := Z.mod_pos_bound (3 * total nb) 212 ltac:(lia)). lia. }
      unfold from_ms_file_v2. cbv zeta. rewrite lower_small. fold name. rewrite (sum_str_total _ _ Un). fold p.
      rewrite (range_at _ _ _ _ Ar). cbn [rmap rbind]. rewrite Eb.
      rewrite (read1 _ _ _ _ Av). cbn [rbind]. rewrite idx_nth by lia. change (Z.to_nat 0) with 0%nat. cbn [rbind].
      rewrite Nh by (unfold zlen in Lr; lia). rewrite lxor_cancel_r.
      destruct (Z.eqb_spec version 4) as [-> |V]; cbn [negb]; [|reflexivity].
      assert (A1 := proj1 (at_cons _ _ _ _ _) An). destruct A1 as [A1 _].
      rewrite (read1 _ _ _ _ A1). cbn [rbind].
      rewrite (read4 buf (p + 1) (p + 5) [n0; n1; n2; n3] eq_refl An). cbn [rbind].
      rewrite En, lxor_cancel_r. replace (len salt * 2) with (2 * len salt) by lia. fold q.
      rewrite (range_at _ _ _ _ Ah). cbn [rbind].
      match goal with |- rbind (traverse ?f _) _ = _ => assert (ET : traverse f (upto (len salt)) = Ok salt) end.
      { unfold len. rewrite (traverse_upto _ (fun i => nth i salt 0)).
        - now rewrite map_nth_seq.
        - intros i Hi. unfold len in *. rewrite idx_nth by lia. rewrite Nat2Z.id. cbn [rbind].
          rewrite idx_nth by lia. replace (Z.to_nat (Z.of_nat i * 2)) with (2 * i)%nat by lia. cbn [rbind].
          rewrite Eh by exact Hi. rewrite Nh by (unfold zlen in Lr; lia). rewrite lxor_cancel. f_equal.
          apply salt_char. apply (proj1 (Forall_forall _ _) Hs), nth_In, Hi. }
      rewrite ET. cbn [rbind].
      destruct (utf8_is_enc _ _ Uf) as [_ Ef]. rewrite <- Ef.
      assert (Nf := utf8_app_nonempty _ _ _ Uf Nn).
      match goal with |- rbind (traverse ?f _) _ = _ => assert (EK : traverse f (upto 32) = Ok (head_key2 fb)) end.
      { apply (traverse_upto _ _ 32). intros i Hi. rewrite cyc_around by exact Nf. cbn [rbind]. rewrite key_base_idx by exact Hi. reflexivity. }
      rewrite EK. cbn [rbind].
      destruct (at_range _ _ _ _ Ae) as (Q0 & Q1 & Q2).
      assert (AE : exists tail, at_ buf q (q + 128) (enc ++ tail) /\ zlen tail = 64).
      { destruct Ae as (a & b & E & Ea & Ee). unfold zlen in *. exists (firstn 64 b).
        assert (Lbuf := f_equal (@length Z) E). rewrite !app_length in Lbuf. unfold len in Lb.
        split; [|rewrite firstn_length; lia].
        exists a, (skipn 64 b). split; [rewrite <- app_assoc, firstn_skipn; exact E|]. unfold zlen in *. rewrite app_length, firstn_length. lia. }
      destruct AE as (tail & AE & Lt). rewrite (range_at _ _ _ _ AE). cbn [rbind].
      set (ps := [Number hash; Number count]) in *.
      assert (Lst : length (stream ps) = 8%nat) by (unfold ps, stream; cbn [flat_map piece_bytes]; rewrite !app_length, !enc_le_length; reflexivity).
      assert (At0 : at_ (enc ++ tail) 0 64 (masked (mask block (head_key2 fb) (repeat 0 12) (counter (ends 0 ps))) (stream ps ++ more))).
      { rewrite <- Se. exists [], tail. split; [reflexivity|]. split; [reflexivity|]. cbn. unfold zlen in Q1. unfold zlen. lia. }
      assert (M64 : (length (stream ps ++ more) mod 64 = 0)%nat) by (rewrite app_length, Lst, Lm; reflexivity).
      assert (Ld : zlen (enc ++ tail) = 128) by (unfold zlen in *; rewrite app_length; lia).
      assert (Sm : zlen (enc ++ tail) < 2 ^ 63) by (rewrite Ld; reflexivity).
      assert (Rm : Forall (fun x => 64 + zlen (piece_bytes x) <= zlen (enc ++ tail)) ps).
      { rewrite Ld. repeat apply Forall_cons; try apply Forall_nil; cbn [piece_bytes]; unfold zlen; rewrite enc_le_length; lia. }
      assert (Bl : forall c, length (block (head_key2 fb) (repeat 0 12) c) = 64%nat) by (intros c; apply block_len; [apply on_base_length|reflexivity]).
      assert (T0 := todo_new block (enc ++ tail) (head_key2 fb) (repeat 0 12) more 0 ps Bl M64).
      destruct (todo_i32 block _ _ _ _ _ _ _ Bl At0 M64 Sm Rm _ _ _ _ Ih T0) as (c1 & E1 & T1). rewrite E1. cbn [rbind fst snd].
      destruct (todo_i32 block _ _ _ _ _ _ _ Bl At0 M64 Sm Rm _ _ _ _ Ic T1) as (c2 & E2 & _). rewrite E2. cbn [rbind fst snd].
      do 2 f_equal. rewrite Et. replace (total nb * 3) with (3 * total nb) by lia. reflexivity.
    Qed.
  End head.

  (** *** The table *)
  Section table.
    Variables (data key nonce rest : list Z) (start e : Z) (ps : list piece).
    Hypothesis Bl : forall c, length (block key nonce c) = 64%nat.
    Hypothesis At : at_ data start e (masked (mask block key nonce (counter (ends 0 ps))) (stream ps ++ rest)).
    Hypothesis M64 : (length (stream ps ++ rest) mod 64 = 0)%nat.
    Hypothesis Small : zlen data < 2 ^ 63.
    Hypothesis Room : Forall (fun p => e + zlen (piece_bytes p) <= zlen data) ps.
    Let Todo := cr_todo data key nonce rest start ps.
    Lemma entry2_ok h done_ m todo c : meta_ok m -> Todo done_ (pieces2 m ++ todo) c ->
      exists c', entry_v2 block h c = Ok (read_entry (mh_salt h) (mh_ms h) (m_u3 m) (m_u4 m) m, c') /\ Todo (done_ ++ pieces2 m) todo c'.
    Proof.
      intros (U & Nn & Hn & I1 & I2 & I3 & I4 & I5 & I6 & I7 & Lk & Bk & I8 & I9) Hl.
      assert (Hl0 : 0 <= len (units16 (m_name m))) by (rewrite len_zlen; apply zlen_nonneg).
      assert (J1 : i32 (len (units16 (m_name m)))) by (unfold i32; pows; lia).
      assert (J2 : i32 (m_size m)) by (unfold i32; lia). assert (J3 : i32 (m_aligned m)) by (unfold i32; lia).
      assert (I3' := i32_nat _ I3).
      set (L := todo_i32 block data key nonce rest start e ps Bl At M64 Small Room).
      unfold entry_v2. unfold pieces2, pieces1 in Hl. cbn [app] in Hl.
      destruct (L _ _ _ _ J1 Hl) as (c1 & E & H1). rewrite E. cbn [rbind]. clear Hl E.
      destruct (todo_text block data key nonce rest start e ps Bl At M64 Small Room _ _ _ _ U H1) as (c2 & E & H2). fold (len (units16 (m_name m))) in E.
      rewrite text_len by lia. rewrite E. cbn [rbind]. clear H1 E.
      destruct (L _ _ _ _ I1 H2) as (c3 & E & H3). rewrite E. cbn [rbind]. clear H2 E.
      destruct (L _ _ _ _ I2 H3) as (c4 & E & H4). rewrite E. cbn [rbind]. clear H3 E.
      destruct (L _ _ _ _ I3' H4) as (c5 & E & H5). rewrite E. cbn [rbind]. clear H4 E.
      destruct (L _ _ _ _ J2 H5) as (c6 & E & H6). rewrite E. cbn [rbind]. clear H5 E.
      destruct (L _ _ _ _ J3 H6) as (c7 & E & H7). rewrite E. cbn [rbind]. clear H6 E.
      destruct (L _ _ _ _ I6 H7) as (c8 & E & H8). rewrite E. cbn [rbind]. clear H7 E.
      destruct (L _ _ _ _ I7 H8) as (c9 & E & H9). rewrite E. cbn [rbind]. clear H8 E.
      destruct (todo_piece block data key nonce rest start e ps Bl At M64 Small Room _ _ _ _ H9) as (c10 & E & H10).
      unfold zlen in E. cbn [piece_bytes] in E. rewrite Lk in E. change (Z.of_nat 16) with 16 in E. rewrite E. cbn [rbind]. clear H9 E.
      destruct (L _ _ _ _ I8 H10) as (c11 & E & H11). rewrite E. cbn [rbind]. clear H10 E.
      destruct (L _ _ _ _ I9 H11) as (c12 & E & H12). rewrite E. cbn [rbind]. clear H11 E.
      exists c12. split; [reflexivity|]. rewrite <- !app_assoc in H12. exact H12.
    Qed.
    Lemma entries2_ok h : forall ms done_ c, Forall meta_ok ms -> Todo done_ (flat_map pieces2 ms) c ->
      exists c', entries (entry_v2 block h) (length ms) c = Ok (map (fun m => read_entry (mh_salt h) (mh_ms h) (m_u3 m) (m_u4 m) m) ms, c') /\
        Todo (done_ ++ flat_map pieces2 ms) [] c'.
    Proof.
      induction ms as [|m ms IH]; intros done_ c F Hl; [exists c; split; [reflexivity|rewrite app_nil_r; exact Hl]|].
      inversion_clear F as [|? ? Fm Fs]. cbn [flat_map] in Hl.
      destruct (entry2_ok h done_ m _ c Fm Hl) as (c1 & E1 & H1). destruct (IH _ c1 Fs H1) as (c2 & E2 & H2).
      exists c2. cbn [length entries]. rewrite E1. cbn [rbind fst snd]. rewrite E2. split; [reflexivity|].
      cbn [flat_map]. rewrite app_assoc. exact H2.
    Qed.
  End table.

  Lemma parse2_ok buf h fb ms stop : zlen buf < 2 ^ 63 -> utf8 (mh_name h) fb -> mh_name h <> [] ->
    mh_count h = len ms -> mh_ms h = 2 -> Forall meta_ok ms -> table2 block buf fb (mh_estart h) stop ms ->
    exists from, data_from stop from /\
      parse_v2 block h buf = Ok (map (fun m => place from (read_entry (mh_salt h) 2 (m_u3 m) (m_u4 m) m)) ms) /\
      forall m, In m ms -> placed from (place from (read_entry (mh_salt h) 2 (m_u3 m) (m_u4 m) m)) (mh_salt h) 2 (m_u3 m) (m_u4 m) m.
  Proof.
    intros Hz U Nn Hc Hv F (rest & stored & A & Lr & M & At & Rm).
    assert (Nf : fb <> []) by (apply (utf8_app_nonempty (mh_name h) [] fb); [rewrite app_nil_r; exact U|exact Nn]).
    destruct (at_range _ _ _ _ At) as (R1 & R2 & R3).
    assert (Hs : 0 <= stop) by (assert (X := zlen_nonneg stored); lia).
    exists (align1024 stop). assert (D := align_data stop Hs). split; [exact D|].
    assert (Ef : utf8_enc (mh_name h) = fb) by (destruct (utf8_is_enc _ _ U) as [_ ->]; reflexivity).
    split.
    - unfold parse_v2. rewrite Hc. destruct (Z.eqb_spec (len ms) 0) as [Z0|Z0].
      { destruct ms; [reflexivity|]. unfold len in Z0. cbn [length] in Z0. lia. }
      rewrite Ef.
      match goal with |- rbind (traverse ?f _) _ = _ => assert (EK : traverse f (upto 32) = Ok (table_key2 fb)) end.
      { apply (traverse_upto _ _ 32). intros i Hi. rewrite table_byte_ok by exact Nf. cbn [rbind]. rewrite key_base_idx by exact Hi. cbn [rmap rbind].
        f_equal. rewrite Z.lxor_comm. f_equal. unfold table_key.
        set (g := fun i0 : nat => _). change ((Z.of_nat i + (Z.of_nat i mod 3 + 2) * nth (length fb - 1 - i mod length fb) fb 0) mod 256) with (g i).
        rewrite (nth_indep _ 0 (g 0%nat)) by (rewrite map_length, seq_length; exact Hi). rewrite (map_nth g), seq_nth by exact Hi. reflexivity. }
      rewrite EK. cbn [rbind].
      destruct (Z.ltb_spec (len ms) 0) as [B|_]; [rewrite len_zlen in B; assert (X := zlen_nonneg ms); lia|].
      unfold len. rewrite Nat2Z.id. unfold sealed2 in A. subst stored.
      assert (Bl : forall c, length (block (table_key2 fb) (repeat 0 12) c) = 64%nat) by (intros c; apply block_len; [apply on_base_length|reflexivity]).
      destruct (entries2_ok buf _ _ _ _ _ _ Bl At M Hz Rm h ms [] _ F (todo_new block buf (table_key2 fb) (repeat 0 12) rest (mh_estart h) (flat_map pieces2 ms) Bl M)) as (c' & E & Hl).
      rewrite E. cbn [rbind fst snd]. cbn [app] in Hl.
      rewrite (todo_end block buf _ _ _ _ _ _ Bl At M c' Hl Lr). rewrite map_map. rewrite Hv. reflexivity.
    - intros m Hm. rewrite Forall_forall in F. assert (Fm := F m Hm).
      assert (Fm' := Fm). destruct Fm' as (_ & _ & _ & _ & _ & I3 & _). apply place_ok; [exact Fm| |]; destruct D as [D1 D2]; pows; lia.
  Qed.

  (** *** Images *)
  Lemma ascii_enc t : Forall (fun c => 0 <= c < 128) t -> utf8_enc t = t.
  Proof.
    induction 1 as [|c t H F IH]; [reflexivity|]. unfold utf8_enc in *. cbn [flat_map]. rewrite IH.
    unfold utf8_enc_char. destruct (Z.ltb_spec c 0x80); [reflexivity|lia].
  Qed.
  Lemma name_char_ok t i : Forall (fun c => 0 <= c < 128) t -> t <> [] -> name_char t (Z.of_nat i) = Ok (around t i).
  Proof.
    intros F N. unfold name_char. rewrite (ascii_enc t F). assert (C := cyc_around t i N). unfold cyc in C.
    destruct (zlen t =? 0); [discriminate|]. rewrite C. cbn [rmap rbind]. f_equal. apply wrap_small.
    assert (X : 0 <= around t i < 128); [|change (2 ^ 8) with 256; lia].
    unfold around. apply (proj1 (Forall_forall _ _) F), nth_In, Nat.mod_upper_bound. destruct t; [congruence|discriminate].
  Qed.
  Lemma mix_hide i : (i < 12)%nat -> mix_byte (Z.of_nat i) = hide_byte (Z.of_nat i).
  Proof.
    intros H. assert (X : forallb (fun i => mix_byte (Z.of_nat i) =? hide_byte (Z.of_nat i)) (seq 0 12) = true) by (vm_compute; reflexivity).
    rewrite forallb_forall in X. apply Z.eqb_eq, X, in_seq. lia.
  Qed.
  Lemma fnv_salt t : salt_hash t = fnv t.
  Proof. reflexivity. Qed.
  Lemma hash_bytes_length t : length (hash_bytes t) = 12%nat.
  Proof. unfold hash_bytes. rewrite !app_length, !enc_le_length. reflexivity. Qed.
  Lemma mixed_ok salt :
    let kh := salt_hash salt in
    map (fun p => Z.lxor (fst p) (mix_byte (snd p)))
        (combine (le_bytes 4 kh ++ le_bytes 4 (Z.shiftr kh 1) ++ le_bytes 4 (Z.lxor (Z.shiftr kh 1) 0x6C)) (upto 12)) = map (hidden_byte salt) (seq 0 12).
  Proof.
    cbv zeta. rewrite fnv_salt. rewrite Z.shiftr_div_pow2 by lia. change (2 ^ 1) with 2. rewrite <- !enc4. fold (hash_bytes salt).
    assert (L := hash_bytes_length salt). unfold hidden_byte. set (hb := hash_bytes salt) in *. clearbody hb.
    do 12 (destruct hb as [|? hb]; [discriminate L|]). destruct hb; [|discriminate L].
    change (upto 12) with (map Z.of_nat (seq 0 12)). cbn [seq map combine fst snd nth].
    rewrite !mix_hide by lia. reflexivity.
  Qed.
  Lemma image_key2_run t ds ekey : Forall (fun c => 0 <= c < 128) t -> t <> [] -> ds <> [] -> length ekey = 16%nat ->
    traverse (fun i => rbind (name_char t i) (fun ch => rbind (img_key_byte ds ekey i ch) (fun b => rmap (Z.lxor b) (idx key_base i)))) (upto 32)
    = Ok (image_key2 ds ekey t).
  Proof.
    intros F N Nd L. apply (traverse_upto _ _ 32). intros i Hi. rewrite name_char_ok by assumption. cbn [rbind].
    rewrite img_key_byte_ok by assumption. cbn [rbind]. rewrite key_base_idx by exact Hi. reflexivity.
  Qed.
  Lemma masked_length ks l : length (masked ks l) = length l.
  Proof. unfold masked. now rewrite map_length, seq_length. Qed.
  Lemma masked_nth ks l j : (j < length l)%nat -> nth j (masked ks l) 0 = Z.lxor (nth j l 0) (ks j).
  Proof.
    intros H. unfold masked. rewrite (nth_indep _ 0 (Z.lxor (nth 0 l 0) (ks 0%nat))) by (rewrite map_length, seq_length; exact H).
    rewrite (map_nth (fun j => Z.lxor (nth j l 0) (ks j))), seq_nth by exact H. reflexivity.
  Qed.
  Lemma unmask (ks : nat -> Z) plain :
    let stored := masked ks (firstn 1024 plain) ++ skipn 1024 plain in
    let n := Nat.min 1024 (length stored) in
    map (fun p => Z.lxor (snd p) (ks (fst p))) (combine (seq 0 n) (firstn n stored)) ++ skipn n stored = plain.
  Proof.
    cbv zeta. set (h := firstn 1024 plain). set (t := skipn 1024 plain).
    assert (Lh : length h = Nat.min 1024 (length plain)) by apply firstn_length.
    assert (Lt : length t = (length plain - 1024)%nat) by apply skipn_length.
    assert (En : Nat.min 1024 (length (masked ks h ++ t)) = length (masked ks h)) by (rewrite app_length, masked_length; lia).
    rewrite En. rewrite firstn_app, firstn_all, Nat.sub_diag, firstn_O, app_nil_r.
    rewrite skipn_app, skipn_all, Nat.sub_diag, skipn_O. cbn [app].
    rewrite masked_length. rewrite <- (firstn_skipn 1024 plain). fold h t. f_equal.
    apply nth_ext with (d := Z.lxor 0 (ks 0%nat)) (d' := 0).
    - rewrite map_length, combine_length, seq_length, masked_length. lia.
    - intros i Hi. rewrite map_length, combine_length, seq_length, masked_length, Nat.min_id in Hi.
      rewrite (map_nth (fun p => Z.lxor (snd p) (ks (fst p))) _ (0%nat, 0)). rewrite combine_nth by (now rewrite seq_length, masked_length).
      rewrite seq_nth by exact Hi. cbn [fst snd Nat.add]. rewrite masked_nth by exact Hi. apply lxor_cancel_r.
  Qed.
  Lemma image_read2 buf salt from m e image u3 u4 : zlen buf < 2 ^ 63 -> meta_ok m -> placed from e salt 2 u3 u4 m ->
    image_at2 block buf salt from m image -> to_wz_image_v2 block buf e = Ok image.
  Proof.
    intros Hz (U & Nn & Hn & I1 & I2 & I3 & I4 & I5 & I6 & I7 & Lk & Bk & _) (P1 & P2 & _ & _ & P5 & P6 & _ & _ & P9 & _ & _ & _ & P13 & P14)
      (ds & filler & stored & D & An & Ls & La & I & At).
    unfold to_wz_image_v2. cbv zeta. rewrite P1, P2, P9, P13, P14, P5, (hash_digits_ok _ _ D).
    rewrite (image_key2_run _ _ _ An Nn (decimal_nonempty _ _ D) Lk). cbn [rbind].
    destruct (at_range _ _ _ _ At) as (R1 & R2 & R3).
    rewrite (wrap_small 64 (from + 1024 * m_start m + m_aligned m)) by (pows; lia).
    rewrite (range_at _ _ _ _ At). cbn [rbind].
    rewrite (mixed_ok salt). unfold image2 in I.
    replace ([0; 0; 0; 0] ++ firstn 8 (map (hidden_byte salt) (seq 0 12))) with (image_nonce salt) by reflexivity.
    replace (le_val (skipn 8 (map (hidden_byte salt) (seq 0 12)))) with (image_counter salt).
    2: { unfold image_counter. cbn [seq map skipn le_val]. lia. }
    set (ks := mask block (image_key2 ds (m_key m) (m_name m)) (image_nonce salt) (fun k => image_counter salt + Z.of_nat k)) in I.
    assert (X := unmask ks (image ++ filler)). cbv zeta in X. rewrite <- I in X.
    change (fun p : nat * Z => Z.lxor (snd p) (nth (fst p mod 64) (block (image_key2 ds (m_key m) (m_name m)) (image_nonce salt) (image_counter salt + Z.of_nat (fst p / 64))) 0))
      with (fun p : nat * Z => Z.lxor (snd p) (ks (fst p))).
    rewrite X. rewrite (wrap_small 64 (m_size m)) by (pows; lia).
    apply range_at. exists [], filler. split; [reflexivity|]. split; [reflexivity|]. cbn. unfold len in Ls. unfold zlen. lia.
  Qed.
End v2.
(** A masked text block by block. *)
Lemma blocks_nth (g : nat -> list Z) n : forall s j, (forall k, length (g k) = 64%nat) -> (j < 64 * n)%nat -> nth j (flat_map g (seq s n)) 0 = nth (j mod 64) (g (s + j / 64)%nat) 0.
Proof.
  induction n as [|n IH]; intros s j L J; [lia|]. cbn [seq flat_map]. destruct (Nat.lt_ge_cases j 64) as [H|H].
  - rewrite app_nth1 by (rewrite L; exact H). rewrite Nat.mod_small, Nat.div_small, Nat.add_0_r by exact H. reflexivity.
  - rewrite app_nth2, L by (rewrite L; exact H). rewrite (IH _ _ L) by lia. replace j with ((j - 64) + 1 * 64)%nat at 3 4 by lia. rewrite Nat.mod_add, Nat.div_add by discriminate. f_equal. f_equal. lia.
Qed.
Lemma blocks_length (g : nat -> list Z) n : forall s, (forall k, length (g k) = 64%nat) -> length (flat_map g (seq s n)) = (64 * n)%nat.
Proof. induction n as [|n IH]; intros s L; [reflexivity|]. cbn [seq flat_map]. rewrite app_length, L, (IH _ L). lia. Qed.
Lemma combined (l : list Z) : forall ks, (length l <= length ks)%nat -> map (fun p => Z.lxor (fst p) (snd p)) (combine l ks) = map (fun j => Z.lxor (nth j l 0) (nth j ks 0)) (seq 0 (length l)).
Proof.
  induction l as [|x l IH]; intros [|k ks] L; cbn [length] in L; try reflexivity; [lia|]. cbn [combine map length seq fst snd nth]. f_equal. rewrite <- seq_shift, map_map. apply IH. lia.
Qed.
Lemma masked_blocks block key nonce ctr plain n : block64 block -> length key = 32%nat -> length nonce = 12%nat -> (length plain <= 64 * n)%nat ->
  masked (mask block key nonce ctr) plain = map (fun p => Z.lxor (fst p) (snd p)) (combine plain (flat_map (fun k => block key nonce (ctr k)) (seq 0 n))).
Proof.
  intros B K N L. assert (Bl : forall k, length (block key nonce (ctr k)) = 64%nat) by (intro k; apply B; assumption).
  rewrite combined by (rewrite blocks_length by exact Bl; exact L). unfold masked. apply map_ext_in. intros j J. apply in_seq in J. rewrite blocks_nth; [|exact Bl|lia]. reflexivity.
Qed.
