(** Opening .ms archives of version 1. *)
From Coq Require Import ZArith List Bool Lia ZifyNat.
From Verif.Model Require Import Base Utf Reader Png Snow2 Ms.
From Verif.Spec Require Import Wire Stream StrWire PropWire Media Aes Snow2 Ms MsFile.
From Verif.Proofs Require Import BaseL WireL StringL StrWireL AtL PngL MediaL Snow2L MsReadL.
Import ListNotations.
Open Scope Z_scope.
Ltac Zify.zify_post_hook ::= idtac.
Ltac dlia := Z.div_mod_to_equations; lia.

Lemma len_zlen {A} (l : list A) : len l = zlen l.
Proof. reflexivity. Qed.
Lemma sext_mod32 x y : x mod 2 ^ 32 = y mod 2 ^ 32 -> sext 32 x = sext 32 y.
Proof. intros H. unfold sext, wrap. now rewrite H. Qed.
Lemma sext_mod32_inv x y : sext 32 x = sext 32 y -> x mod 2 ^ 32 = y mod 2 ^ 32.
Proof.
  intros H. assert (E := f_equal (wrap 32) H). rewrite !wrap_sext in E by lia. exact E.
Qed.
Lemma idx_nth (l : list Z) i : 0 <= i < zlen l -> idx l i = Ok (nth (Z.to_nat i) l 0).
Proof.
  intros H. unfold idx. rewrite (nth_error_nth' l 0) by (unfold zlen in H; lia). reflexivity.
Qed.
Lemma around_byte bs i : bytes bs -> byte (around bs i).
Proof.
  intros B. unfold around. destruct (Nat.lt_ge_cases (i mod length bs) (length bs)) as [H|H].
  - apply (proj1 (Forall_forall _ _) B), nth_In, H.
  - rewrite nth_overflow by exact H. unfold byte. lia.
Qed.
Lemma cyc_around bs i : bs <> [] -> cyc bs (Z.of_nat i) = Ok (around bs i).
Proof.
  intros H. assert (L : (0 < length bs)%nat) by (destruct bs; [congruence|cbn; lia]).
  unfold cyc. destruct (Z.eqb_spec (zlen bs) 0) as [E|_]; [unfold zlen in E; lia|].
  unfold zlen. rewrite <- Nat2Z.inj_mod. rewrite idx_nth by (unfold zlen; assert (i mod length bs < length bs)%nat by (apply Nat.mod_upper_bound; lia); lia).
  rewrite Nat2Z.id. reflexivity.
Qed.
Lemma map_upto {A} (f : Z -> A) n : map f (upto (Z.of_nat n)) = map (fun i => f (Z.of_nat i)) (seq 0 n).
Proof. unfold upto. rewrite Nat2Z.id, map_map. reflexivity. Qed.
Lemma traverse_upto {A} (f : Z -> res A) (g : nat -> A) n :
  (forall i, (i < n)%nat -> f (Z.of_nat i) = Ok (g i)) -> traverse f (upto (Z.of_nat n)) = Ok (map g (seq 0 n)).
Proof.
  intros H. unfold upto. rewrite Nat2Z.id.
  assert (X : forall m k, (forall i, (i < m)%nat -> f (Z.of_nat (k + i)) = Ok (g (k + i)%nat)) ->
    traverse f (map Z.of_nat (seq k m)) = Ok (map g (seq k m))).
  { induction m as [|m IH]; intros k Hm; [reflexivity|]. cbn [seq map traverse].
    assert (H0 := Hm 0%nat ltac:(lia)). rewrite Nat.add_0_r in H0. rewrite H0. cbn [rbind].
    rewrite IH; [reflexivity|]. intros i Hi. replace (S k + i)%nat with (k + S i)%nat by lia. apply Hm. lia. }
  apply X. intros i Hi. apply H. exact Hi.
Qed.
Lemma lower_small t : ascii_lower t = map small t.
Proof. reflexivity. Qed.
Lemma sum_str_total t bs : utf8 t bs -> sum_str t = total bs.
Proof. intros H. destruct (utf8_is_enc _ _ H) as [_ ->]. reflexivity. Qed.
Lemma utf8_bytes t bs : utf8 t bs -> bytes bs.
Proof. intros H. destruct (utf8_is_enc _ _ H) as [S ->]. apply utf8_enc_bytes, S. Qed.
Lemma total_nonneg bs : bytes bs -> 0 <= total bs.
Proof. induction 1 as [|b bs H F IH]; cbn [total fold_right]; [lia|]. fold (total bs). unfold byte in H. lia. Qed.
Lemma utf8_app_nonempty t s bs : utf8 (t ++ s) bs -> t <> [] -> bs <> [].
Proof.
  intros H N. destruct (utf8_is_enc _ _ H) as [_ ->]. destruct t as [|c t]; [congruence|].
  cbn [app]. unfold utf8_enc. cbn [flat_map]. assert (L := utf8_enc_char_len c). destruct (utf8_enc_char c); [cbn in L; lia|discriminate].
Qed.
Lemma head_key_ok fb : key_ok (head_key fb).
Proof.
  split; [unfold head_key; now rewrite map_length, seq_length|].
  apply Forall_forall. intros x Hx. apply in_map_iff in Hx. destruct Hx as (i & <- & _). unfold b8. apply Z.mod_pos_bound. lia.
Qed.
Lemma slice_at (buf : list Z) p q l : at_ buf p q l -> slice buf p q = Some l.
Proof. intros A. assert (R := range_at _ _ _ _ A). unfold range in R. destruct (slice buf p q); congruence. Qed.
Lemma read1 buf p q b : at_ buf p q [b] -> read_u8_at buf p = Ok b.
Proof.
  intros A. unfold read_u8_at, read_at. destruct (at_range _ _ _ _ A) as (_ & E & _). change (zlen [b]) with 1 in E.
  rewrite <- E, (slice_at _ _ _ _ A). cbn [le_val]. f_equal. lia.
Qed.
Lemma read4 buf p q l : length l = 4%nat -> at_ buf p q l -> read_i32_at buf p = Ok (sext 32 (le_val l)).
Proof.
  intros L A. unfold read_i32_at, read_at. destruct (at_range _ _ _ _ A) as (_ & E & _). unfold zlen in E. rewrite L in E.
  change (Z.of_nat 4) with 4 in E. rewrite <- E, (slice_at _ _ _ _ A). reflexivity.
Qed.
Lemma lxor_cancel a b : Z.lxor b (Z.lxor a b) = a.
Proof. rewrite (Z.lxor_comm a b), <- Z.lxor_assoc, Z.lxor_nilpotent. apply Z.lxor_0_l. Qed.
Lemma lxor_cancel_r a b : Z.lxor (Z.lxor a b) b = a.
Proof. rewrite Z.lxor_assoc, Z.lxor_nilpotent. apply Z.lxor_0_r. Qed.
Lemma fold_sum us : forall a, (fold_left (fun a x => sext 32 (a + x)) us a) mod 2 ^ 32 = (a + fold_right Z.add 0 us) mod 2 ^ 32.
Proof.
  induction us as [|u us IH]; intros a; cbn [fold_left fold_right]; [f_equal; lia|].
  rewrite IH. rewrite <- Zplus_mod_idemp_l.
  change ((sext 32 (a + u)) mod 2 ^ 32) with (wrap 32 (sext 32 (a + u))).
  rewrite wrap_sext by lia. unfold wrap. rewrite Zplus_mod_idemp_l. f_equal. lia.
Qed.
Lemma sum16_units l : fold_right Z.add 0 (units_of l) = sum16 l.
Proof.
  assert (X : forall n l, (length l <= n)%nat -> fold_right Z.add 0 (units_of l) = sum16 l).
  { induction n as [|n IH]; intros q H; [destruct q; [reflexivity|cbn in H; lia]|].
    destruct q as [|a [|b q]]; try reflexivity. cbn [units_of sum16 fold_right]. rewrite IH by (cbn [length] in H; lia). reflexivity. }
  apply (X (length l)). lia.
Qed.

Section head.
  Variables (buf file salt : list Z) (hash version count sum table : Z).
  Hypothesis Bb : bytes buf.
  Hypothesis H : head1 buf file salt hash version count sum table.
  Lemma head1_run : exists q, q + 42 <= table /\
    from_ms_file file buf =
      if version =? 2
      then if (hash - (sum + version + count)) mod 2 ^ 32 =? 0
           then Ok (mkMsHeader salt (map small file ++ salt) hash 2 count q table 1)
           else Err (EOther 31)
      else Err (EOther 30).
  Proof.
    destruct H as (nb & fb & rand & n0 & n1 & n2 & n3 & hidden & pad & enc & H').
    cbv zeta in H'. set (name := map small file) in *. set (p := total nb mod 312 + 30) in *.
    set (q := p + 4 + 2 * len salt) in *.
    destruct H' as (Un & Uf & Nn & Hs & L128 & Lp & Ar & An & En & Ah & Eh & Ih & Iv & Ic & Lpad & Add & Ae & Es & Et).
    assert (Np := Z.mod_pos_bound (total nb) 312 ltac:(lia)).
    assert (Hp : 30 <= p <= 341) by (unfold p; lia).
    assert (Br := at_bytes _ _ _ _ Bb Ar). assert (Bn := at_bytes _ _ _ _ Bb An). assert (Bh := at_bytes _ _ _ _ Bb Ah).
    assert (Lr : zlen rand = p) by (destruct (at_range _ _ _ _ Ar) as (? & ? & ?); lia).
    assert (Lh : zlen hidden = 2 * len salt) by (destruct (at_range _ _ _ _ Ah) as (? & ? & ?); unfold q in *; lia).
    assert (Ls : 0 <= len salt) by (rewrite len_zlen; apply zlen_nonneg).
    exists q. split.
    { rewrite Et. assert (M := Z.mod_pos_bound (3 * total nb) 212 ltac:(lia)). lia. }
    unfold from_ms_file. cbv zeta. rewrite lower_small. fold name. rewrite (sum_str_total _ _ Un). fold p.
    rewrite (range_at _ _ _ _ Ar). cbn [rbind].
    assert (B0 : 0 <= n0 < 256) by (inversion Bn; assumption).
    rewrite (read1 buf p (p + 1) n0) by (apply (proj1 (proj1 (at_cons _ _ _ _ _) An))). cbn [rbind].
    rewrite (read4 buf p (p + 4) [n0; n1; n2; n3] eq_refl An). cbn [rbind].
    rewrite idx_nth by lia. change (Z.to_nat 0) with 0%nat. cbn [rbind].
    rewrite En, lxor_cancel_r, <- En.
    rewrite (wrap_small 8 (len salt * 2)) by (change (2 ^ 8) with 256; lia).
    replace (p + 4 + len salt * 2) with q by (unfold q; lia).
    rewrite (range_at _ _ _ _ Ah). cbn [rbind].
    assert (ET : traverse (fun i => rbind (idx rand i) (fun a => rbind (idx hidden (i * 2)) (fun b => Ok (Z.lxor a b)))) (upto (len salt)) = Ok salt).
    { unfold len. rewrite (traverse_upto _ (fun i => nth i salt 0)).
      - f_equal. assert (X : forall (l : list Z), map (fun i => nth i l 0) (seq 0 (length l)) = l).
        { induction l as [|x l IH]; [reflexivity|]. cbn [length seq map nth]. f_equal. rewrite <- seq_shift, map_map. exact IH. }
        apply X.
      - intros i Hi. unfold len in *. rewrite idx_nth by lia. rewrite Nat2Z.id. cbn [rbind].
        rewrite idx_nth by lia. replace (Z.to_nat (Z.of_nat i * 2)) with (2 * i)%nat by lia. cbn [rbind].
        rewrite Eh by exact Hi. now rewrite lxor_cancel. }
    rewrite ET. cbn [rbind].
    destruct (utf8_is_enc _ _ Uf) as [_ Ef]. rewrite <- Ef.
    assert (Nf := utf8_app_nonempty _ _ _ Uf Nn).
    rewrite (traverse_upto _ (fun i => (around fb i + Z.of_nat i) mod 256) 16); [|intros i Hi; rewrite cyc_around by exact Nf; reflexivity].
    cbn [rbind]. fold (head_key fb).
    rewrite (range_at _ _ _ _ Ae). cbn [rbind].
    destruct (decrypt_slice_ok _ 0 _ _ _ (snow2_new_ok _ (head_key_ok fb)) Add) as (d & Ed & _). rewrite Ed. cbn [fst].
    clear Ed d Add Ae.
    assert (Eh4 := enc_le_length 4 hash). assert (Ec4 := enc_le_length 4 count).
    assert (Vh := enc_le4_inj hash _ Ih eq_refl). assert (Vc := enc_le4_inj count _ Ic eq_refl).
    destruct (list4 _ Eh4) as (h0 & h1 & h2 & h3 & Xh). destruct (list4 _ Ec4) as (c0 & c1 & c2 & c3 & Xc).
    rewrite Xh, Xc in *. cbn [app firstn skipn nth]. rewrite Vh, Vc.
    destruct (Z.eqb_spec version 2) as [V|V]; cbn [negb]; [|reflexivity].
    subst version.
    assert (K : (hash =? sext 32 (sext 32 (le_val [n0; n1; n2; n3]) + 2 + count +
              fold_left (fun a x => sext 32 (a + x)) (units_of hidden) 0)) = ((hash - (sum + 2 + count)) mod 2 ^ 32 =? 0)).
    { set (F := fold_left _ _ _). assert (EF : F mod 2 ^ 32 = sum16 hidden mod 2 ^ 32) by (unfold F; rewrite fold_sum, sum16_units; reflexivity).
      assert (EX : (sext 32 (le_val [n0; n1; n2; n3]) + 2 + count + F) mod 2 ^ 32 = (sum + 2 + count) mod 2 ^ 32).
      { rewrite Es. replace (sext 32 (le_val [n0; n1; n2; n3]) + 2 + count + F) with (sext 32 (le_val [n0; n1; n2; n3]) + F + (2 + count)) by lia.
        rewrite <- Zplus_mod_idemp_l. rewrite (Z.add_mod (sext 32 _) F) by lia. rewrite EF.
        change (sext 32 (le_val [n0; n1; n2; n3]) mod 2 ^ 32) with (wrap 32 (sext 32 (le_val [n0; n1; n2; n3]))).
        rewrite wrap_sext by lia. unfold wrap. rewrite <- Z.add_mod by lia. rewrite Zplus_mod_idemp_l. f_equal. cbn [le_val]. lia. }
      rewrite (sext_mod32 _ _ EX).
      destruct (Z.eqb_spec ((hash - (sum + 2 + count)) mod 2 ^ 32) 0) as [Z0|Z0].
      - apply Z.eqb_eq. rewrite <- (sext_small 32 hash) by (unfold i32 in Ih; change (32 - 1) with 31; lia). apply sext_mod32. dlia.
      - apply Z.eqb_neq. intros C. apply Z0. 
        assert (C2 : sext 32 hash = sext 32 (sum + 2 + count)) by (rewrite (sext_small 32 hash) by (unfold i32 in Ih; change (32 - 1) with 31; lia); exact C).
        apply sext_mod32_inv in C2. dlia. }
    rewrite K. destruct (_ =? 0); cbn [negb]; [|reflexivity].
    do 2 f_equal. rewrite Et. replace (total nb * 3) with (3 * total nb) by lia. reflexivity.
  Qed.
End head.

(** *** The table *)
Lemma mod_key_ok {A} (f : A -> Z) l : length l = 16%nat -> key_ok (map (fun i => f i mod 256) l).
Proof.
  intros L. split; [now rewrite map_length|].
  apply Forall_forall. intros x Hx. apply in_map_iff in Hx. destruct Hx as (i & <- & _). unfold b8. apply Z.mod_pos_bound. lia.
Qed.
Lemma table_byte_ok fb i : fb <> [] ->
  table_byte fb (Z.of_nat i) = Ok ((Z.of_nat i + (Z.of_nat i mod 3 + 2) * nth (length fb - 1 - i mod length fb) fb 0) mod 256).
Proof.
  intros N. assert (L : (0 < length fb)%nat) by (destruct fb; [congruence|cbn; lia]).
  assert (M : (i mod length fb < length fb)%nat) by (apply Nat.mod_upper_bound; lia).
  unfold table_byte. destruct (Z.eqb_spec (zlen fb) 0) as [E|_]; [unfold zlen in E; lia|].
  unfold zlen at 2. rewrite <- Nat2Z.inj_mod. unfold zlen. rewrite idx_nth by (unfold zlen; lia). cbn [rmap rbind].
  replace (Z.to_nat (Z.of_nat (length fb) - 1 - Z.of_nat (i mod length fb))) with (length fb - 1 - i mod length fb)%nat by lia.
  unfold wrap. change (2 ^ 8) with 256. now rewrite Zplus_mod_idemp_r.
Qed.
Lemma table_key_run fb n : fb <> [] -> traverse (table_byte fb) (upto (Z.of_nat n)) = Ok (table_key fb n).
Proof. intros N. apply traverse_upto. intros i _. apply table_byte_ok, N. Qed.

Lemma align_data stop : 0 <= stop -> data_from stop (align1024 stop).
Proof.
  intros H. unfold align1024. change 1023 with (Z.ones 10). rewrite Z.land_ones by lia. change (2 ^ 10) with 1024.
  unfold data_from. destruct (Z.eqb_spec (stop mod 1024) 0) as [E|E]; cbn [negb]; dlia.
Qed.
Lemma data_unique stop a b : data_from stop a -> data_from stop b -> a = b.
Proof. unfold data_from. intros. dlia. Qed.

(** An entry as read from the table. *)
Definition read_entry (salt : list Z) (version u3 u4 : Z) (m : meta) : ms_entry :=
  ms_image salt (m_name m) (m_sum m) (m_flags m) (m_start m) (m_size m) (m_aligned m) (m_u1 m) (m_u2 m) (m_key m) u3 u4 version.
Lemma text_len n : 0 <= n < 2 ^ 30 -> wrap 64 (wrap 64 n * 2) = 2 * n.
Proof.
  intros H. change (2 ^ 30) with 1073741824 in H. rewrite (wrap_small 64 n) by (pows; lia). rewrite wrap_small by (pows; lia). lia.
Qed.
Lemma i32_nat n : 0 <= n < 2 ^ 31 -> i32 n.
Proof. unfold i32. lia. Qed.
Lemma entry1_ok key h s m left e : meta_ok m -> sr_left key s (stream (pieces1 m) ++ left) e ->
  exists s', entry_v1 h s = Ok (read_entry (mh_salt h) (mh_ms h) 0 0 m, s') /\ sr_left key s' left e.
Proof.
  intros (U & Nn & Hn & I1 & I2 & I3 & I4 & I5 & I6 & I7 & Lk & Bk & _) Hl.
  assert (Hl0 : 0 <= len (units16 (m_name m))) by (rewrite len_zlen; apply zlen_nonneg).
  unfold stream in Hl. cbn [pieces1 flat_map piece_bytes] in Hl. rewrite app_nil_r, <- !app_assoc in Hl.
  unfold entry_v1.
  assert (J1 : i32 (len (units16 (m_name m)))) by (unfold i32; pows; lia).
  assert (J2 : i32 (m_size m)) by (unfold i32; lia). assert (J3 : i32 (m_aligned m)) by (unfold i32; lia).
  destruct (left_i32 _ _ _ _ _ J1 Hl) as (s1 & E & Hl1). rewrite E. cbn [rbind]. clear Hl E.
  destruct (left_text _ _ _ _ _ Hl1 U Hn) as (s2 & E & Hl2). fold (len (units16 (m_name m))) in E.
  rewrite text_len by lia. rewrite E. cbn [rbind]. clear Hl1 E.
  destruct (left_i32 _ _ _ _ _ I1 Hl2) as (s3 & E & Hl3). rewrite E. cbn [rbind]. clear Hl2 E.
  destruct (left_i32 _ _ _ _ _ I2 Hl3) as (s4 & E & Hl4). rewrite E. cbn [rbind]. clear Hl3 E.
  destruct (left_i32 _ _ _ _ _ (i32_nat _ I3) Hl4) as (s5 & E & Hl5). rewrite E. cbn [rbind]. clear Hl4 E.
  destruct (left_i32 _ _ _ _ _ J2 Hl5) as (s6 & E & Hl6). rewrite E. cbn [rbind]. clear Hl5 E.
  destruct (left_i32 _ _ _ _ _ J3 Hl6) as (s7 & E & Hl7). rewrite E. cbn [rbind]. clear Hl6 E.
  destruct (left_i32 _ _ _ _ _ I6 Hl7) as (s8 & E & Hl8). rewrite E. cbn [rbind]. clear Hl7 E.
  destruct (left_i32 _ _ _ _ _ I7 Hl8) as (s9 & E & Hl9). rewrite E. cbn [rbind]. clear Hl8 E.
  destruct (left_write _ _ _ _ _ (repeat 0 16) Hl9) as (s10 & E & Hl10).
  - now rewrite Lk.
  - unfold zlen. rewrite Lk. reflexivity.
  - now rewrite Lk.
  - unfold zlen in E. rewrite Lk in E. change (Z.of_nat 16) with 16 in E. rewrite E. cbn [rbind].
    exists s10. split; [reflexivity|exact Hl10].
Qed.
Lemma stream_app a b : stream (a ++ b) = stream a ++ stream b.
Proof. unfold stream. apply flat_map_app. Qed.
Lemma entries1_ok key h e : forall ms s left, Forall meta_ok ms -> sr_left key s (stream (flat_map pieces1 ms) ++ left) e ->
  exists s', entries (entry_v1 h) (length ms) s = Ok (map (read_entry (mh_salt h) (mh_ms h) 0 0) ms, s') /\ sr_left key s' left e.
Proof.
  induction ms as [|m ms IH]; intros s left F Hl; [exists s; split; [reflexivity|exact Hl]|].
  inversion_clear F as [|? ? Fm Fs]. cbn [flat_map] in Hl. rewrite stream_app, <- app_assoc in Hl.
  destruct (entry1_ok key h s m _ e Fm Hl) as (s1 & E1 & Hl1). destruct (IH s1 left Fs Hl1) as (s2 & E2 & Hl2).
  exists s2. cbn [length entries]. rewrite E1. cbn [rbind fst snd]. rewrite E2. split; [reflexivity|exact Hl2].
Qed.
Lemma left_end key s left e : sr_left key s left e -> (length left < 4)%nat -> sr_off s = e.
Proof.
  intros (_ & _ & n & plain & stored & -> & M & A & _ & At) L. rewrite app_length in L.
  destruct (mod4_cases _ M) as [Z0|G]; [|lia]. apply added_length in A. rewrite Z0 in A.
  destruct stored; [|discriminate]. destruct (at_range _ _ _ _ At) as (_ & E & _). cbn in E. lia.
Qed.

(** *** Images *)
Lemma decimal_digits : forall f ds n, decimal ds n -> (length ds <= f)%nat -> digits f n = ds.
Proof.
  assert (P : forall ds, Forall (fun d => 0 <= d < 10) ds -> forall a, 0 <= a -> a <= fold_left (fun a d => 10 * a + d) ds a).
  { induction 1 as [|d ds Hd F IH]; intros a Ha; cbn [fold_left]; [lia|]. specialize (IH (10 * a + d) ltac:(lia)). lia. }
  assert (X : forall f ds n, Forall (fun d => 0 <= d < 10) ds -> fold_left (fun a d => 10 * a + d) ds 0 = n ->
    (exists d r, ds = d :: r /\ d <> 0) -> (length ds <= f)%nat -> digits f n = ds).
  { induction f as [|f IH]; intros ds n F V (d & r & -> & Nd) L; [cbn in L; lia|].
    destruct (exists_last (l := d :: r) ltac:(discriminate)) as (ds' & x & E). rewrite E in *.
    apply Forall_app in F. destruct F as [F' Fx]. inversion_clear Fx as [|? ? Hx _].
    rewrite fold_left_app in V. cbn [fold_left] in V. set (v := fold_left _ ds' 0) in V.
    assert (V0 : 0 <= v) by (apply P; [exact F'|lia]).
    rewrite app_length in L. cbn [length] in L. cbn [digits].
    destruct ds' as [|d' r'].
    - cbn in E. injection E as <- ->. cbn [app]. subst v. cbn [fold_left] in V. subst n.
      destruct (Z.ltb_spec (10 * 0 + d) 10); [reflexivity|lia].
    - cbn [app] in E. injection E as <- _. 
      assert (V1 : 1 <= v).
      { subst v. cbn [fold_left]. inversion_clear F' as [|? ? Hd Fr]. assert (Q := P r' Fr (10 * 0 + d) ltac:(lia)). lia. }
      destruct (Z.ltb_spec n 10); [lia|]. replace (n / 10) with v by dlia. replace (n mod 10) with x by dlia.
      rewrite (IH (d :: r') v F' eq_refl); [reflexivity|exists d, r'; auto|lia]. }
  intros f ds n (F & V & [-> |N]) L.
  - cbn in V. subst n. destruct f; [cbn in L; lia|reflexivity].
  - apply X; assumption.
Qed.
Lemma decimal_length ds n : decimal ds n -> n < 2 ^ 32 -> (length ds <= 10)%nat.
Proof.
  intros (F & V & N) H. destruct N as [-> |(d & r & -> & Nd)]; [cbn; lia|]. inversion_clear F as [|? ? Hd Fr].
  destruct (Nat.le_gt_cases (length (d :: r)) 10) as [G|G]; [exact G|]. exfalso.
  assert (X : forall r, Forall (fun d => 0 <= d < 10) r -> forall a, 0 <= a -> a * 10 ^ Z.of_nat (length r) <= fold_left (fun a d => 10 * a + d) r a).
  { clear. induction 1 as [|d r Hd F IH]; intros a Ha; cbn [fold_left length]; [rewrite Z.pow_0_r; lia|].
    specialize (IH (10 * a + d) ltac:(lia)). rewrite Nat2Z.inj_succ, Z.pow_succ_r by lia.
    assert (0 < 10 ^ Z.of_nat (length r)) by (apply Z.pow_pos_nonneg; lia). nia. }
  cbn [fold_left] in V. specialize (X r Fr (10 * 0 + d) ltac:(lia)). cbn [length] in G.
  assert (10 ^ 10 <= 10 ^ Z.of_nat (length r)) by (apply Z.pow_le_mono_r; lia).
  change (10 ^ 10) with 10000000000 in *. change (2 ^ 32) with 4294967296 in *. nia.
Qed.
Lemma fnv_range t : 0 <= fnv t < 2 ^ 32.
Proof.
  unfold fnv. assert (X : forall t h, 0 <= h < 2 ^ 32 -> 0 <= fold_left (fun h c => (Z.lxor h c * 16777619) mod 2 ^ 32) t h < 2 ^ 32).
  { clear t. induction t as [|c t IH]; intros h Hh; cbn [fold_left]; [exact Hh|]. apply IH, Z.mod_pos_bound. reflexivity. }
  apply X. lia.
Qed.
Lemma hash_digits_ok salt ds : decimal ds (fnv salt) -> hash_digits salt = ds.
Proof.
  intros D. unfold hash_digits. apply decimal_digits; [exact D|]. apply (decimal_length _ _ D). apply fnv_range.
Qed.
Lemma decimal_nonempty ds n : decimal ds n -> ds <> [].
Proof. intros (_ & _ & [-> |(d & r & -> & _)]); discriminate. Qed.
Lemma img_key_byte_ok ds ekey i c : ds <> [] -> length ekey = 16%nat ->
  img_key_byte ds ekey (Z.of_nat i) c = Ok (image_key_byte ds ekey c i).
Proof.
  intros N L. unfold img_key_byte.
  assert (C0 := cyc_around ds i N). assert (C1 := cyc_around ds (i + 1) N). assert (C2 := cyc_around ds (i + 2) N).
  rewrite Nat2Z.inj_add in C1, C2. change (Z.of_nat 1) with 1 in C1. change (Z.of_nat 2) with 2 in C2.
  rewrite C0, C1, C2. cbn [rbind].
  assert (M := Z.mod_pos_bound (around ds (i + 2) + Z.of_nat i) 16 ltac:(lia)).
  rewrite idx_nth by (unfold zlen; rewrite L; lia). cbn [rbind]. f_equal. unfold image_key_byte. cbv zeta.
  rewrite Nat.add_0_r. unfold wrap. change (2 ^ 8) with 256. now rewrite Zplus_mod_idemp_r, <- Zplus_mod_idemp_r, Zmult_mod_idemp_r, Zplus_mod_idemp_r.
Qed.
Lemma image_key1_ok ds ekey name : key_ok (image_key1 ds ekey name).
Proof.
  split; [unfold image_key1; now rewrite map_length, seq_length|].
  apply Forall_forall. intros x Hx. apply in_map_iff in Hx. destruct Hx as (i & <- & _). unfold b8, image_key_byte.
  apply Z.mod_pos_bound. lia.
Qed.
Lemma image_key1_run t name ds ekey : utf8 t name -> t <> [] -> ds <> [] -> length ekey = 16%nat ->
  traverse (fun i => rbind (cyc (utf8_enc t) i) (img_key_byte ds ekey i)) (upto 16) = Ok (image_key1 ds ekey name).
Proof.
  intros U Nt N L. destruct (utf8_is_enc _ _ U) as [_ <-].
  assert (Nn : name <> []) by (apply (utf8_app_nonempty t [] name); [rewrite app_nil_r; exact U|exact Nt]).
  unfold image_key1. apply (traverse_upto _ _ 16). intros i _. rewrite cyc_around by exact Nn. cbn [rbind].
  apply img_key_byte_ok; assumption.
Qed.
Lemma image1_run key plain stored : key_ok key -> image1 key plain stored ->
  let n := Nat.min 1024 (length stored) in
  fst (fst (decrypt_slice (snow2_new key) (fst (fst (decrypt_slice (snow2_new key) (firstn n stored))) ++ skipn n stored))) = plain /\
  length stored = length plain.
Proof.
  intros K (once & head & A1 & A2 & ->). cbv zeta.
  assert (L1 := added_length _ _ _ _ A1). assert (L2 := added_length _ _ _ _ A2).
  rewrite firstn_length in L2.
  assert (Ls : length (head ++ skipn 1024 once) = length plain) by (rewrite app_length, skipn_length; lia).
  split; [|exact Ls]. rewrite Ls.
  assert (Eh : Nat.min 1024 (length plain) = length head) by lia. rewrite Eh.
  rewrite firstn_app, firstn_all, Nat.sub_diag, firstn_O, app_nil_r.
  rewrite skipn_app, skipn_all, Nat.sub_diag, skipn_O. cbn [app].
  destruct (decrypt_slice_ok key 0 _ _ _ (snow2_new_ok _ K) A2) as (d & E & _). rewrite E. cbn [fst].
  rewrite firstn_skipn.
  destruct (decrypt_slice_ok key 0 _ _ _ (snow2_new_ok _ K) A1) as (d' & E' & _). rewrite E'. reflexivity.
Qed.
(** The entry placed behind the table. *)
Definition placed (from : Z) (e : ms_entry) (salt : list Z) (version u3 u4 : Z) (m : meta) : Prop :=
  me_salt e = salt /\ me_name e = m_name m /\ me_sum e = m_sum m /\ me_flags e = m_flags m /\ me_size e = m_size m /\
  me_aligned e = m_aligned m /\ me_unk1 e = m_u1 m /\ me_unk2 e = m_u2 m /\ me_key e = m_key m /\ me_unk3 e = u3 /\
  me_unk4 e = u4 /\ me_version e = version /\ me_off e = from + 1024 * m_start m /\ me_block e = m_aligned m.
Lemma place_ok from salt version u3 u4 m : meta_ok m -> 0 <= from -> from + 1024 * m_start m < 2 ^ 64 ->
  placed from (place from (read_entry salt version u3 u4 m)) salt version u3 u4 m.
Proof.
  intros (U & Nn & Hn & I1 & I2 & I3 & I4 & I5 & _) Hf Hb.
  unfold placed, place, read_entry, ms_image.
  cbn [me_salt me_name me_sum me_flags me_start me_size me_aligned me_unk1 me_unk2 me_key me_unk3 me_unk4 me_version me_off me_block].
  rewrite (wrap_small 64 (m_start m)) by (pows; lia). rewrite (wrap_small 64 (m_start m * 1024)) by (pows; lia).
  rewrite (wrap_small 64 (m_aligned m)) by (pows; lia).
  rewrite wrap_small by (pows; lia). repeat (split; [reflexivity|]). split; [lia|reflexivity].
Qed.
Lemma image_read1 buf salt from m e image : zlen buf < 2 ^ 63 -> meta_ok m -> placed from e salt 1 0 0 m ->
  image_at buf salt from m image -> to_wz_image_v1 buf e = Ok image.
Proof.
  intros Hz (U & Nn & Hn & I1 & I2 & I3 & I4 & I5 & I6 & I7 & Lk & Bk & _) (P1 & P2 & _ & _ & P5 & P6 & _ & _ & P9 & _ & _ & _ & P13 & P14)
    (ds & name & filler & stored & D & Un & Ls & La & Bi & I & At).
  unfold to_wz_image_v1. cbv zeta. rewrite P1, P2, P9, P13, P14, P5, (hash_digits_ok _ _ D).
  rewrite (image_key1_run _ _ _ _ Un Nn (decimal_nonempty _ _ D) Lk). cbn [rbind].
  destruct (at_range _ _ _ _ At) as (R1 & R2 & R3).
  rewrite (wrap_small 64 (from + 1024 * m_start m + m_aligned m)) by (pows; lia).
  rewrite (range_at _ _ _ _ At). cbn [rbind].
  destruct (image1_run _ _ _ (image_key1_ok ds (m_key m) name) I) as [E _]. rewrite E.
  rewrite (wrap_small 64 (m_size m)) by (pows; lia).
  apply range_at. exists [], filler. split; [reflexivity|]. split; [reflexivity|]. cbn. unfold len in Ls. lia.
Qed.

Lemma parse1_ok buf h fb ms stop : zlen buf < 2 ^ 63 -> utf8 (mh_name h) fb -> mh_name h <> [] ->
  mh_count h = len ms -> mh_ms h = 1 -> Forall meta_ok ms -> table1 buf fb (mh_estart h) stop ms ->
  exists from, data_from stop from /\ parse_v1 h buf = Ok (map (fun m => place from (read_entry (mh_salt h) 1 0 0 m)) ms) /\
    forall m, In m ms -> placed from (place from (read_entry (mh_salt h) 1 0 0 m)) (mh_salt h) 1 0 0 m.
Proof.
  intros Hz U Nn Hc Hv F (rest & stored & A & Lr & M & At).
  assert (Nf : fb <> []) by (apply (utf8_app_nonempty (mh_name h) [] fb); [rewrite app_nil_r; exact U|exact Nn]).
  destruct (at_range _ _ _ _ At) as (R1 & R2 & R3).
  assert (Hs : 0 <= stop) by (assert (X := zlen_nonneg stored); lia).
  exists (align1024 stop). assert (D := align_data stop Hs). split; [exact D|].
  assert (Ef : utf8_enc (mh_name h) = fb) by (destruct (utf8_is_enc _ _ U) as [_ ->]; reflexivity).
  assert (K : key_ok (table_key fb 16)) by (apply mod_key_ok; apply seq_length).
  split.
  - unfold parse_v1. rewrite Ef. change 16 with (Z.of_nat 16). rewrite table_key_run by exact Nf. cbn [rbind].
    rewrite Hc. destruct (Z.ltb_spec (len ms) 0) as [B|_]; [rewrite len_zlen in B; assert (X := zlen_nonneg ms); lia|].
    unfold len. rewrite Nat2Z.id.
    destruct (entries1_ok _ h stop ms _ rest F (left_new _ _ _ _ _ _ K At A M)) as (s' & E & Hl).
    rewrite E. cbn [rbind fst snd]. rewrite (left_end _ _ _ _ Hl Lr). rewrite map_map. rewrite Hv. reflexivity.
  - intros m Hm. rewrite Forall_forall in F. assert (Fm := F m Hm).
    assert (Fm' := Fm). destruct Fm' as (_ & _ & _ & _ & _ & I3 & _). apply place_ok; [exact Fm| |]; destruct D as [D1 D2]; pows; lia.
Qed.
