(** Lemmas on the free reading functions. *)
From Coq Require Import ZArith List Bool Lia Arith.
From Verif.Model Require Import Base Utf Keys Reader FreeRead.
From Verif.Spec Require Import Wire StrWire FreeRead.
From Verif.Proofs Require Import BaseL WireL ReaderL StringL StrWireL.

Lemma slice_shift (pre l : list Z) x y : 0 <= x -> slice (pre ++ l) (zlen pre + x) (zlen pre + y) = slice l x y.
Proof.
  intro H. pose proof (zlen_nonneg pre). destruct (slice l x y) as [m|] eqn:E.
  - apply slice_some in E as (H1 & H2 & H3 & H4 & p & q & -> & Hp). rewrite app_assoc. apply slice_app; rewrite zlen_app; lia.
  - apply slice_none in E. apply slice_none. rewrite zlen_app. lia.
Qed.
Lemma read_shift n pre l x : 0 <= x -> read_at n (pre ++ l) (zlen pre + x) = read_at n l x.
Proof. intro H. unfold read_at. rewrite <- Z.add_assoc, slice_shift by exact H. reflexivity. Qed.

Lemma pos32 x : 0 <= x < 2 ^ 31 -> wrap 64 (sext 32 x) = x.
Proof. intro H. rewrite sext_small by (cbn; lia). apply wrap_small. change (2 ^ 64) with (2 ^ 31 * 2 ^ 33). lia. Qed.

Lemma slice_split2 (buf : list Z) a b l : slice buf a (a + 2 + b) = Some l -> 0 <= b ->
  exists x y r, l = x :: y :: r /\ slice buf (a + 2) (a + 2 + b) = Some r /\ slice buf a (a + 2) = Some [x; y].
Proof.
  intros H Hb. apply slice_some in H as (H1 & H2 & H3 & H4 & p & q & -> & Hp).
  destruct l as [|x [|y r]]; [rewrite ?zlen_cons, ?zlen_nil in H4; lia..|]. exists x, y, r. split; [reflexivity|].
  rewrite !zlen_cons in H4. split.
  - replace (p ++ (x :: y :: r) ++ q) with ((p ++ [x; y]) ++ r ++ q) by (rewrite <- app_assoc; reflexivity).
    apply slice_app; rewrite zlen_app, !zlen_cons, zlen_nil; lia.
  - change ((x :: y :: r) ++ q) with ([x; y] ++ (r ++ q)). apply slice_app; [lia|]. rewrite !zlen_cons, zlen_nil. lia.
Qed.
Lemma units_ok buf off : zlen buf < 2 ^ 31 -> forall n i l, 0 <= i -> 0 <= off ->
  slice buf (i * 2 + off) (i * 2 + off + 2 * Z.of_nat n) = Some l ->
  free_units n i off buf = rmap (mapi_from resolve_unicode_char (Z.to_nat i)) (chunks_u16 l).
Proof.
  intro B. induction n as [|n IH]; intros i l Hi Ho H.
  - apply slice_some in H as (_ & _ & _ & H & _). destruct l; [reflexivity|]. rewrite zlen_cons in H. pose proof (zlen_nonneg l). lia.
  - replace (i * 2 + off + 2 * Z.of_nat (S n)) with (i * 2 + off + 2 + 2 * Z.of_nat n) in H by lia.
    destruct (slice_split2 _ _ _ _ H ltac:(lia)) as (x & y & r & -> & H1 & H2). apply slice_some in H as (_ & _ & H3 & _).
    cbn [free_units]. rewrite pos32 by lia. unfold read_u16_at, read_at. rewrite H2. cbn [le_val].
    replace (i * 2 + off + 2) with ((i + 1) * 2 + off) in H1 by lia. rewrite (IH (i + 1) r ltac:(lia) Ho H1).
    cbn [chunks_u16]. replace (x + 256 * (y + 256 * 0)) with (x + 256 * y) by lia.
    replace (Z.to_nat (i + 1)) with (S (Z.to_nat i)) by lia. destruct (chunks_u16 r); reflexivity.
Qed.
Lemma units_bad buf off : zlen buf < 2 ^ 31 -> forall n i, 0 <= i -> 0 <= off -> i * 2 + off <= zlen buf ->
  zlen buf < i * 2 + off + 2 * Z.of_nat n -> free_units n i off buf = Panic.
Proof.
  intro B. induction n as [|n IH]; intros i Hi Ho H1 H2; [lia|]. cbn [free_units]. rewrite pos32 by lia.
  unfold read_u16_at, read_at. destruct (slice buf (i * 2 + off) (i * 2 + off + 2)) as [l|] eqn:E; [|reflexivity].
  apply slice_some in E as (_ & _ & E & _). rewrite IH by lia. reflexivity.
Qed.
Lemma slice_split1 (buf : list Z) a b l : slice buf a (a + 1 + b) = Some l -> 0 <= b ->
  exists x r, l = x :: r /\ slice buf (a + 1) (a + 1 + b) = Some r /\ slice buf a (a + 1) = Some [x].
Proof.
  intros H Hb. apply slice_some in H as (H1 & H2 & H3 & H4 & p & q & -> & Hp).
  destruct l as [|x r]; [rewrite ?zlen_nil in H4; lia|]. exists x, r. split; [reflexivity|].
  rewrite !zlen_cons in H4. split.
  - replace (p ++ (x :: r) ++ q) with ((p ++ [x]) ++ r ++ q) by (rewrite <- app_assoc; reflexivity).
    apply slice_app; rewrite zlen_app, !zlen_cons, zlen_nil; lia.
  - change ((x :: r) ++ q) with ([x] ++ (r ++ q)). apply slice_app; [lia|]. rewrite !zlen_cons, zlen_nil. lia.
Qed.
Lemma bytes_ok buf off : zlen buf < 2 ^ 31 -> forall n i l, 0 <= i -> 0 <= off ->
  slice buf (i + off) (i + off + Z.of_nat n) = Some l ->
  free_bytes n i off buf = Ok (mapi_from resolve_ascii_char (Z.to_nat i) l).
Proof.
  intro B. induction n as [|n IH]; intros i l Hi Ho H.
  - apply slice_some in H as (_ & _ & _ & H & _). destruct l; [reflexivity|]. rewrite zlen_cons in H. pose proof (zlen_nonneg l). lia.
  - replace (i + off + Z.of_nat (S n)) with (i + off + 1 + Z.of_nat n) in H by lia.
    destruct (slice_split1 _ _ _ _ H ltac:(lia)) as (x & r & -> & H1 & H2). apply slice_some in H as (_ & _ & H3 & _).
    cbn [free_bytes]. rewrite pos32 by lia. unfold read_u8_at, read_at. rewrite H2. cbn [le_val].
    replace (i + off + 1) with ((i + 1) + off) in H1 by lia. rewrite (IH (i + 1) r ltac:(lia) Ho H1).
    replace (x + 256 * 0) with x by lia. replace (Z.to_nat (i + 1)) with (S (Z.to_nat i)) by lia. reflexivity.
Qed.
Lemma bytes_bad buf off : zlen buf < 2 ^ 31 -> forall n i, 0 <= i -> 0 <= off -> i + off <= zlen buf ->
  zlen buf < i + off + Z.of_nat n -> free_bytes n i off buf = Panic.
Proof.
  intro B. induction n as [|n IH]; intros i Hi Ho H1 H2; [lia|]. cbn [free_bytes]. rewrite pos32 by lia.
  unfold read_u8_at, read_at. destruct (slice buf (i + off) (i + off + 1)) as [l|] eqn:E; [|reflexivity].
  apply slice_some in E as (_ & _ & E & _). rewrite IH by lia. reflexivity.
Qed.

Lemma units_fine buf off : zlen buf < 2 ^ 31 -> forall n i, 0 <= i -> 0 <= off -> i * 2 + off + 2 * Z.of_nat n <= zlen buf ->
  exists us, free_units n i off buf = Ok us.
Proof.
  intro B. induction n as [|n IH]; intros i Hi Ho H; [eexists; reflexivity|]. cbn [free_units]. rewrite pos32 by lia.
  unfold read_u16_at, read_at. destruct (slice_total buf (i * 2 + off) (i * 2 + off + 2)) as (l & E & _); [lia..|]. rewrite E.
  destruct (IH (i + 1)) as [us U]; [lia..|]. rewrite U. eexists. reflexivity.
Qed.

Lemma xor_zero l : forall i, xor_ks (fun _ => 0) i l = l.
Proof. induction l as [|b l IH]; intro i; cbn [xor_ks]; [reflexivity|]. rewrite Z.lxor_0_r, IH. reflexivity. Qed.

Lemma w64 x : 0 <= x < 2 ^ 32 -> wrap 64 x = x.
Proof. intro H. apply wrap_small. change (2 ^ 64) with (2 ^ 32 * 2 ^ 32). lia. Qed.

(** The body: what the reader resolves at [off] of [rest]. *)
Lemma unicode_body pre rest off len : zlen (pre ++ rest) < 2 ^ 31 -> 0 <= off -> off <= zlen rest -> 0 <= len < 2 ^ 31 ->
  resolve_meta (mkRd (pre ++ rest) (fun _ => 0) (fun _ => 0)) SUnicode (zlen pre + off) (wrap 64 (sext 32 (len * 2)))
  = or_error (rmap utf16_lossy (free_units (Z.to_nat len) 0 off rest)).
Proof.
  intros B Ho Hl Hn. rewrite zlen_app in B. pose proof (zlen_nonneg pre) as Np. change (2 ^ 31) with 2147483648 in *.
  destruct (Z.le_gt_cases (len * 2) (zlen rest - off)) as [C|C].
  - destruct (units_fine rest off ltac:(change (2 ^ 31) with 2147483648; lia) (Z.to_nat len) 0) as [us U]; [lia..|].
    rewrite pos32 by (change (2 ^ 31) with 2147483648; lia). unfold resolve_meta, resolve_unicode_raw, get_decrypt_slice. cbn [rd_buf rd_ks].
    rewrite w64 by (change (2 ^ 32) with 4294967296; lia).
    rewrite <- Z.add_assoc, slice_shift by exact Ho.
    destruct (slice_total rest off (off + len * 2)) as (l & E & _); [lia..|]. rewrite E. cbn [rbind]. rewrite xor_zero.
    change 0%nat with (Z.to_nat 0).
    rewrite <- (units_ok rest off ltac:(change (2 ^ 31) with 2147483648; lia) (Z.to_nat len) 0 l ltac:(lia) Ho).
    + rewrite U. reflexivity.
    + rewrite Z2Nat.id by lia. replace (0 * 2 + off) with off by lia. replace (2 * len) with (len * 2) by lia. exact E.
  - rewrite units_bad by (change (2 ^ 31) with 2147483648; lia). apply resolve_oob; [discriminate|]. cbn [rd_buf]. apply slice_none.
    rewrite zlen_app. intros (S1 & S2 & S3). assert (Hs : len * 2 < 2147483648 \/ 2147483648 <= len * 2) by lia. destruct Hs as [Hs|Hs].
    + rewrite pos32 in * by (change (2 ^ 31) with 2147483648; lia). rewrite w64 in S3 by (change (2 ^ 32) with 4294967296; lia). lia.
    + assert (Es : sext 32 (len * 2) = len * 2 - 4294967296).
      { unfold sext. rewrite wrap_small by (change (2 ^ 32) with 4294967296; lia). change (2 ^ (32 - 1)) with 2147483648.
        change (2 ^ 32) with 4294967296. destruct (Z.ltb_spec (len * 2) 2147483648); lia. }
      rewrite Es in *. rewrite wrap_add_r in S2, S3 by lia.
      assert (Hc : zlen pre + off + (len * 2 - 4294967296) < 0 \/ 0 <= zlen pre + off + (len * 2 - 4294967296)) by lia. destruct Hc as [Hc|Hc].
      * unfold wrap in S3. rewrite <- (Z_mod_plus_full _ 1) in S3. change (2 ^ 64) with 18446744073709551616 in S3.
        rewrite Z.mod_small in S3 by lia. lia.
      * rewrite w64 in S2 by (change (2 ^ 32) with 4294967296; lia). lia.
Qed.
Lemma ascii_body pre rest off len : zlen (pre ++ rest) < 2 ^ 31 -> 0 <= off -> off <= zlen rest -> 0 <= len < 2 ^ 31 ->
  resolve_meta (mkRd (pre ++ rest) (fun _ => 0) (fun _ => 0)) SAscii (zlen pre + off) len
  = or_error (rmap utf8_lossy (free_bytes (Z.to_nat len) 0 off rest)).
Proof.
  intros B Ho Hl Hn. rewrite zlen_app in B. pose proof (zlen_nonneg pre) as Np. change (2 ^ 31) with 2147483648 in *.
  assert (W : wrap 64 (zlen pre + off + len) = zlen pre + (off + len)) by (rewrite w64 by (change (2 ^ 32) with 4294967296; lia); lia).
  destruct (Z.le_gt_cases len (zlen rest - off)) as [C|C].
  - unfold resolve_meta, resolve_ascii_raw, get_decrypt_slice. cbn [rd_buf rd_ks]. rewrite W, slice_shift by exact Ho.
    destruct (slice_total rest off (off + len)) as (l & E & _); [lia..|]. rewrite E.
    rewrite (bytes_ok rest off ltac:(change (2 ^ 31) with 2147483648; lia) (Z.to_nat len) 0 l ltac:(lia) Ho).
    + unfold rmap, rbind, or_error. rewrite xor_zero. reflexivity.
    + rewrite Z2Nat.id by lia. exact E.
  - rewrite bytes_bad by (change (2 ^ 31) with 2147483648; lia). apply resolve_oob; [discriminate|]. cbn [rd_buf].
    rewrite W, slice_shift by exact Ho. apply slice_none. lia.
Qed.

(** The long lengths. *)
Lemma i8_head b rest : byte b -> read_i8_at (b :: rest) 0 = Ok (if b <? 128 then b else b - 256).
Proof.
  intro H. unfold read_i8_at, read_at. unfold slice. rewrite zlen_cons. pose proof (zlen_nonneg rest).
  replace ((0 <=? 0) && (0 <=? 0 + 1) && (0 + 1 <=? 1 + zlen rest)) with true by lia.
  change (Z.to_nat 0) with 0%nat. change (Z.to_nat (0 + 1 - 0)) with 1%nat. cbn [skipn firstn rmap rbind le_val].
  unfold byte in H. replace (b + 256 * 0) with b by lia. unfold sext. rewrite wrap_small by (change (2 ^ 8) with 256; lia).
  reflexivity.
Qed.
Lemma i32_sign rest n : bytes rest -> read_i32_at rest 0 = Ok n -> n < 0 -> 128 <= nth 3 rest 0.
Proof.
  intros H R Hn. unfold read_i32_at, read_at in R. destruct (slice rest 0 (0 + 4)) as [l|] eqn:E; [|discriminate].
  apply slice_some in E as (_ & _ & _ & L & p & q & -> & Hp).
  destruct p; [|rewrite zlen_cons in Hp; pose proof (zlen_nonneg p); lia]. cbn [app] in *.
  destruct l as [|a [|b [|c [|d [|x l]]]]]; rewrite ?zlen_cons, ?zlen_nil in L; try (pose proof (zlen_nonneg l); lia); try lia.
  apply (f_equal (fun x => match x with Ok y => y | _ => 0 end)) in R. unfold rmap, rbind in R. cbv iota beta in R. subst n.
  assert (Ev : le_val [a; b; c; d] = a + 256 * b + 65536 * c + 16777216 * d) by (cbv [le_val]; lia). rewrite Ev in Hn. cbn [app nth].
  assert (Q : byte a /\ byte b /\ byte c /\ byte d).
  { cbn [app] in H. do 4 (inversion_clear H as [|? ? ? H']; rename H' into H). auto. }
  unfold byte in Q. destruct (Z.ltb_spec d 128) as [D|]; [exfalso|lia].
  rewrite sext_small in Hn; change (2 ^ (32 - 1)) with 2147483648 in *; lia.
Qed.


Lemma i32_len rest n : read_i32_at rest 0 = Ok n -> 4 <= zlen rest /\ n < 2 ^ 31.
Proof.
  unfold read_i32_at, read_at. destruct (slice rest 0 (0 + 4)) as [l|] eqn:E; [|discriminate]. intro R.
  apply (f_equal (fun x => match x with Ok y => y | _ => 0 end)) in R. unfold rmap, rbind in R. cbv iota beta in R. subst n.
  apply slice_some in E as (_ & _ & E & _). pose proof (sext_range 32 (le_val l) ltac:(lia)). change (32 - 1) with 31 in *. lia.
Qed.
Lemma read_i32_cases buf p : (exists n, read_i32_at buf p = Ok n) \/ read_i32_at buf p = Err ERead.
Proof. unfold read_i32_at, read_at. destruct (slice buf p (p + 4)); [left; eexists|right]; reflexivity. Qed.

Lemma strings_agree pre l : bytes l -> zlen (pre ++ l) < 2 ^ 31 -> ~ negative_length l ->
  fst (read_wz_string (mkRd (pre ++ l) (fun _ => 0) (fun _ => 0)) (zlen pre)) = or_error (free_string l).
Proof.
  intros Hb B Hneg. pose proof (zlen_nonneg pre) as Np.
  destruct l as [|b rest].
  { unfold read_wz_string, bind, read_i8, cur_read, read_i8_at. cbn [rd_buf]. rewrite <- (Z.add_0_r (zlen pre)) at 1.
    rewrite read_shift by lia. reflexivity. }
  inversion_clear Hb as [|? ? B0 Br]. pose proof (zlen_nonneg rest) as Nr.
  pose proof B as B1. rewrite zlen_app, zlen_cons in B1. change (2 ^ 31) with 2147483648 in B1.
  set (r := mkRd (pre ++ b :: rest) (fun _ => 0) (fun _ => 0)).
  assert (Er : r = mkRd ((pre ++ [b]) ++ rest) (fun _ => 0) (fun _ => 0)) by (unfold r; rewrite <- app_assoc; reflexivity).
  assert (Lp : zlen (pre ++ [b]) = zlen pre + 1) by (rewrite zlen_app, zlen_cons, zlen_nil; lia).
  assert (B2 : zlen ((pre ++ [b]) ++ rest) < 2 ^ 31) by (rewrite <- app_assoc; exact B).
  assert (W1 : wrap 64 (zlen pre + 1) = zlen pre + 1) by (apply w64; change (2 ^ 32) with 4294967296; lia).
  assert (W5 : wrap 64 (zlen pre + 1 + 4) = zlen pre + 1 + 4) by (apply w64; change (2 ^ 32) with 4294967296; lia).
  assert (H0 : read_i8_at (rd_buf r) (zlen pre) = Ok (if b <? 128 then b else b - 256)).
  { rewrite <- (i8_head b rest B0). unfold read_i8_at, r. cbn [rd_buf]. rewrite <- (Z.add_0_r (zlen pre)), read_shift by lia. reflexivity. }
  assert (H4 : read_i32_at (rd_buf r) (zlen pre + 1) = read_i32_at rest 0).
  { rewrite Er. cbn [rd_buf]. unfold read_i32_at. rewrite <- Lp, <- (Z.add_0_r (zlen (pre ++ [b]))), read_shift by lia. reflexivity. }
  unfold free_string. rewrite (i8_head b rest B0). cbn [rbind tl].
  unfold read_wz_string, bind at 1, read_i8, cur_read. rewrite H0, W1.
  unfold byte in B0. set (s := if b <? 128 then b else b - 256).
  assert (Hs : -128 <= s <= 127) by (unfold s; destruct (Z.ltb_spec b 128); lia).
  unfold string_type. destruct (Z.eqb_spec s 0) as [S0|S0]; [reflexivity|]. destruct (Z.ltb_spec 0 s) as [Sp|Sp].
  - unfold read_unicode_string, free_unicode, unicode_str_len. destruct (Z.eqb_spec s 127) as [S1|S1].
    + unfold bind at 1, read_i32, cur_read. rewrite H4, W5.
      destruct (read_i32_cases rest 0) as [[n R]|R]; rewrite R; [|reflexivity]. unfold rmap at 1. cbn [rbind].
      destruct (Z.eqb_spec n 0); [reflexivity|]. destruct (i32_len _ _ R) as [R1 R2].
      assert (0 <= n).
      { destruct (Z.ltb_spec n 0) as [Hn|]; [|assumption]. exfalso. apply Hneg. split; [|exact (i32_sign _ _ Br R Hn)].
        left. cbn [nth]. unfold s in S1. destruct (Z.ltb_spec b 128); lia. }
      pose proof (unicode_body (pre ++ [b]) rest 4 n B2 ltac:(lia) R1 ltac:(lia)) as Q. rewrite <- Er, Lp in Q.
      unfold bind, get_pos, lift, skip, ret. rewrite Q. destruct (or_error _); reflexivity.
    + unfold bind at 1, ret at 1. cbn [rbind]. destruct (Z.eqb_spec s 0); [contradiction|].
      pose proof (unicode_body (pre ++ [b]) rest 0 s B2 ltac:(lia) Nr ltac:(lia)) as Q. rewrite <- Er, Lp, Z.add_0_r in Q.
      unfold bind, get_pos, lift, skip, ret. rewrite Q. destruct (or_error _); reflexivity.
  - unfold read_ascii_string, free_ascii, ascii_str_len. destruct (Z.eqb_spec s (-128)) as [S1|S1].
    + unfold bind at 1, read_i32, cur_read. rewrite H4, W5.
      destruct (read_i32_cases rest 0) as [[n R]|R]; rewrite R; [|reflexivity]. unfold rmap at 1. cbn [rbind].
      destruct (i32_len _ _ R) as [R1 R2].
      assert (0 <= n).
      { destruct (Z.ltb_spec n 0) as [Hn|]; [|assumption]. exfalso. apply Hneg. split; [|exact (i32_sign _ _ Br R Hn)].
        right. cbn [nth]. unfold s in S1. destruct (Z.ltb_spec b 128); lia. }
      rewrite (w64 n) by (change (2 ^ 31) with 2147483648 in R2; change (2 ^ 32) with 4294967296; lia).
      destruct (Z.eqb_spec n 0); [reflexivity|].
      pose proof (ascii_body (pre ++ [b]) rest 4 n B2 ltac:(lia) R1 ltac:(lia)) as Q. rewrite <- Er, Lp in Q.
      unfold bind, get_pos, lift, skip, ret. rewrite Q. destruct (or_error _); reflexivity.
    + unfold bind at 1, ret at 1. cbn [rbind]. rewrite (w64 (- s)) by (change (2 ^ 32) with 4294967296; lia).
      destruct (Z.eqb_spec (- s) 0); [lia|].
      pose proof (ascii_body (pre ++ [b]) rest 0 (- s) B2 ltac:(lia) Nr ltac:(lia)) as Q. rewrite <- Er, Lp, Z.add_0_r in Q.
      unfold bind, get_pos, lift, skip, ret. rewrite Q. destruct (or_error _); reflexivity.
Qed.

(** Stored strings are bytes and have no negative length. *)
Lemma enc_le_bytes n v : bytes (enc_le n v).
Proof. unfold enc_le. apply Forall_forall. intros x H. apply in_map_iff in H as (i & <- & _). unfold byte. apply Z.mod_pos_bound. lia. Qed.
Lemma enc_str_bytes t : unicode t -> bytes (enc_str (fun _ => 0) t).
Proof.
  intro U. unfold enc_str. destruct t as [|c t']; [repeat constructor; unfold byte; lia|]. set (t := c :: t') in *.
  destruct (forallb _ t) eqn:F; apply Forall_app; split.
  - unfold len_ascii. assert (1 <= Z.of_nat (length t)) by (unfold t; cbn [length]; lia). destruct (Z.leb_spec (Z.of_nat (length t)) 127).
    + constructor; [unfold byte; lia|constructor].
    + constructor; [unfold byte; lia|apply enc_le_bytes].
  - unfold body_ascii. apply Forall_forall. intros x H. apply in_map_iff in H as (i & <- & Hi). apply in_seq in Hi.
    apply byte_lxor; [|unfold byte; lia]. apply byte_lxor; [|unfold byte; apply Z.mod_pos_bound; lia].
    rewrite forallb_forall in F. specialize (F (nth i t 0) ltac:(apply nth_In; lia)).
    unfold unicode in U. rewrite Forall_forall in U. specialize (U (nth i t 0) ltac:(apply nth_In; lia)). unfold byte. lia.
  - unfold len_unicode. destruct (Z.leb_spec (Z.of_nat (length (units16 t))) 126).
    + constructor; [unfold byte; lia|constructor].
    + constructor; [unfold byte; lia|apply enc_le_bytes].
  - unfold body_unicode. apply Forall_forall. intros x H. apply in_flat_map in H as (i & Hi & H). apply in_seq in Hi. cbv zeta in H.
    pose proof (utf16_enc_units t (unicode_scalars t U)) as Hu. rewrite units16_eq in *. rewrite Forall_forall in Hu.
    specialize (Hu (nth i (utf16_enc t) 0) ltac:(apply nth_In; lia)).
    pose proof (lxor_range 16 (nth i (utf16_enc t) 0) ((43690 + Z.of_nat i) mod 65536) ltac:(lia) Hu ltac:(apply Z.mod_pos_bound; lia)) as L.
    change (2 ^ 16) with 65536 in L. revert H. set (w := Z.lxor _ _) in *. intros [<-|[<-|[]]]; rewrite Z.lxor_0_r; unfold byte; Z.div_mod_to_equations; lia.
Qed.
Lemma enc_str_nonneg t post : unicode t -> zlen (enc_str (fun _ => 0) t ++ post) < 2 ^ 31 -> ~ negative_length (enc_str (fun _ => 0) t ++ post).
Proof.
  intros U B [H1 H2]. pose proof (zlen_nonneg post) as Np. rewrite zlen_app in B. revert B H1 H2. unfold enc_str. destruct t as [|c t']; [cbn; lia|]. set (t := c :: t') in *.
  assert (D : forall n k, (k < 2 ^ 31) -> 0 <= k -> nth 4 (n :: enc_le 4 k) 0 < 128).
  { intros n k K1 K0. change (nth 4 (n :: enc_le 4 k) 0) with ((k / 2 ^ (8 * 3)) mod 256). change (2 ^ (8 * 3)) with 16777216.
    change (2 ^ 31) with 2147483648 in K1. rewrite Z.mod_small; Z.div_mod_to_equations; lia. }
  destruct (forallb _ t); rewrite zlen_app.
  - unfold len_ascii. assert (1 <= Z.of_nat (length t)) by (unfold t; cbn [length]; lia). intros B H1 H2.
    unfold zlen in B at 2. rewrite body_ascii_length in B.
    destruct (Z.leb_spec (Z.of_nat (length t)) 127); [cbn [app nth] in H1; lia|]. rewrite <- !app_assoc, app_nth1 in H2 by (cbn; lia).
    pose proof (zlen_nonneg (128 :: enc_le 4 (Z.of_nat (length t)))). specialize (D 128 (Z.of_nat (length t)) ltac:(lia) ltac:(lia)). lia.
  - unfold len_unicode. intros B H1 H2. unfold zlen in B at 2. rewrite body_unicode_length in B. set (n := length (units16 t)) in *.
    destruct (Z.leb_spec (Z.of_nat n) 126); [cbn [app nth] in H1; lia|]. rewrite <- !app_assoc, app_nth1 in H2 by (cbn; lia).
    pose proof (zlen_nonneg (127 :: enc_le 4 (Z.of_nat n))). specialize (D 127 (Z.of_nat n) ltac:(lia) ltac:(lia)). lia.
Qed.
Lemma free_stored t post : unicode t -> bytes post -> zlen (enc_str (fun _ => 0) t ++ post) < 2 ^ 31 ->
  free_string (enc_str (fun _ => 0) t ++ post) = Ok t.
Proof.
  intros U Bp B.
  assert (Bb : bytes (enc_str (fun _ => 0) t ++ post)) by (apply Forall_app; split; [apply enc_str_bytes; exact U|exact Bp]).
  pose proof (strings_agree [] _ Bb B (enc_str_nonneg t post U B)) as A. cbn [app] in A. change (zlen []) with 0 in A.
  pose proof (read_enc_str_eager (mkRd (enc_str (fun _ => 0) t ++ post) (fun _ => 0) (fun _ => 0)) [] post t U
    ltac:(intro; cbn; unfold byte; lia) B eq_refl) as E.
  change (zlen []) with 0 in E. rewrite E in A. cbn [fst] in A. destruct (free_string _); cbn [or_error] in A; congruence.
Qed.
