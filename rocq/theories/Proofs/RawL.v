(** Form 517, and the data kept as sealed blocks. *)
From Coq Require Import ZArith List Bool Lia ZifyBool ZifyNat.
From Verif.Model Require Import Base Reader Png.
From Verif.Spec Require Import Wire Stream Pixel.
From Verif.Proofs Require Import BaseL AtL PngL DxtL GridL.

Section form517.
  Variables (raw : list Z) (w h : Z).
  Hypothesis (Hb : bytes raw) (Hw : 0 < w) (Hh : 0 <= h) (Hw16 : w mod 16 = 0) (Hh16 : h mod 16 = 0).
  Hypothesis (Hwh : w * h * 2 < 2 ^ 32) (Hl : w * h / 128 <= zlen raw).

  Definition T (k : Z) : Z := byte_at raw (2 * (k / (32 * w) * (w / 16) + k mod (2 * w) / 32) + k mod 2).

  Lemma T_at j r c : 0 <= r < 16 -> 0 <= c < 2 * w ->
    T (32 * w * j + 2 * w * r + c) = byte_at raw (2 * (j * (w / 16) + c / 32) + c mod 2).
  Proof.
    intros Hr Hc. unfold T.
    replace ((32 * w * j + 2 * w * r + c) / (32 * w)) with j.
    2: { apply (Z.div_unique_pos _ _ j (2 * w * r + c)); nia. }
    replace ((32 * w * j + 2 * w * r + c) mod (2 * w)) with c.
    2: { apply (Z.mod_unique_pos _ _ (16 * j + r) c); nia. }
    replace ((32 * w * j + 2 * w * r + c) mod 2) with (c mod 2).
    2: { replace (32 * w * j + 2 * w * r + c) with (c + (16 * w * j + w * r) * 2) by ring. symmetry. apply Z.mod_add. lia. }
    reflexivity.
  Qed.

  Definition good (d : Z) (s : (Z -> Z) * Z) : Prop := snd s = d /\ forall k, 0 <= k < d -> fst s k = T k.

  Lemma store_good d s v : good d s -> d < w * h * 2 -> v = T d ->
    exists s', store (w * h * 2) s v = Ok s' /\ good (d + 1) s'.
  Proof.
    intros (E & G) Hd ->. destruct s as [m d']. cbn in E. subst d'. unfold store.
    replace (d <? w * h * 2) with true by lia. eexists. split; [reflexivity|]. split; [reflexivity|].
    intros k Hk. cbn in *. destruct (Z.eqb_spec k d) as [->|N]; [reflexivity|]. apply G. lia.
  Qed.

  Lemma pixels_517_good : exists d, pixels_517 raw w h = Ok d /\ zlen d = 2 * (w * h) /\
    forall k, 0 <= k < 2 * (w * h) -> nth_error d (Z.to_nat k) = Some (T k).
  Proof.
    unfold pixels_517. rewrite (wrap_small 32 (w * h * 2)) by (split; [nia|lia]).
    assert (W16 : w = 16 * (w / 16)) by dlia. assert (H16 : h = 16 * (h / 16)) by dlia.
    destruct (each_upto (fun m j =>
       rbind (each (fun s i => each (fun s _ => rbind (idx raw ((i + j * (w / 16)) * 2)) (fun b0 =>
                rbind (store (w * h * 2) s b0) (fun s1 =>
                rbind (idx raw ((i + j * (w / 16)) * 2 + 1)) (fun b1 => store (w * h * 2) s1 b1)))) (upto 16) s)
                (upto (w / 16)) (m, j * wrap 32 (w * 32))) (fun s =>
       rmap fst (each (fun s _ =>
            each (fun s src => if src <? w * h * 2 then store (w * h * 2) s (fst s src) else Panic)
              (map (fun c => j * wrap 32 (w * 32) + c) (upto (wrap 32 (w * 2)))) s)
            (upto 15) s)))
      (fun j m => forall k, 0 <= k < 32 * w * j -> m k = T k) (h / 16) (fun _ => 0)) as (m & E & G).
    - dlia.
    - intros k Hk. lia.
    - intros j m Hj G.
      assert (Hj' : 32 * w * (j + 1) <= w * h * 2) by nia.
      assert (0 <= w * j) by nia.
      assert (Wb : w * 32 < 2 ^ 32) by nia.
      rewrite !wrap_small by lia.
      assert (A1 : exists s, each (fun s i => each (fun s _ => rbind (idx raw ((i + j * (w / 16)) * 2)) (fun b0 =>
                rbind (store (w * h * 2) s b0) (fun s1 =>
                rbind (idx raw ((i + j * (w / 16)) * 2 + 1)) (fun b1 => store (w * h * 2) s1 b1)))) (upto 16) s)
                (upto (w / 16)) (m, j * (w * 32)) = Ok s /\ good (32 * w * j + 2 * w) s).
      { apply (each_to _ (fun i => good (32 * w * j + 32 * i))).
        - dlia.
        - split; cbn [fst snd]; [lia|]. intros k Hk. apply G. lia.
        - intros i s Hi Gs. apply (each_to _ (fun t => good (32 * w * j + 32 * i + 2 * t))).
          + lia.
          + rewrite Z.mul_0_r, Z.add_0_r. exact Gs.
          + intros t s1 Ht G1.
            assert (R : (i + j * (w / 16)) * 2 + 1 < zlen raw).
            { apply Z.lt_le_trans with (w * h / 128); [|exact Hl].
              replace (w * h / 128) with (2 * ((w / 16) * (h / 16))).
              - assert ((j + 1) * (w / 16) <= h / 16 * (w / 16)) by (apply Z.mul_le_mono_nonneg_r; dlia). lia.
              - apply (Z.div_unique_pos _ _ _ 0); [lia|]. transitivity (16 * (w / 16) * (16 * (h / 16))); [rewrite <- W16, <- H16; reflexivity|ring]. }
            assert (R0 : 0 <= (i + j * (w / 16)) * 2) by nia.
            rewrite !idx_byte by lia. cbn [rbind].
            assert (C : 32 * i + 2 * t + 1 < 2 * w) by nia.
            destruct (store_good (32 * w * j + 32 * i + 2 * t) s1 (byte_at raw ((i + j * (w / 16)) * 2))) as (s2 & E2 & G2).
            * exact G1.
            * nia.
            * replace (32 * w * j + 32 * i + 2 * t) with (32 * w * j + 2 * w * 0 + (32 * i + 2 * t)) by ring.
              rewrite T_at by lia. f_equal. replace ((32 * i + 2 * t) / 32) with i by dlia. dlia.
            * rewrite E2. cbn [rbind].
              destruct (store_good (32 * w * j + 32 * i + 2 * t + 1) s2 (byte_at raw ((i + j * (w / 16)) * 2 + 1))) as (s3 & E3 & G3).
              -- exact G2.
              -- nia.
              -- replace (32 * w * j + 32 * i + 2 * t + 1) with (32 * w * j + 2 * w * 0 + (32 * i + 2 * t + 1)) by ring.
                 rewrite T_at by lia. f_equal. replace ((32 * i + 2 * t + 1) / 32) with i by dlia. dlia.
              -- exists s3. split; [exact E3|]. replace (32 * w * j + 32 * i + 2 * (t + 1)) with (32 * w * j + 32 * i + 2 * t + 1 + 1) by ring.
                 exact G3.
          + intros s1 G1. replace (32 * w * j + 32 * (i + 1)) with (32 * w * j + 32 * i + 2 * 16) by ring. exact G1.
        - intros s Gs. replace (32 * w * j + 2 * w) with (32 * w * j + 32 * (w / 16)) by lia. exact Gs. }
      destruct A1 as (s & -> & Gs). cbn [rbind].
      assert (A2 : exists s', each (fun s _ =>
            each (fun s src => if src <? w * h * 2 then store (w * h * 2) s (fst s src) else Panic)
              (map (fun c => j * (w * 32) + c) (upto (w * 2))) s) (upto 15) s = Ok s' /\ good (32 * w * j + 32 * w) s').
      { apply (each_to _ (fun r => good (32 * w * j + 2 * w * (r + 1)))).
        - lia.
        - rewrite Z.add_0_l, Z.mul_1_r. exact Gs.
        - intros r s1 Hr G1. rewrite each_map. apply (each_to _ (fun c => good (32 * w * j + 2 * w * (r + 1) + c))).
          + lia.
          + rewrite Z.add_0_r. exact G1.
          + intros c s2 Hc G2. assert (0 <= w * r) by nia. assert (2 * w * (r + 1) + c < 32 * w) by nia.
            replace (j * (w * 32) + c <? w * h * 2) with true by nia.
            destruct (store_good (32 * w * j + 2 * w * (r + 1) + c) s2 (fst s2 (j * (w * 32) + c))) as (s3 & E3 & G3).
            * exact G2.
            * nia.
            * destruct G2 as (_ & G2). rewrite G2 by nia.
              replace (j * (w * 32) + c) with (32 * w * j + 2 * w * 0 + c) by ring.
              rewrite !T_at by lia. reflexivity.
            * exists s3. split; [exact E3|]. replace (32 * w * j + 2 * w * (r + 1) + (c + 1)) with (32 * w * j + 2 * w * (r + 1) + c + 1) by ring.
              exact G3.
          + intros s2 G2. replace (32 * w * j + 2 * w * (r + 1 + 1)) with (32 * w * j + 2 * w * (r + 1) + w * 2) by ring. exact G2.
        - intros s1 G1. replace (32 * w * j + 32 * w) with (32 * w * j + 2 * w * (15 + 1)) by ring. exact G1. }
      destruct A2 as (s' & -> & Gs'). unfold rmap. cbn [rbind]. eexists. split; [reflexivity|].
      intros k Hk. apply Gs'. lia.
    - rewrite E. unfold rmap. cbn [rbind]. eexists. split; [reflexivity|]. split.
      + unfold zlen. rewrite map_length, upto_length. nia.
      + intros k Hk. rewrite nth_error_map, upto_nth by lia. cbn. f_equal. apply G. nia.
  Qed.

  Lemma img_517_picture : exists l, rbind (pixels_517 raw w h) (fun d => img_rgb565 d w h) = Ok l /\
    picture w h l (fun x y => px_565 (num raw (2 * (y / 16 * (w / 16) + x / 16)) 2)).
  Proof.
    destruct pixels_517_good as (d & -> & L & G). cbn [rbind].
    assert (Bd : forall k, 0 <= k < 2 * (w * h) -> byte_at d k = T k).
    { intros k Hk. unfold byte_at. apply nth_error_nth. apply G. exact Hk. }
    destruct (img_rgb565_picture d w h) as (l & E & P); try lia; try nia.
    exists l. split; [exact E|]. revert P. apply picture_ext. intros x y Hx Hy. f_equal. cbn [num].
    assert (W16 : w = 16 * (w / 16)) by dlia. assert (H16 : h = 16 * (h / 16)) by dlia.
    assert (0 <= y * w + x < w * h) by nia.
    rewrite !Bd by lia.
    replace (2 * (y * w + x)) with (32 * w * (y / 16) + 2 * w * (y mod 16) + 2 * x).
    2: { assert (Y : y = 16 * (y / 16) + y mod 16) by dlia. rewrite Y at 3. ring. }
    replace (32 * w * (y / 16) + 2 * w * (y mod 16) + 2 * x + 1) with (32 * w * (y / 16) + 2 * w * (y mod 16) + (2 * x + 1)) by ring.
    rewrite !T_at by dlia.
    replace (2 * x / 32) with (x / 16) by dlia. replace (2 * x mod 2) with 0 by dlia.
    replace ((2 * x + 1) / 32) with (x / 16) by dlia. replace ((2 * x + 1) mod 2) with 1 by dlia.
    rewrite Z.add_0_r. reflexivity.
  Qed.
End form517.

From Verif.Spec Require Import PropWire.
From Verif.Proofs Require Import WireL KeysL.

Lemma xored_unique k i b s : xored k i b s -> s = xor_ks k i b.
Proof.
  intros (L & H). apply nth_error_same. intros n. destruct (xor_ks_xored k i b) as (L' & H').
  destruct (nth_error b n) as [d|] eqn:E.
  - rewrite (H _ _ E), (H' _ _ E). reflexivity.
  - apply nth_error_None in E. rewrite (proj2 (nth_error_None s n)), (proj2 (nth_error_None (xor_ks k i b) n)) by lia. reflexivity.
Qed.

Lemma decrypt_blocks_ok r bs file : blocks_on_file (rd_ks r) bs file -> zlen (rd_buf r) < 2 ^ 63 ->
  forall fuel off total_end, at_ (rd_buf r) off total_end file -> (length file < fuel)%nat ->
  decrypt_blocks fuel r off total_end = Ok (concat bs).
Proof.
  intros B Hz. induction B as [|b bs s rest Hb X B IH]; intros fuel off te A F;
    destruct (at_range _ _ _ _ A) as (A0 & A1 & A2).
  - destruct fuel; [lia|]. cbn. rewrite zlen_nil in A1. replace (off <? te) with false by lia. reflexivity.
  - destruct fuel as [|fuel]; [lia|]. cbn [decrypt_blocks].
    rewrite !zlen_app, zlen_enc_le in A1. pose proof (zlen_nonneg s). pose proof (zlen_nonneg rest).
    assert (Ls : zlen s = zlen b) by (destruct X as (X & _); unfold zlen; lia).
    pose proof (zlen_nonneg b).
    replace (off <? te) with true by lia.
    apply at_split in A. destruct A as (Al & A). rewrite zlen_enc_le in *. apply at_split in A. destruct A as (As & Ar).
    pose proof (at_read_n r 4 _ _ _ Al) as (R & _). change (Z.of_nat 4) with 4 in *.
    unfold read_i32_at. rewrite R. unfold rmap. cbn [rbind].
    fold (zlen b) in *. rewrite (wrap_small (8 * 4)) by (change (8 * 4) with 32; pows; lia).
    rewrite sext_small by (change (32 - 1) with 31; pows; lia).
    rewrite (wrap_small 64 (zlen b)) by (pows; lia). rewrite (wrap_small 64 (off + 4)) by (pows; lia).
    rewrite (wrap_small 64 (off + 4 + zlen b)) by (pows; lia).
    destruct As as (pre & post & E & Ep & Eq). unfold range.
    rewrite E, (slice_app pre s post) by (unfold zlen in *; lia).
    cbn [rbind]. rewrite (IH fuel (off + 4 + zlen b) te).
    + cbn [rbind]. rewrite (xored_unique _ _ _ _ X), xor_ks_twice. reflexivity.
    + rewrite <- Ls. exact Ar.
    + rewrite !app_length, enc_le_length in F. lia.
Qed.

Lemma zlib_start_iff p : has_zlib_header p = true <-> zlib_start (pg_header p).
Proof. unfold has_zlib_header, zlib_start. lia. Qed.

Lemma kept_raw inflate r p cap raw : zlen (rd_buf r) < 2 ^ 63 ->
  kept inflate (rd_buf r) (rd_ks r) (pg_off p) (pg_size p) (pg_header p) cap raw ->
  get_buff_size (png_format p) (pg_w p) (pg_h p) = Ok cap ->
  rbind (range (rd_buf r) (pg_off p) (wrap 64 (pg_off p + pg_size p))) (get_raw_data inflate r p) = Ok raw.
Proof.
  intros Hz (file & A & K) C. destruct (at_range _ _ _ _ A) as (A0 & A1 & A2). pose proof (zlen_nonneg file) as Z0.
  rewrite wrap_small by (pows; lia). destruct A as (pre & post & E & Ep & Eq).
  unfold range. rewrite E, (slice_app pre file post) by (unfold zlen in *; lia). cbn [rbind].
  unfold get_raw_data. rewrite C. cbn [rbind].
  destruct K as [(Z & I)|(N & bs & B & L2 & I)].
  - apply zlib_start_iff in Z. rewrite Z, I. reflexivity.
  - assert (G : (if has_zlib_header p then inflate true file cap else None) = None).
    { destruct (has_zlib_header p) eqn:HZ; [|reflexivity]. apply zlib_start_iff in HZ. tauto. }
    rewrite G. rewrite wrap_small by (pows; lia).
    rewrite (decrypt_blocks_ok r bs file B Hz).
    + cbn [rbind]. unfold range. rewrite slice_firstn by (unfold zlen; lia).
      replace (Z.to_nat (zlen (concat bs) - 2)) with (length (skipn (Z.to_nat 2) (concat bs)))
        by (rewrite skipn_length; unfold zlen; lia).
      rewrite firstn_all. cbn [rbind]. change (Z.to_nat 2) with 2%nat. rewrite I. reflexivity.
    + exists pre, post. auto.
    + rewrite E. rewrite !app_length. lia.
Qed.
