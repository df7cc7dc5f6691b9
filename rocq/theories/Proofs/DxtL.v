(** Blocks of four by four pixels. *)
From Coq Require Import ZArith List Bool Lia ZifyBool ZifyNat.
From Verif.Model Require Import Base Reader Png.
From Verif.Spec Require Import Wire Stream Pixel.
From Verif.Proofs Require Import BaseL AtL PngL.

Lemma field_low a b s lo n : 0 <= lo -> 0 <= n -> lo + n <= s -> field (a + 2 ^ s * b) lo n = field a lo n.
Proof.
  intros. unfold field. replace s with ((s - lo - n) + n + lo) by lia. rewrite !Z.pow_add_r by lia.
  replace (a + 2 ^ (s - lo - n) * 2 ^ n * 2 ^ lo * b) with (a + (2 ^ (s - lo - n) * b * 2 ^ n) * 2 ^ lo) by ring.
  rewrite Z.div_add by (apply Z.pow_nonzero; lia). apply Z.mod_add. apply Z.pow_nonzero; lia.
Qed.
Lemma field_high a b s lo n : 0 <= s -> 0 <= lo -> 0 <= a < 2 ^ s -> field (a + 2 ^ s * b) (s + lo) n = field b lo n.
Proof.
  intros. unfold field. rewrite Z.pow_add_r by lia. rewrite <- Z.div_div by (try apply Z.pow_nonzero; try apply Z.pow_pos_nonneg; lia).
  rewrite Z.mul_comm, Z.div_add by (apply Z.pow_nonzero; lia). rewrite (Z.div_small a) by lia. reflexivity.
Qed.

Lemma num_split raw a b p : num raw p (a + b) = num raw p a + 2 ^ (8 * Z.of_nat a) * num raw (p + Z.of_nat a) b.
Proof.
  revert p. induction a as [|a IH]; intros p.
  - cbn [num Nat.add]. change (8 * Z.of_nat 0) with 0. rewrite Z.add_0_r. ring_simplify. lia.
  - cbn [num Nat.add]. rewrite IH. replace (8 * Z.of_nat (S a)) with (8 * Z.of_nat a + 8) by lia.
    rewrite Z.pow_add_r by lia. change (2 ^ 8) with 256.
    replace (p + Z.of_nat (S a)) with (p + 1 + Z.of_nat a) by lia. ring.
Qed.

Lemma num_1 raw p : num raw p 1 = byte_at raw p.
Proof. cbn [num]. lia. Qed.

(** A field within byte [j]. *)
Lemma field_byte raw p n j lo m : bytes raw -> (j < n)%nat -> 0 <= lo -> 0 <= m -> lo + m <= 8 ->
  field (num raw p n) (8 * Z.of_nat j + lo) m = field (byte_at raw (p + Z.of_nat j)) lo m.
Proof.
  intros Hb Hj H0 H1 H2. replace n with (j + (1 + (n - j - 1)))%nat by lia. rewrite num_split, field_high.
  - rewrite num_split, field_low, num_1 by lia. reflexivity.
  - lia.
  - lia.
  - pose proof (num_range raw j p Hb) as R. rewrite Z.pow_mul_r by lia. exact R.
Qed.

Lemma x5_range v : 0 <= v < 32 -> 0 <= x5 v < 256.
Proof. unfold x5. dlia. Qed.
Lemma x6_range v : 0 <= v < 64 -> 0 <= x6 v < 256.
Proof. unfold x6. dlia. Qed.

Lemma color_table_spec c0 c1 : color_table c0 c1 = by_order c0 c1.
Proof.
  unfold color_table, by_order, four_colors, three_colors, mix. rewrite !rgb565_px. unfold px_565.
  pose proof (x5_range _ (field_range c0 11 5 ltac:(lia))). pose proof (x6_range _ (field_range c0 5 6 ltac:(lia))).
  pose proof (x5_range _ (field_range c0 0 5 ltac:(lia))).
  pose proof (x5_range _ (field_range c1 11 5 ltac:(lia))). pose proof (x6_range _ (field_range c1 5 6 ltac:(lia))).
  pose proof (x5_range _ (field_range c1 0 5 ltac:(lia))).
  cbn [map combine fst snd nth].
  rewrite !wrap_small by (change (2 ^ 8) with 256; dlia).
  destruct (c1 <? c0); repeat (f_equal; try lia).
Qed.

Lemma alpha_table5_spec a0 a1 i : 0 <= a0 < 256 -> 0 <= a1 < 256 -> 0 <= i < 8 ->
  nth (Z.to_nat i) (alpha_table5 a0 a1) 0 = alphas a0 a1 i.
Proof.
  intros H0 H1 Hi. unfold alpha_table5, alphas.
  assert (C : i = 0 \/ i = 1 \/ i = 2 \/ i = 3 \/ i = 4 \/ i = 5 \/ i = 6 \/ i = 7) by lia.
  destruct (a1 <? a0) eqn:L; cbn [map app];
  repeat destruct C as [->|C]; try subst i;
  match goal with |- nth (Z.to_nat ?k) _ _ = _ => let v := eval vm_compute in (Z.to_nat k) in change (Z.to_nat k) with v end;
  cbn [nth Z.eqb Pos.eqb Z.ltb Z.compare Pos.compare Pos.compare_cont];
  rewrite ?wrap_small by (change (2 ^ 8) with 256; dlia); reflexivity.
Qed.

Lemma color_idx_spec b0 b1 b2 b3 :
  let raw := [b0; b1; b2; b3] in bytes raw ->
  color_idx_table raw = map (fun k => field (num raw 0 4) (2 * k) 2) (upto 16).
Proof.
  intros raw Hb. unfold color_idx_table, raw at 1. cbn [flat_map app].
  assert (M : forall c, [Z.land c 3; Z.shiftr (Z.land c 12) 2; Z.shiftr (Z.land c 48) 4; Z.shiftr (Z.land c 192) 6]
    = [field c 0 2; field c 2 2; field c 4 2; field c 6 2]).
  { intros c. rewrite (mask_low c 3 2), (mask_shift c 12 2 2), (mask_shift c 48 4 2), (mask_shift c 192 6 2)
      by (reflexivity || lia). reflexivity. }
  assert (E : forall c, Z.land c 3 = field c 0 2 /\ Z.shiftr (Z.land c 12) 2 = field c 2 2 /\
     Z.shiftr (Z.land c 48) 4 = field c 4 2 /\ Z.shiftr (Z.land c 192) 6 = field c 6 2).
  { intros c. specialize (M c). injection M as ? ? ? ?. auto. }
  destruct (E b0) as (-> & -> & -> & ->), (E b1) as (-> & -> & -> & ->), (E b2) as (-> & -> & -> & ->),
    (E b3) as (-> & -> & -> & ->). clear E M.
  change (upto 16) with [0; 1; 2; 3; 4; 5; 6; 7; 8; 9; 10; 11; 12; 13; 14; 15]. cbn [map].
  assert (F : forall j lo, (j < 4)%nat -> 0 <= lo -> lo + 2 <= 8 ->
     field (num raw 0 4) (8 * Z.of_nat j + lo) 2 = field (byte_at raw (Z.of_nat j)) lo 2)
    by (intros; rewrite field_byte by (assumption || lia); reflexivity).
  pose proof (F 0%nat 0 ltac:(lia) ltac:(lia) ltac:(lia)). pose proof (F 0%nat 2 ltac:(lia) ltac:(lia) ltac:(lia)).
  pose proof (F 0%nat 4 ltac:(lia) ltac:(lia) ltac:(lia)). pose proof (F 0%nat 6 ltac:(lia) ltac:(lia) ltac:(lia)).
  pose proof (F 1%nat 0 ltac:(lia) ltac:(lia) ltac:(lia)). pose proof (F 1%nat 2 ltac:(lia) ltac:(lia) ltac:(lia)).
  pose proof (F 1%nat 4 ltac:(lia) ltac:(lia) ltac:(lia)). pose proof (F 1%nat 6 ltac:(lia) ltac:(lia) ltac:(lia)).
  pose proof (F 2%nat 0 ltac:(lia) ltac:(lia) ltac:(lia)). pose proof (F 2%nat 2 ltac:(lia) ltac:(lia) ltac:(lia)).
  pose proof (F 2%nat 4 ltac:(lia) ltac:(lia) ltac:(lia)). pose proof (F 2%nat 6 ltac:(lia) ltac:(lia) ltac:(lia)).
  pose proof (F 3%nat 0 ltac:(lia) ltac:(lia) ltac:(lia)). pose proof (F 3%nat 2 ltac:(lia) ltac:(lia) ltac:(lia)).
  pose proof (F 3%nat 4 ltac:(lia) ltac:(lia) ltac:(lia)). pose proof (F 3%nat 6 ltac:(lia) ltac:(lia) ltac:(lia)).
  repeat match goal with |- _ :: _ = _ :: _ => f_equal end; symmetry; assumption.
Qed.

Lemma alpha3_spec raw : length raw = 8%nat -> bytes raw ->
  alpha_table3 raw = map (fun k => x4 (field (num raw 0 8) (4 * k) 4)) (upto 16).
Proof.
  intros L Hb. unfold alpha_table3.
  assert (F : forall j lo, (j < 8)%nat -> 0 <= lo -> lo + 4 <= 8 ->
     field (num raw 0 8) (8 * Z.of_nat j + lo) 4 = field (nth j raw 0) lo 4).
  { intros. rewrite field_byte by (assumption || lia). unfold byte_at. do 3 f_equal. lia. }
  assert (Fl : forall j, (j < 8)%nat -> field (num raw 0 8) (8 * Z.of_nat j) 4 = Z.land (nth j raw 0) 15).
  { intros. rewrite (mask_low _ 15 4) by (reflexivity || lia). rewrite <- (Z.add_0_r (8 * _)). apply F; lia. }
  assert (Fh : forall j, (j < 8)%nat -> field (num raw 0 8) (8 * Z.of_nat j + 4) 4 = Z.shiftr (Z.land (nth j raw 0) 240) 4).
  { intros. rewrite (mask_shift _ 240 4 4) by (reflexivity || lia). apply F; lia. }
  rewrite (map_ext_in (fun k => x4 _) (fun k => Z.lor (field (num raw 0 8) (4 * k) 4)
      (wrap 8 (Z.shiftl (field (num raw 0 8) (4 * k) 4) 4)))) by (intros; rewrite rep4; [reflexivity|apply field_range; lia]).
  rewrite <- (map_map (fun k => field (num raw 0 8) (4 * k) 4) (fun a => Z.lor a (wrap 8 (Z.shiftl a 4)))).
  f_equal. set (N := num raw 0 8) in *.
  change (upto 16) with [0; 1; 2; 3; 4; 5; 6; 7; 8; 9; 10; 11; 12; 13; 14; 15]. cbn [map].
  pose proof (Fl 0%nat ltac:(lia)). pose proof (Fl 1%nat ltac:(lia)). pose proof (Fl 2%nat ltac:(lia)). pose proof (Fl 3%nat ltac:(lia)).
  pose proof (Fl 4%nat ltac:(lia)). pose proof (Fl 5%nat ltac:(lia)). pose proof (Fl 6%nat ltac:(lia)). pose proof (Fl 7%nat ltac:(lia)).
  pose proof (Fh 0%nat ltac:(lia)). pose proof (Fh 1%nat ltac:(lia)). pose proof (Fh 2%nat ltac:(lia)). pose proof (Fh 3%nat ltac:(lia)).
  pose proof (Fh 4%nat ltac:(lia)). pose proof (Fh 5%nat ltac:(lia)). pose proof (Fh 6%nat ltac:(lia)). pose proof (Fh 7%nat ltac:(lia)).
  clear F Fl Fh. clearbody N.
  do 8 (destruct raw as [|? raw]; [discriminate|]). destruct raw; [|discriminate].
  cbn [flat_map app]. cbn [nth] in *.
  repeat match goal with |- _ :: _ = _ :: _ => f_equal end; symmetry; assumption.
Qed.

Lemma lor_add a b s : 0 <= s -> 0 <= a < 2 ^ s -> Z.lor a (Z.shiftl b s) = a + 2 ^ s * b.
Proof.
  intros Hs H. rewrite Z.shiftl_mul_pow2 by lia. rewrite (Z.mul_comm b).
  assert (N : Z.land a (2 ^ s * b) = 0).
  { apply Z.bits_inj'. intros n Hn. rewrite Z.land_spec, Z.bits_0. rewrite Z.mul_comm.
    destruct (Z_lt_dec n s) as [L|L].
    - rewrite Z.mul_pow2_bits_low by lia. apply andb_false_r.
    - rewrite <- (Z.mod_small a (2 ^ s)) by lia. rewrite Z.mod_pow2_bits_high by lia. reflexivity. }
  rewrite <- Z.lxor_lor by exact N. symmetry. apply Z.add_nocarry_lxor. exact N.
Qed.

Lemma alpha_group_spec b0 b1 b2 : 0 <= b0 < 256 -> 0 <= b1 < 256 -> 0 <= b2 < 256 ->
  alpha_idx_group b0 b1 b2 = map (fun k => field (b0 + 256 * (b1 + 256 * b2)) (3 * k) 3) (upto 8).
Proof.
  intros H0 H1 H2. unfold alpha_idx_group. rewrite (lor_add b0 b1 8) by (cbn; lia).
  rewrite (lor_add _ b2 16) by (change (2 ^ 8) with 256; change (2 ^ 16) with 65536; lia).
  change (2 ^ 8) with 256; change (2 ^ 16) with 65536.
  replace (b0 + 256 * b1 + 65536 * b2) with (b0 + 256 * (b1 + 256 * b2)) by lia.
  change (upto 8) with [0; 1; 2; 3; 4; 5; 6; 7]. apply map_ext_in. intros j Hj.
  assert (R : 0 <= j < 8) by (cbn in Hj; lia).
  rewrite (mask_shift _ _ (3 * j) 3); [|lia|lia|].
  - apply wrap_small. pose proof (field_range (b0 + 256 * (b1 + 256 * b2)) (3 * j) 3 ltac:(lia)) as F. cbn in F |- *. lia.
  - change (Z.ones 3) with 7. clear - Hj. cbn in Hj. repeat destruct Hj as [<-|Hj]; try reflexivity. destruct Hj.
Qed.

Lemma alpha5_idx_spec raw : length raw = 6%nat -> bytes raw ->
  match raw with
  | [b0; b1; b2; b3; b4; b5] => alpha_idx_group b0 b1 b2 ++ alpha_idx_group b3 b4 b5
  | _ => []
  end = map (fun k => field (num raw 0 6) (3 * k) 3) (upto 16).
Proof.
  intros L Hb.
  assert (S6 : num raw 0 6 = num raw 0 3 + 2 ^ 24 * num raw 3 3) by exact (num_split raw 3 3 0).
  assert (R3 : 0 <= num raw 0 3 < 2 ^ 24) by exact (num_range raw 3 0 Hb).
  assert (A : map (fun k => field (num raw 0 6) (3 * k) 3) (upto 16) =
     map (fun k => field (num raw 0 3) (3 * k) 3) (upto 8) ++ map (fun k => field (num raw 3 3) (3 * k) 3) (upto 8)).
  { change (upto 16) with (upto 8 ++ map (fun k => 8 + k) (upto 8)). rewrite map_app, map_map. f_equal; apply map_ext_in;
    intros k Hk; apply in_upto in Hk; rewrite S6.
    - apply field_low; lia.
    - replace (3 * (8 + k)) with (24 + 3 * k) by lia. apply field_high; lia. }
  rewrite A. clear A S6 R3.
  do 6 (destruct raw as [|? raw]; [discriminate|]). destruct raw; [|discriminate].
  unfold bytes in Hb. repeat match goal with H : Forall _ (_ :: _) |- _ => inversion H; clear H; subst end.
  unfold byte in *. rewrite !alpha_group_spec by assumption.
  f_equal; apply map_ext; intros k; f_equal; cbn [num]; rewrite Z.mul_0_r, Z.add_0_r; reflexivity.
Qed.

Lemma combine_map {A B C D} (f : A -> B) (g : A -> C) (m : B * C -> D) l :
  map m (combine (map f l) (map g l)) = map (fun a => m (f a, g a)) l.
Proof. induction l; cbn; congruence. Qed.

Lemma bytes_skipn n l : bytes l -> bytes (skipn n l).
Proof. intros H. rewrite <- (firstn_skipn n l) in H. apply bytes_app in H. tauto. Qed.
Lemma bytes_firstn n l : bytes l -> bytes (firstn n l).
Proof. intros H. rewrite <- (firstn_skipn n l) in H. apply bytes_app in H. tauto. Qed.

Lemma byte_at_sub raw a n p : (Z.to_nat p < n)%nat -> 0 <= p -> 0 <= a ->
  byte_at (firstn n (skipn (Z.to_nat a) raw)) p = byte_at raw (a + p).
Proof.
  intros H H0 H1. unfold byte_at.
  assert (G : forall (l : list Z) i n, (i < n)%nat -> nth i (firstn n l) 0 = nth i l 0).
  { clear. induction l as [|x l IH]; intros [|i] [|n] L; cbn; try lia; auto. apply IH. lia. }
  rewrite G by assumption.
  assert (K : forall (l : list Z) i n, nth i (skipn n l) 0 = nth (n + i) l 0).
  { clear. induction l as [|x l IH]; intros i [|n]; cbn; auto; destruct i; auto. }
  rewrite K. f_equal. lia.
Qed.
Lemma num_sub raw a n k p : 0 <= p -> 0 <= a -> p + Z.of_nat k <= Z.of_nat n ->
  num (firstn n (skipn (Z.to_nat a) raw)) p k = num raw (a + p) k.
Proof.
  revert p. induction k as [|k IH]; intros p H0 H1 H; [reflexivity|].
  cbn [num]. rewrite byte_at_sub by lia. rewrite IH by lia. f_equal. f_equal. f_equal. lia.
Qed.

Lemma dxt_px_sub pal alpha raw p k : 0 <= p ->
  (forall q, alpha (firstn 16 (skipn (Z.to_nat p) raw)) 0 q = alpha raw p q) ->
  dxt_px pal alpha (firstn 16 (skipn (Z.to_nat p) raw)) 0 k = dxt_px pal alpha raw p k.
Proof.
  intros Hp H. unfold dxt_px, dxt_color. rewrite H. rewrite !num_sub by lia. reflexivity.
Qed.
Lemma dxt3_alpha_sub raw p q : 0 <= p -> dxt3_alpha (firstn 16 (skipn (Z.to_nat p) raw)) 0 q = dxt3_alpha raw p q.
Proof. intros. unfold dxt3_alpha. rewrite num_sub by lia. rewrite Z.add_0_r. reflexivity. Qed.
Lemma dxt5_alpha_sub raw p q : 0 <= p -> dxt5_alpha (firstn 16 (skipn (Z.to_nat p) raw)) 0 q = dxt5_alpha raw p q.
Proof. intros. unfold dxt5_alpha. rewrite num_sub, !byte_at_sub by lia. rewrite Z.add_0_r. reflexivity. Qed.

Lemma block_colors_spec c : length c = 16%nat -> bytes c ->
  block_colors c (num c 8 2) (num c 10 2) = map (dxt_color by_order c 0) (upto 16).
Proof.
  intros L Hb. unfold block_colors. rewrite color_table_spec.
  assert (E : exists b0 b1 b2 b3, skipn 12 c = [b0; b1; b2; b3]).
  { do 16 (destruct c as [|? c]; [discriminate|]). destruct c; [|discriminate]. cbn. repeat eexists. }
  destruct E as (b0 & b1 & b2 & b3 & E). rewrite E.
  rewrite color_idx_spec by (rewrite <- E; apply bytes_skipn; exact Hb). rewrite <- E, map_map.
  apply map_ext. intros k. unfold dxt_color. do 2 f_equal.
  pose proof (num_sub c 12 4 4 0 ltac:(lia) ltac:(lia) ltac:(lia)) as N.
  change (Z.to_nat 12) with 12%nat in N. rewrite E in N. cbn [firstn] in N. rewrite E, N. reflexivity.
Qed.

Lemma dxt3_block_spec c : length c = 16%nat -> bytes c ->
  dxt3_block c = Ok (map (dxt_px by_order dxt3_alpha c 0) (upto 16)).
Proof.
  intros L Hb. assert (Lz : zlen c = 16) by (unfold zlen; lia). unfold dxt3_block. rewrite Lz. cbn [Z.ltb Z.compare Pos.compare Pos.compare_cont].
  rewrite !read_u16_num by lia. cbn [rbind]. rewrite block_colors_spec, alpha3_spec.
  - rewrite combine_map. f_equal. apply map_ext. intros k. cbn [fst snd]. unfold dxt_px, dxt3_alpha.
    pose proof (num_sub c 0 8 8 0 ltac:(lia) ltac:(lia) ltac:(lia)) as N. cbn [skipn Z.to_nat] in N. rewrite N. reflexivity.
  - rewrite firstn_length. lia.
  - apply bytes_firstn. exact Hb.
  - exact L.
  - exact Hb.
Qed.

Lemma dxt5_block_spec c : length c = 16%nat -> bytes c ->
  dxt5_block c = Ok (map (dxt_px by_order dxt5_alpha c 0) (upto 16)).
Proof.
  intros L Hb. assert (Lz : zlen c = 16) by (unfold zlen; lia).
  assert (E : exists a0 a1 b0 b1 b2 b3 b4 b5 r, c = a0 :: a1 :: b0 :: b1 :: b2 :: b3 :: b4 :: b5 :: r).
  { do 16 (destruct c as [|? c]; [discriminate|]). repeat eexists. }
  destruct E as (a0 & a1 & b0 & b1 & b2 & b3 & b4 & b5 & r & E).
  unfold dxt5_block. rewrite E. rewrite <- E. rewrite Lz. cbn [Z.ltb Z.compare Pos.compare Pos.compare_cont].
  rewrite !read_u16_num by lia. cbn [rbind]. rewrite block_colors_spec by assumption.
  assert (S6 : firstn 6 (skipn 2 c) = [b0; b1; b2; b3; b4; b5]) by (rewrite E; reflexivity).
  pose proof (alpha5_idx_spec (firstn 6 (skipn 2 c))) as A. rewrite S6 in A at 3.
  rewrite A; [|rewrite firstn_length, skipn_length; lia|apply bytes_firstn, bytes_skipn; exact Hb].
  rewrite map_map, combine_map. f_equal. apply map_ext. intros k. cbn [fst snd]. unfold dxt_px, dxt5_alpha.
  pose proof (num_sub c 2 6 6 0 ltac:(lia) ltac:(lia) ltac:(lia)) as N. change (Z.to_nat 2) with 2%nat in N. rewrite N.
  assert (B0 : byte_at c 0 = a0) by (rewrite E; reflexivity).
  assert (B1 : byte_at c (0 + 1) = a1) by (rewrite E; reflexivity).
  rewrite B0, B1. rewrite alpha_table5_spec; [reflexivity| | |].
  - rewrite <- B0. apply byte_at_range; exact Hb.
  - rewrite <- B1. apply byte_at_range; exact Hb.
  - apply (field_range _ _ 3). lia.
Qed.
