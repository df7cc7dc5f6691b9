(** Package-2 directory listings. *)
From Coq Require Import ZArith List Bool Lia ZifyBool ZifyNat.
From Verif.Model Require Import Base Utf Keys Reader WzStr Header Offset VersionPkg1 Image Directory.
From Verif.Spec Require Import Wire Stream StrWire Version PropWire DirWire DirView DirWire2.
From Verif.Proofs Require Import BaseL WireL ReaderL StringL StrWireL VersionL Pkg1L AtL ImageL ParseL ScanL DirL.
From Verif.Props Require Import P_Offset.
Ltac Zify.zify_post_hook ::= idtac.

Scheme laid_dir2_mut := Minimality for laid_dir2 Sort Prop
with laid_offs_mut := Minimality for laid_offs Sort Prop.
Combined Scheme laid_dirs2_mut from laid_dir2_mut, laid_offs_mut.

Lemma off_calc_low v fstart h1 hash enc pos :
  off_calc v fstart h1 hash enc pos = off_calc v fstart (h1 mod 2 ^ 32) (hash mod 2 ^ 32) enc pos.
Proof.
  assert (W : forall x, wrap 32 (x mod 2 ^ 32) = wrap 32 x) by (intro; unfold wrap; apply Z.mod_mod; lia).
  destruct v; cbn [off_calc]; unfold off_pkg1, off_pkg2_v1, off_pkg2_v2, off_pkg2_v3, off_pkg2_64; rewrite ?W; reflexivity.
Qed.

Lemma scheme_det v h1 h m k d m' k' d' : scheme v h1 h m k d -> scheme v h1 h m' k' d' -> m = m' /\ k = k' /\ d = d'.
Proof. destruct v; cbn [scheme]; try tauto; cbv zeta; intros (-> & -> & ->) (-> & -> & ->); auto. Qed.

Lemma pkg2_off v fstart h1 hash pos enc off : u32 fstart -> u32 enc -> pkg2_offset v fstart h1 hash pos enc off ->
  off_calc v fstart h1 hash enc pos = off.
Proof.
  intros Hf He (m & k & d & x & Sc & R & ->). rewrite off_calc_low.
  assert (V : v <> OPkg1) by (intros ->; exact Sc).
  destruct (C08_pkg2_formula v fstart (h1 mod 2 ^ 32) (hash mod 2 ^ 32) enc pos V Hf (u32_mod _) (u32_mod _) He)
    as (m' & k' & d' & x' & Sc' & R' & E).
  assert (Sc2 : scheme v (h1 mod 2 ^ 32) (hash mod 2 ^ 32) m' k' d') by (destruct v; try exact Sc'; congruence).
  destruct (scheme_det _ _ _ _ _ _ _ _ _ Sc Sc2) as (-> & -> & ->).
  rewrite E. f_equal. f_equal. f_equal. eapply rotated_det; [exact R'|exact R].
Qed.

Section dirs.
  Variable r : rd.
  Variable h : header.
  Variable p2 : bool.
  Variable hash : Z.
  Variable v : offv.
  Hypothesis Hs : zlen (rd_buf r) < 2 ^ 31.
  Hypothesis Hk : forall j, byte (rd_ks r j).
  Hypothesis Hpk : forall j, byte (rd_pks r j).
  Hypothesis Hv2 : hd_ident h = IV2.
  Hypothesis Hf : u32 (hd_fstart h).
  Hypothesis Hh1 : u64 (hd_hash1 h).
  Hypothesis Hh : u64 hash.

  Let buf := rd_buf r.
  Let ks := rd_ks r.
  Let pks := rd_pks r.
  Let fstart := hd_fstart h.
  Let wide := is_pkg2_64 h.

  Lemma at_name first p q name : name_at buf ks pks wide p2 first p q name ->
    exists m, get_string r m = Ok name /\ 0 <= p <= q /\ q <= zlen buf /\
      (if first && p2
       then if is_pkg2_64 h then read_pkg2_u64_dir_meta r else read_pkg2_dir_meta r
       else read_wz_string_meta r) p = (Ok m, q).
  Proof.
    intros [F U A | F U W L A | F U W L A]; rewrite F; pose proof (at_range _ _ _ _ A) as (R0 & R1 & R2).
    - destruct (at_string r Hs Hk _ _ _ U A) as [_ (m & M & G)]. pose proof (zlen_nonneg (enc_str ks name)).
      exists m. split; [exact G|]. split; [lia|]. split; [lia|]. exact M.
    - unfold wide in W. rewrite W. destruct A as (pre & post & E & -> & ->).
      destruct (read_pkg2_name r pre post name U Hpk L ltac:(pows; lia) E) as (M & G & _).
      eexists. split; [exact G|]. split; [lia|]. split; [lia|]. exact M.
    - unfold wide in W. rewrite W. set (n := Z.of_nat (length (units16 name))) in *.
      apply at_split in A as [A1 A2]. rewrite zlen_enc_le in *. change (Z.of_nat 2) with 2 in *.
      destruct (at_i16 r Hs _ _ (- n) ltac:(pows; lia) A1) as [E1 _].
      pose proof (at_range _ _ _ _ A2) as (B0 & B1 & B2).
      assert (L2 : zlen (body_pkg2 pks (units16 name)) = 2 * n) by (unfold zlen; rewrite body_pkg2_length; lia).
      exists (mkMeta (p + 2) (2 * n) SPkg2Dir). split; [|split; [lia|split; [lia|]]].
      + unfold get_string. cbn [sm_type sm_off sm_len resolve_meta].
        unfold resolve_pkg2_dir_raw, get_pkg2_decrypt_slice. fold buf in Hs. rewrite (wrap_small 64) by (pows; lia).
        destruct A2 as (pre & post & E & P & Q). fold buf. rewrite P.
        change (Z.of_nat (length pre)) with (zlen pre). rewrite <- L2, E, slice_mid. cbn [rbind].
        unfold pks. rewrite xor_ks_body_pkg2; [|assumption|apply utf16_enc_units, unicode_scalars, U].
        rewrite chunks_le2 by (apply utf16_enc_units, unicode_scalars, U).
        unfold rmap, rbind. rewrite units16_eq, utf16_roundtrip; [reflexivity|apply unicode_scalars, U].
      + unfold read_pkg2_u64_dir_meta. step E1. replace (0 <=? - n) with false by lia.
        assert (W2 : wrap 64 (wrap 64 (sext 16 (- - n)) * 2) = 2 * n).
        { rewrite sext_small by (cbn; lia). rewrite !(wrap_small 64) by (rewrite ?wrap_small; pows; lia). lia. }
        rewrite W2, bind_pos.
        assert (K : skip (2 * n) (p + 2) = (Ok tt, q)).
        { fold buf in Hs. rewrite skip_ok by (pows; lia). f_equal. lia. }
        step K. unfold ret. rewrite wrap_small by (pows; lia). reflexivity.
  Qed.

  Lemma name_pos first p q name : name_at buf ks pks wide p2 first p q name -> 0 <= p <= q /\ q <= zlen buf.
  Proof. intro H. destruct (at_name _ _ _ _ H) as (m & _ & A & B & _). auto. Qed.

  (** The entry [e] carries name, type and size of the child [c]. *)
  Definition carries (e : dirent) (c : list Z * dtree) : Prop :=
    get_string r (en_name e) = Ok (fst c) /\ en_type e = dtype_of (t_byte (snd c)) /\
    en_size e = t_size (snd c) /\ 0 <= t_size (snd c) < 2 ^ 31.

  Lemma entry2_ok count first p a b c checksum name t :
    at_ buf p (p + 1) [t_byte t] -> name_at buf ks pks wide p2 first (p + 1) a name ->
    0 <= t_size t -> int_at buf a b (t_size t) -> int_at buf b c checksum ->
    exists e, carries e (name, t) /\ read_pkg2_entry r h p2 count first p = (Ok e, c).
  Proof.
    intros A N S0 I1 I2. destruct (at_name _ _ _ _ N) as (m & G & _ & _ & M).
    assert (Tb : 0 <= t_byte t < 256) by (destruct t; cbn; lia).
    destruct (at_u8 r Hs _ _ _ Tb A) as [E _]. pose proof I1 as [B1 _].
    exists (mkEnt m (dtype_of (t_byte t)) (t_size t) 0 0). split.
    { unfold carries. cbn [en_name en_type en_size fst snd]. repeat split; auto. lia. }
    assert (X : (do nm <- (if first && p2
                then if is_pkg2_64 h then read_pkg2_u64_dir_meta r else read_pkg2_dir_meta r
                else read_wz_string_meta r);
      do size <- read_wz_int r;
      do checksum <- read_wz_int r;
      ret (mkEnt nm (dtype_of (t_byte t)) (wrap 64 size) 0 0))%rd (p + 1) = (Ok (mkEnt m (dtype_of (t_byte t)) (t_size t) 0 0), c)).
    { step M. step (at_wzint r Hs _ _ _ I1). step (at_wzint r Hs _ _ _ I2).
      unfold ret. rewrite wrap_small by (pows; lia). reflexivity. }
    unfold read_pkg2_entry. step E. destruct t; exact X.
  Qed.

  Lemma terminator n first p q : int_at buf p q n -> ~ 1 <= n <= 4 ->
    read_pkg2_entry r h p2 n first p = (Ok (mkEnt meta_empty DUnknown 0 0 0), p).
  Proof.
    intros I Hn. pose proof (at_wzint r Hs _ _ _ I) as RI. pose proof I as [B A].
    assert (X : exists b, 0 <= b < 256 /\ at_ buf p (p + 1) [b] /\ dtype_of b = DNew b).
    { unfold enc_wzint in A. destruct ((-127 <=? n) && (n <=? 127)) eqn:K.
      - exists (n mod 256). assert (0 <= n mod 256 < 256) by (apply Z.mod_pos_bound; lia).
        split; [assumption|]. split.
        + assert (L1 : enc_le 1 n = [n mod 256]) by (cbv [enc_le map seq]; rewrite ?Z.mul_0_r, ?Z.pow_0_r, ?Z.div_1_r; reflexivity). rewrite L1 in A. pose proof (at_range _ _ _ _ A) as (_ & Q & _). rewrite zlen_cons, zlen_nil in Q. replace (p + 1) with q by lia. exact A.
        + assert (M : ~ 1 <= n mod 256 <= 4) by dlia. unfold dtype_of.
          replace (n mod 256 =? 1) with false by lia. replace (n mod 256 =? 2) with false by lia.
          replace (n mod 256 =? 3) with false by lia. replace (n mod 256 =? 4) with false by lia. reflexivity.
      - exists 128. split; [lia|]. split; [|reflexivity]. apply at_cons in A as [A _]. exact A. }
    destruct X as (b & Hb & Ab & Db). destruct (at_u8 r Hs _ _ _ Hb Ab) as [E _].
    pose proof (at_range _ _ _ _ Ab) as (R0 & _ & R2). fold buf in Hs.
    unfold read_pkg2_entry. step E. rewrite Db, bind_pos.
    replace (wrap 64 (p + 1 - 1)) with p by (rewrite wrap_small; pows; lia).
    assert (SK : seek p (p + 1) = (Ok tt, p)) by reflexivity. step SK. step RI. rewrite Z.eqb_refl.
    unfold bind, seek, ret. reflexivity.
  Qed.

  Lemma heads_ok first p q kids : laid_heads buf ks pks wide p2 first p q kids ->
    exists es, Forall2 carries es kids /\
      (forall count, entries64 r h p2 (length kids) count first p = (Ok es, q)) /\
      (forall n c f, int_at buf q c n -> ~ 1 <= n <= 4 -> (length kids < f)%nat ->
         entries2 r h p2 f n first p = (Ok es, q)).
  Proof.
    induction 1 as [first p | first p a b c q checksum name t kids A N S0 I1 I2 _ (es & F & E64 & E2)].
    - exists []. split; [constructor|]. split; [reflexivity|]. intros n c f I Hn Hfu.
      destruct f as [|k]; [cbn in Hfu; lia|]. cbn [entries2]. step (terminator n first _ _ I Hn). reflexivity.
    - destruct (entry2_ok 0 first _ _ _ _ _ _ _ A N S0 I1 I2) as (e0 & C0 & _).
      assert (Ex : exists e, carries e (name, t) /\ forall count, read_pkg2_entry r h p2 count first p = (Ok e, c)).
      { clear e0 C0. destruct (entry2_ok 0 first _ _ _ _ _ _ _ A N S0 I1 I2) as (e & Ce & Re). exists e. split; [exact Ce|].
        intro count. assert (Tb : 0 <= t_byte t < 256) by (destruct t; cbn; lia).
        destruct (at_u8 r Hs _ _ _ Tb A) as [E _].
        unfold read_pkg2_entry in *. rewrite (bind_ok _ _ _ _ _ E) in Re. step E. destruct t; exact Re. }
      destruct Ex as (e & Ce & Re). exists (e :: es). split; [constructor; assumption|]. split.
      + intro count. cbn [length entries64]. step (Re count). destruct Ce as (_ & Ty & _). cbn [snd] in Ty. rewrite Ty.
        destruct t; cbn [t_byte dtype_of Z.eqb Pos.eqb]; step (E64 count); reflexivity.
      + intros n c' f I Hn Hfu. destruct f as [|k]; [cbn in Hfu; lia|]. cbn [entries2]. step (Re n).
        destruct Ce as (_ & Ty & _). cbn [snd] in Ty. rewrite Ty.
        specialize (E2 n c' k I Hn ltac:(cbn in Hfu; lia)). destruct t; cbn [t_byte dtype_of Z.eqb Pos.eqb]; step E2; reflexivity.
  Qed.

  Let res2 := resolve_children r h p2 v hash.

  Lemma count_ok off : starts_with_count buf wide off ->
    exists n, 0 <= n /\ (if is_pkg2_64 h then fst (read_wz_int64 r off) else fst (read_wz_int r off)) = Ok n.
  Proof.
    intros (e & c & C0 & H). exists c. split; [exact C0|]. unfold wide in H. destruct (is_pkg2_64 h).
    - destruct H as [C1 A]. rewrite (at_wzint64 r Hs off e c); [reflexivity|pows; lia|exact A].
    - rewrite (at_wzint r Hs _ _ _ H). reflexivity.
  Qed.

  Let PD (off : Z) (kids : list (list Z * dtree)) : Prop := exists f0 kids',
    shows_trees kids' kids /\
    forall size f, size <> 0 -> (f0 <= f)%nat ->
      res2 f (dir_new off size) = (Ok kids', mkDir off size false Verified []).
  Let PS (p q : Z) (kids : list (list Z * dtree)) : Prop := exists f0 kids',
    shows_trees kids' kids /\
    forall es, Forall2 carries es kids -> exists es' nodes,
      fill_offsets r es p = (Ok es', q) /\
      verify_all r h v hash es' = true /\ entry_nodes r h v hash es' = Ok nodes /\
      forall f, (f0 <= f)%nat -> descend (res2 f) nodes = Ok kids'.

  Lemma off_pos pos enc off : u32 enc -> pkg2_offset v fstart (hd_hash1 h) hash pos enc off ->
    off_calc v fstart (hd_hash1 h) hash enc pos = off /\ 0 <= off.
  Proof.
    intros He O. pose proof (pkg2_off _ _ _ _ _ _ _ Hf He O) as E. split; [exact E|].
    destruct O as (m & k & d & x & _ & _ & ->). apply Z.mod_pos_bound. lia.
  Qed.

  Lemma laid_dirs2_ok :
    (forall off kids, laid_dir2 buf ks pks wide p2 fstart (hd_hash1 h) hash v true off kids -> PD off kids) /\
    (forall p q kids, laid_offs buf ks pks wide p2 fstart (hd_hash1 h) hash v true p q kids -> PS p q kids).
  Proof.
    apply laid_dirs2_mut.
    - intros off a b c q n kids W NE Hn I1 LH I2 _ (f0 & kids' & Sh & X). specialize (NE eq_refl). specialize (Hn eq_refl).
      destruct (heads_ok _ _ _ _ LH) as (es & F & _ & E2).
      destruct (X es F) as (es' & nodes & FO & V & EN & D).
      exists (S (max f0 (length kids))), kids'. split; [exact Sh|]. intros size f Hsz Hfu.
      destruct f as [|k]; [lia|]. unfold res2. cbn [resolve_children]. cbn [dir_new di_size].
      replace (size =? 0) with false by lia. unfold prepare. cbn [dir_new di_status di_off di_size di_parsed].
      unfold read_entries. rewrite Hv2. fold wide. rewrite W. unfold resolve_pkg2. step (at_wzint r Hs _ _ _ I1).
      step (E2 n c (S k) I2 Hn ltac:(lia)). step (at_wzint r Hs _ _ _ I2). rewrite Z.eqb_refl. cbn [negb orb].
      destruct es as [|e0 es0]; [inversion F; subst; congruence|]. rewrite FO. cbn [fst di_entries].
      rewrite V, EN. cbn [rbind]. fold res2. rewrite (D k ltac:(lia)). reflexivity.
    - intros off a b q n low kids W Hv L Hl Hn E A LH _ (f0 & kids' & Sh & X).
      destruct (heads_ok _ _ _ _ LH) as (es & F & E64 & _).
      destruct (X es F) as (es' & nodes & FO & V & EN & D).
      exists (S f0), kids'. split; [exact Sh|]. intros size f Hsz Hfu.
      destruct f as [|k]; [lia|]. unfold res2. cbn [resolve_children]. cbn [dir_new di_size].
      replace (size =? 0) with false by lia. unfold prepare. cbn [dir_new di_status di_off di_size di_parsed].
      assert (RE : read_entries r h p2 v hash (S k) off = Ok es').
      { unfold read_entries. rewrite Hv2. fold wide. rewrite W, Hv. unfold resolve_pkg2_64.
        step (at_wzint64 r Hs _ _ _ Hn A).
        assert (EC : entry_count_64 (hd_hash1 h) hash n = Ok (Z.of_nat (length kids))).
        { unfold entry_count_64. change (wrap 64 n) with (n mod 2 ^ 64). rewrite E.
          rewrite (wrap_small 64 (hd_hash1 h)), (wrap_small 64 hash) by assumption.
          assert (LX : Z.lxor (Z.lxor (Z.lxor (Z.lxor (Z.lxor (Z.lxor (Z.of_nat (length kids) * 2 ^ 16 + low) (hd_hash1 h)) hash) 0x550EC4DD02C468EC) (hd_hash1 h)) hash) 0x550EC4DD02C468EC = Z.of_nat (length kids) * 2 ^ 16 + low).
          { apply Z.bits_inj'. intros i _. rewrite !Z.lxor_spec.
            destruct (Z.testbit (Z.of_nat (length kids) * 2 ^ 16 + low) i), (Z.testbit (hd_hash1 h) i), (Z.testbit hash i), (Z.testbit 0x550EC4DD02C468EC i); reflexivity. }
          rewrite LX. rewrite sext_small by (change (2 ^ 16) with 65536 in *; pows; lia).
          rewrite Z.shiftr_div_pow2 by lia. rewrite Z.div_add_l by lia. rewrite Z.div_small by lia. rewrite Z.add_0_r.
          replace (2 ^ 31 - 1 <? Z.of_nat (length kids)) with false by (pows; lia).
          rewrite wrap_small by (pows; lia). reflexivity. }
        assert (LE : lift (entry_count_64 (hd_hash1 h) hash n) a = (Ok (Z.of_nat (length kids)), a)) by (rewrite EC; reflexivity).
        step LE. replace (1000000 <? Z.of_nat (length kids)) with false by lia. rewrite Nat2Z.id.
        step (E64 (sext 32 n)). rewrite FO. reflexivity. }
      rewrite RE. cbn [fst di_entries].
      rewrite V, EN. cbn [rbind]. fold res2. rewrite (D k ltac:(lia)). reflexivity.
    - intro p. exists 0%nat, []. split; [constructor|]. intros es F. inversion F; subst.
      exists [], []. repeat split; reflexivity.
    - intros p q name off size enc hb kids L He A O Hhb Hb _ (f0 & kids' & Sh & X).
      exists f0, ((name, NImage off size) :: kids'). split; [constructor; [constructor|exact Sh]|].
      intros es F. inversion F as [|e c es0 kk (G & Ty & Sz & Sz0) F0]; subst. cbn [fst snd t_byte t_size] in *.
      destruct (X _ F0) as (es' & nodes & FO & V & EN & D).
      destruct (off_pos _ _ _ He O) as [OC O0].
      exists (mkEnt (en_name e) (en_type e) (en_size e) p enc :: es'), ((name, NImage off size) :: nodes).
      split; [|split; [|split]].
      + cbn [fill_offsets]. rewrite bind_pos. destruct (at_u32 r Hs _ _ enc He A) as [E _]. step E. step FO. reflexivity.
      + cbn [verify_all]. unfold verify_entry, en_off. cbn [en_enc en_pos en_size en_type]. fold fstart. rewrite OC, Sz, Ty.
        change (Z.of_nat (length buf)) with (zlen buf) in L.
        rewrite wrap_small by (fold buf in Hs; pows; lia). fold buf. replace (zlen buf <? off + size) with false by lia.
        cbn [dtype_of Z.eqb Pos.eqb].
        destruct (at_u8 r Hs _ _ hb ltac:(lia) Hb) as [E3 _]. injection E3 as E3. fold buf in E3. rewrite E3. cbn [rbind].
        replace (valid_image_header hb) with true by (destruct Hhb as [->|[->| ->]]; reflexivity). exact V.
      + cbn [entry_nodes]. unfold entry_node, en_off. cbn [en_enc en_pos en_size en_type en_name]. rewrite G, Ty, Sz. fold fstart. rewrite OC.
        cbn [rbind]. rewrite EN. reflexivity.
      + intros f Hfu. cbn [descend]. rewrite D by assumption. reflexivity.
    - intros p q name off size enc sub kids L He A O SC Hsz _ (f1 & sub' & Sh1 & D1) _ (f0 & kids' & Sh & X). specialize (SC eq_refl).
      exists (max f0 f1), ((name, NDir (mkDir off size false Verified []) sub') :: kids').
      split; [constructor; [constructor; exact Sh1|exact Sh]|].
      intros es F. inversion F as [|e c es0 kk (G & Ty & Sz & Sz0) F0]; subst. cbn [fst snd t_byte t_size] in *.
      destruct (X _ F0) as (es' & nodes & FO & V & EN & D).
      destruct (off_pos _ _ _ He O) as [OC O0]. destruct (count_ok _ SC) as (cn & C0 & CR).
      exists (mkEnt (en_name e) (en_type e) (en_size e) p enc :: es'), ((name, NDir (dir_new off size) []) :: nodes).
      split; [|split; [|split]].
      + cbn [fill_offsets]. rewrite bind_pos. destruct (at_u32 r Hs _ _ enc He A) as [E _]. step E. step FO. reflexivity.
      + cbn [verify_all]. unfold verify_entry, en_off. cbn [en_enc en_pos en_size en_type]. fold fstart. rewrite OC, Sz, Ty.
        change (Z.of_nat (length buf)) with (zlen buf) in L.
        rewrite wrap_small by (fold buf in Hs; pows; lia). fold buf. replace (zlen buf <? off + size) with false by lia.
        cbn [dtype_of Z.eqb Pos.eqb]. rewrite CR. cbn [rbind]. replace (cn <? 0) with false by lia. exact V.
      + cbn [entry_nodes]. unfold entry_node, en_off. cbn [en_enc en_pos en_size en_type en_name]. rewrite G, Ty, Sz. fold fstart. rewrite OC.
        cbn [rbind]. rewrite EN. reflexivity.
      + intros f Hfu. cbn [descend]. rewrite (D1 size f Hsz ltac:(lia)). rewrite D by lia. reflexivity.
    - intros p q name off enc kids L He A O SC _ (f0 & kids' & Sh & X). specialize (SC eq_refl).
      exists (S f0), ((name, NDir (dir_new off 0) []) :: kids').
      split; [constructor; [constructor; constructor|exact Sh]|].
      intros es F. inversion F as [|e c es0 kk (G & Ty & Sz & Sz0) F0]; subst. cbn [fst snd t_byte t_size] in *.
      destruct (X _ F0) as (es' & nodes & FO & V & EN & D).
      destruct (off_pos _ _ _ He O) as [OC O0]. destruct (count_ok _ SC) as (cn & C0 & CR).
      exists (mkEnt (en_name e) (en_type e) (en_size e) p enc :: es'), ((name, NDir (dir_new off 0) []) :: nodes).
      split; [|split; [|split]].
      + cbn [fill_offsets]. rewrite bind_pos. destruct (at_u32 r Hs _ _ enc He A) as [E _]. step E. step FO. reflexivity.
      + cbn [verify_all]. unfold verify_entry, en_off. cbn [en_enc en_pos en_size en_type]. fold fstart. rewrite OC, Sz, Ty.
        change (Z.of_nat (length buf)) with (zlen buf) in L.
        rewrite wrap_small by (fold buf in Hs; pows; lia). fold buf. replace (zlen buf <? off + 0) with false by lia.
        cbn [dtype_of Z.eqb Pos.eqb]. rewrite CR. cbn [rbind]. replace (cn <? 0) with false by lia. exact V.
      + cbn [entry_nodes]. unfold entry_node, en_off. cbn [en_enc en_pos en_size en_type en_name]. rewrite G, Ty, Sz. fold fstart. rewrite OC.
        cbn [rbind]. rewrite EN. reflexivity.
      + intros f Hfu. cbn [descend]. destruct f as [|k]; [lia|].
        assert (Y : res2 (S k) (dir_new off 0) = (Ok [], dir_new off 0)) by reflexivity.
        rewrite Y, D by lia. reflexivity.
  Qed.
End dirs.
