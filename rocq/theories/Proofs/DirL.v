(** Directory listings. *)
From Coq Require Import ZArith List Bool Lia ZifyBool ZifyNat.
From Verif.Model Require Import Base Utf Keys Reader WzStr Header Offset VersionPkg1 Image Directory.
From Verif.Spec Require Import Wire Stream StrWire Version PropWire DirWire DirView.
From Verif.Proofs Require Import BaseL WireL ReaderL VersionL Pkg1L AtL ImageL ParseL ScanL.
Ltac Zify.zify_post_hook ::= idtac.

Scheme laid_dir_mut := Minimality for laid_dir Sort Prop
with laid_ents_mut := Minimality for laid_ents Sort Prop.
Combined Scheme laid_dirs_mut from laid_dir_mut, laid_ents_mut.

Lemma rotated_det x k y z : rotated x k y -> rotated x k z -> y = z.
Proof.
  intros [A B] [C D]. apply Z.bits_inj'. intros n Hn.
  destruct (Z.lt_ge_cases n 32).
  - specialize (B ((n - k) mod 32)). specialize (D ((n - k) mod 32)).
    pose proof (Z.mod_pos_bound (n - k) 32 ltac:(lia)).
    rewrite Zplus_mod_idemp_l in B, D. replace (n - k + k) with n in B, D by lia.
    rewrite (Z.mod_small n 32) in B, D by lia. rewrite B, D by lia. reflexivity.
  - destruct A, C. rewrite !Z.bits_above_log2; try reflexivity; try lia.
    all: match goal with |- Z.log2 ?v < _ => destruct (Z.eq_dec v 0) as [->|]; [cbn; lia|];
      apply Z.lt_le_trans with 32; [|lia]; apply Z.log2_lt_pow2; lia end.
Qed.

Section dirs.
  Variable r : rd.
  Variable h : header.
  Variable p2 : bool.
  Variable hash : Z.
  Hypothesis Hs : zlen (rd_buf r) < 2 ^ 31.
  Hypothesis Hk : forall j, byte (rd_ks r j).
  Hypothesis Hv1 : hd_ident h = IV1.
  Hypothesis Hflag : is_pkg2_64 h = false.
  Hypothesis Hf : u32 (hd_fstart h).
  Hypothesis Hh : u32 hash.

  Let buf := rd_buf r.
  Let ks := rd_ks r.
  Let fstart := hd_fstart h.

  Lemma classic_off pos enc off : u32 enc -> classic_offset fstart hash pos enc off ->
    off_calc OPkg1 fstart (hd_hash1 h) hash enc pos = off.
  Proof.
    intros He (x & R & ->). cbn [off_calc]. rewrite off_pkg1_eq by assumption. unfold pkg1_mask.
    rewrite Zminus_mod_idemp_l. f_equal. f_equal. f_equal.
    eapply rotated_det; [|exact R]. rewrite <- rotl32_mod. apply rotl32_rotated, u32_mod.
  Qed.

  Lemma head_ok p q t name : t = 3 \/ t = 4 -> head_at buf ks fstart p q t name ->
    exists m, get_string r m = Ok name /\ 0 <= p < q /\ q <= zlen buf /\
      read_pkg1_entry r h p = entry_tail r (dtype_of t) m q.
  Proof.
    intros Ht [U A B | a e U Ha A B C].
    - destruct (at_u8 r Hs _ _ t ltac:(lia) A) as [E _].
      destruct (at_string r Hs Hk _ _ _ U B) as [_ (m & M & G)].
      pose proof (at_range _ _ _ _ A). pose proof (at_range _ _ _ _ B). pose proof (zlen_nonneg (enc_str ks name)).
      exists m. split; [exact G|]. split; [lia|]. split; [lia|]. unfold read_pkg1_entry. step E.
      destruct Ht as [-> | ->]; cbn [dtype_of Z.eqb Pos.eqb]; step M; reflexivity.
    - apply at_cons in A as [A1 A2]. destruct (at_u8 r Hs _ _ 2 ltac:(lia) A1) as [E _].
      destruct (at_i32 r Hs _ _ a Ha A2) as [E2 Q].
      destruct (at_string r Hs Hk _ _ _ U C) as [_ (m & M & G)].
      pose proof (at_range _ _ _ _ A1). pose proof (at_range _ _ _ _ A2). pose proof (at_range _ _ _ _ B). pose proof (at_range _ _ _ _ C).
      pose proof (zlen_nonneg (enc_str ks name)).
      exists m. split; [exact G|]. split; [lia|]. split; [lia|]. unfold read_pkg1_entry. step E. cbn [dtype_of Z.eqb Pos.eqb]. step E2.
      assert (W : wrap 64 (fstart + wrap 64 a) = fstart + a).
      { rewrite wrap_add_r by lia. apply wrap_small. fold buf in Hs. pows. lia. }
      fold fstart. cbv zeta. rewrite W.
      destruct (at_u8 r Hs _ _ t ltac:(lia) B) as [E3 _].
      assert (E4 : read_u8_at (rd_buf r) (fstart + a) = Ok t) by (injection E3; auto).
      assert (L : lift (read_u8_at (rd_buf r) (fstart + a)) q = (Ok t, q)) by (rewrite E4; reflexivity).
      step L.
      assert (W2 : wrap 64 (fstart + a + 1) = fstart + a + 1) by (apply wrap_small; fold buf in Hs; pows; lia).
      rewrite W2.
      assert (L2 : read_wz_string_meta_at r (fstart + a + 1) q = (Ok m, q)).
      { unfold read_wz_string_meta_at, at_offset. rewrite M. reflexivity. }
      step L2. reflexivity.
  Qed.

  Lemma tail_ok p q size off : tail_at buf fstart hash p q size off ->
    exists pos enc, u32 enc /\ 0 <= size < 2 ^ 31 /\ 0 <= off /\ off + size <= zlen buf /\ 0 <= p < q /\ q <= zlen buf /\
      off_calc OPkg1 fstart (hd_hash1 h) hash enc pos = off /\
      forall t nm, entry_tail r t nm p = (Ok (mkEnt nm t size pos enc), q).
  Proof.
    intros (a & b & cs & enc & S0 & I1 & I2 & He & A & O & L).
    exists b, enc. pose proof (int_range r 0 _ _ _ I1). pose proof (int_range r 0 _ _ _ I2).
    pose proof (at_range _ _ _ _ A) as (_ & R1 & R2). rewrite zlen_enc_le in R1.
    pose proof I1 as [B1 _]. pose proof (classic_off _ _ _ He O) as OC.
    split; [exact He|]. split; [lia|]. split.
    { rewrite <- OC. apply off_u32. }
    split; [exact L|]. split; [lia|]. split; [lia|]. split; [exact OC|].
    intros t nm. unfold entry_tail. step (at_wzint r Hs _ _ _ I1). step (at_wzint r Hs _ _ _ I2). rewrite bind_pos.
    destruct (at_u32 r Hs _ _ enc He A) as [E _]. step E.
    unfold ret. rewrite wrap_small by (pows; lia). reflexivity.
  Qed.

  Let res1 := resolve_children r h p2 OPkg1 hash.

  Let PD (off : Z) (kids : list (list Z * dtree)) : Prop := exists f0 kids',
    shows_trees kids' kids /\ (exists e n, int_at buf off e n /\ 0 <= n) /\
    forall size f, size <> 0 -> (f0 <= f)%nat ->
      res1 f (dir_new off size) = (Ok kids', mkDir off size false Verified []).
  Let PS (p q n : Z) (kids : list (list Z * dtree)) : Prop := exists f0 es nodes kids',
    shows_trees kids' kids /\ 0 <= n /\
    entries1 r h (Z.to_nat n) p = (Ok es, q) /\
    verify_all r h OPkg1 hash es = true /\ entry_nodes r h OPkg1 hash es = Ok nodes /\
    forall f, (f0 <= f)%nat -> descend (res1 f) nodes = Ok kids'.

  Lemma laid_dirs_ok :
    (forall off kids, laid_dir buf ks fstart hash off kids -> PD off kids) /\
    (forall p q n kids, laid_ents buf ks fstart hash p q n kids -> PS p q n kids).
  Proof.
    apply laid_dirs_mut.
    - intros off a q n kids Hn I _ (f0 & es & nodes & kids' & Sh & N & E & V & EN & D).
      exists (S f0), kids'. split; [exact Sh|]. split; [eauto|]. intros size f Hsz Hfu.
      destruct f as [|k]; [lia|]. unfold res1. cbn [resolve_children]. cbn [dir_new di_size].
      replace (size =? 0) with false by lia. unfold prepare. cbn [dir_new di_status di_off di_size di_parsed].
      unfold read_entries. rewrite Hv1. unfold resolve_pkg1. step (at_wzint r Hs _ _ _ I).
      replace ((n <? 0) || (1000000 <? n)) with false by lia. rewrite E. cbn [fst di_entries].
      rewrite V, EN. cbn [rbind]. fold res1. rewrite (D k ltac:(lia)). reflexivity.
    - intro p. exists 0%nat, [], [], []. split; [constructor|]. repeat split; try reflexivity; lia.
    - intros p q n kids A _ (f0 & es & nodes & kids' & Sh & N & E & V & EN & D).
      exists f0, es, nodes, kids'. split; [exact Sh|]. split; [lia|]. split; [|auto].
      replace (Z.to_nat (n + 1)) with (S (Z.to_nat n)) by lia. cbn [entries1].
      destruct (at_u8 r Hs _ _ 1 ltac:(lia) A) as [E1 _].
      assert (E2 : read_pkg1_entry r h p = (Ok (mkEnt meta_empty DUnknown 0 0 0), p + 1)).
      { unfold read_pkg1_entry. step E1. reflexivity. }
      step E2. cbn [en_type].
      pose proof (at_range _ _ _ _ A) as (A0 & _ & A2).
      assert (K : skip 10 (p + 1) = (Ok tt, p + 11)).
      { rewrite skip_ok; [f_equal; lia|]. fold buf in Hs. pows. lia. }
      step K. exact E.
    - intros p a b q n name off size hb kids HH HT Hhb Hb _ (f0 & es & nodes & kids' & Sh & N & E & V & EN & D).
      destruct (head_ok p a 4 name ltac:(lia) HH) as (m & G & Pa & Qa & HR).
      destruct (tail_ok _ _ _ _ HT) as (pos & enc & He & Sz & O0 & O1 & Pb & Qb & OC & TR).
      exists f0, (mkEnt m DImage size pos enc :: es), ((name, NImage off size) :: nodes), ((name, NImage off size) :: kids').
      split; [constructor; [constructor|exact Sh]|]. split; [lia|]. split; [|split; [|split]].
      + replace (Z.to_nat (n + 1)) with (S (Z.to_nat n)) by lia. cbn [entries1].
        assert (E2 : read_pkg1_entry r h p = (Ok (mkEnt m DImage size pos enc), b)).
        { rewrite HR. apply TR. }
        step E2. cbn [en_type]. step E. reflexivity.
      + cbn [verify_all]. unfold verify_entry, en_off. cbn [en_enc en_pos en_size en_type]. fold fstart. rewrite OC.
        rewrite wrap_small by (fold buf in Hs; pows; lia). fold buf. replace (zlen buf <? off + size) with false by lia.
        destruct (at_u8 r Hs _ _ hb ltac:(lia) Hb) as [E3 _]. injection E3 as E3. fold buf in E3. rewrite E3. cbn [rbind].
        replace (valid_image_header hb) with true by (destruct Hhb as [->|[->| ->]]; reflexivity). exact V.
      + cbn [entry_nodes]. unfold entry_node, en_off. cbn [en_enc en_pos en_size en_type en_name]. rewrite G. fold fstart. rewrite OC.
        cbn [rbind]. rewrite EN. reflexivity.
      + intros f Hfu. cbn [descend]. rewrite D by assumption. reflexivity.
    - intros p a b q n name off size sub kids HH HT Hsz _ (f1 & sub' & Sh1 & (ce & cn & CI & C0) & D1)
        _ (f0 & es & nodes & kids' & Sh & N & E & V & EN & D).
      destruct (head_ok p a 3 name ltac:(lia) HH) as (m & G & Pa & Qa & HR).
      destruct (tail_ok _ _ _ _ HT) as (pos & enc & He & Sz & O0 & O1 & Pb & Qb & OC & TR).
      exists (max f0 f1), (mkEnt m DDir size pos enc :: es), ((name, NDir (dir_new off size) []) :: nodes),
        ((name, NDir (mkDir off size false Verified []) sub') :: kids').
      split; [constructor; [constructor; exact Sh1|exact Sh]|]. split; [lia|]. split; [|split; [|split]].
      + replace (Z.to_nat (n + 1)) with (S (Z.to_nat n)) by lia. cbn [entries1].
        assert (E2 : read_pkg1_entry r h p = (Ok (mkEnt m DDir size pos enc), b)).
        { rewrite HR. apply TR. }
        step E2. cbn [en_type]. step E. reflexivity.
      + cbn [verify_all]. unfold verify_entry, en_off. cbn [en_enc en_pos en_size en_type]. fold fstart. rewrite OC.
        rewrite wrap_small by (fold buf in Hs; pows; lia). fold buf. replace (zlen buf <? off + size) with false by lia.
        rewrite Hflag. rewrite (at_wzint r Hs _ _ _ CI). cbn [fst rbind]. replace (cn <? 0) with false by lia. exact V.
      + cbn [entry_nodes]. unfold entry_node, en_off. cbn [en_enc en_pos en_size en_type en_name]. rewrite G. fold fstart. rewrite OC.
        cbn [rbind]. rewrite EN. reflexivity.
      + intros f Hfu. cbn [descend]. rewrite (D1 size f Hsz ltac:(lia)). rewrite D by lia. reflexivity.
    - intros p a b c q n name off cn kids HH HT CI C0
        _ (f0 & es & nodes & kids' & Sh & N & E & V & EN & D).
      destruct (head_ok p a 3 name ltac:(lia) HH) as (m & G & Pa & Qa & HR).
      destruct (tail_ok _ _ _ _ HT) as (pos & enc & He & Sz & O0 & O1 & Pb & Qb & OC & TR).
      exists (S f0), (mkEnt m DDir 0 pos enc :: es), ((name, NDir (dir_new off 0) []) :: nodes),
        ((name, NDir (dir_new off 0) []) :: kids').
      split; [constructor; [constructor; constructor|exact Sh]|]. split; [lia|]. split; [|split; [|split]].
      + replace (Z.to_nat (n + 1)) with (S (Z.to_nat n)) by lia. cbn [entries1].
        assert (E2 : read_pkg1_entry r h p = (Ok (mkEnt m DDir 0 pos enc), b)).
        { rewrite HR. apply TR. }
        step E2. cbn [en_type]. step E. reflexivity.
      + cbn [verify_all]. unfold verify_entry, en_off. cbn [en_enc en_pos en_size en_type]. fold fstart. rewrite OC.
        rewrite wrap_small by (fold buf in Hs; pows; lia). fold buf. replace (zlen buf <? off + 0) with false by lia.
        rewrite Hflag. rewrite (at_wzint r Hs _ _ _ CI). cbn [fst rbind]. replace (cn <? 0) with false by lia. exact V.
      + cbn [entry_nodes]. unfold entry_node, en_off. cbn [en_enc en_pos en_size en_type en_name]. rewrite G. fold fstart. rewrite OC.
        cbn [rbind]. rewrite EN. reflexivity.
      + intros f Hfu. cbn [descend]. destruct f as [|k]; [lia|].
        assert (X : res1 (S k) (dir_new off 0) = (Ok [], dir_new off 0)) by reflexivity.
        rewrite X, D by lia. reflexivity.
  Qed.
End dirs.
