(** How walks end in packages whose images have links, and that a link is the node it leads to: C274, C275. *)
From Coq Require Import ZArith List Bool Lia ZifyBool ZifyNat Permutation.
From Coq Require String Ascii.
From Verif.Model Require Import Base Utf Keys Reader WzStr Header Offset VersionPkg1 VersionPkg2 Directory Image Media Guess File Node Snow2 Ms World.
From Verif.Spec Require Import Wire Stream StrWire HeaderSpec Version Media PropWire PropView DirWire DirView DirWire2 Aes KeyFind PropEnc PathSpec Tree ChaCha Snow2 Ms MsFile MsFile2 Whole Linked WholeLinks.
From Verif.Proofs Require Import OpenL BaseL WireL KeysL AtL DirL HeaderL MediaL EncL ImageL StrictL GuessL FileL NodeL WorldL WalkWL Snow2L MsReadL MsFileL LinkedL LinkWorldL TourLinksL TourEndL.
From Verif.Props Require Import P_Media P_Header P_Strict P_Version P_Directory P_Node P_Guess P_File P_Ms P_MsRead2 P_Ms2 P_Whole P_Tour P_Archive P_ImgFile P_Linked P_Detect P_LinkPack P_LinkTour.
Import ListNotations. Import String.StringSyntax.
Open Scope Z_scope.

(** A package file of one of the kinds of C269, C270 and C272 with this content, under this key, opened with the version [patch] (-1: none). *)
Inductive package_under (buf : list Z) (iv : option (list Z)) (existing : option decr) : (nat -> Z) -> Z -> list (list Z * content) -> Prop :=
| package_classic h p r t e v ds kids cs :
    read_header buf = Ok (h, p) -> hd_ident h = IV1 -> hd_encver h = Some e ->
    0 <= v < 1000000 -> Version.decimal v ds -> folded (digit_hash 0 ds) = e ->
    laid_dir buf (iv_key (aes256 user_key) (region_iv r)) (hd_fstart h) (digit_hash 0 ds) (hd_data_start h) kids ->
    first_name true buf (hd_data_start h) (enc_str (iv_key (aes256 user_key) (region_iv r)) t) ->
    plain_ascii t -> (r = Sea -> (2 <= length t)%nat) ->
    offered (aes256 user_key) (iv_key (aes256 user_key) (region_iv r)) (length t) (region_iv r) iv existing ->
    stocked buf (iv_key (aes256 user_key) (region_iv r)) kids cs -> package_under buf iv existing (iv_key (aes256 user_key) (region_iv r)) v cs
| package_unversioned h p r t patch kids cs :
    read_header buf = Ok (h, p) -> hd_ident h = IV1 -> hd_encver h = None -> patch = -1 \/ patch = 770 ->
    laid_dir buf (iv_key (aes256 user_key) (region_iv r)) (hd_fstart h) (digit_hash 0 [7; 7; 0]) (hd_data_start h) kids ->
    first_name true buf (hd_data_start h) (enc_str (iv_key (aes256 user_key) (region_iv r)) t) ->
    plain_ascii t -> (r = Sea -> (2 <= length t)%nat) ->
    offered (aes256 user_key) (iv_key (aes256 user_key) (region_iv r)) (length t) (region_iv r) iv existing ->
    stocked buf (iv_key (aes256 user_key) (region_iv r)) kids cs -> package_under buf iv existing (iv_key (aes256 user_key) (region_iv r)) patch cs
| package_lowest h p r t v ds kids cs :
    read_header buf = Ok (h, p) -> hd_ident h = IV1 -> 1 <= v <= 2000 -> Version.decimal v ds ->
    hd_encver h = Some (folded (digit_hash 0 ds)) -> (forall u, ~ rival v (folded (digit_hash 0 ds)) u) ->
    laid_dir buf (iv_key (aes256 user_key) (region_iv r)) (hd_fstart h) (digit_hash 0 ds) (hd_data_start h) kids ->
    first_name true buf (hd_data_start h) (enc_str (iv_key (aes256 user_key) (region_iv r)) t) ->
    plain_ascii t -> (r = Sea -> (2 <= length t)%nat) ->
    offered (aes256 user_key) (iv_key (aes256 user_key) (region_iv r)) (length t) (region_iv r) iv existing ->
    stocked buf (iv_key (aes256 user_key) (region_iv r)) kids cs -> package_under buf iv existing (iv_key (aes256 user_key) (region_iv r)) (-1) cs
| package_wide h p patch kids cs :
    read_header buf = Ok (h, p) -> is_pkg2_64 h = true -> wide_hash h <> 0 -> unlike_entry buf (hd_data_start h) ->
    laid_dir2 buf (fun _ => 0) (number_key (wide_number h)) true true (hd_fstart h) (hd_hash1 h) (wide_hash h) OPkg264 true (hd_data_start h) kids ->
    stocked buf (fun _ => 0) kids cs -> package_under buf iv existing (fun _ => 0) patch cs.
Definition package (buf : list Z) (iv : option (list Z)) (existing : option decr) (patch : Z) (cs : list (list Z * content)) : Prop :=
  exists key, package_under buf iv existing key patch cs.

(** At any time, two paths that lead to the same place are answered with the same node. *)
Definition one_node (st : list Z -> nat -> Z) (bl : list Z -> list Z -> Z -> list Z) (f : nat) (w : world) (cs : list (list Z * content)) : Prop :=
  forall w1 a b Q z, used st bl f w w1 -> a <> [] -> b <> [] -> Forall (fun c => ~ In 47 c) a -> Forall (fun c => ~ In 47 c) b ->
    gets cs a Q z -> gets cs b Q z ->
    exists i w2 w3, w_at_path_parsed st bl f w1 0 (joined a) = (Ok i, w2) /\ w_at_path_parsed st bl f w2 0 (joined b) = (Ok i, w3).
(** At any time and in any order a forced walk that may go deep enough returns, if the paths do not go on for ever, and if they do it locks for
    writing a node it holds for reading. *)
Definition ends_or_jams (st : list Z -> nat -> Z) (bl : list Z -> list Z -> Z -> list Z) (f : nat) (w : world) (cs : list (list Z * content)) : Prop :=
  exists D, forall w1 order d, used st bl f w w1 -> (forall l, Permutation (order l) l) -> (D <= d)%nat ->
    ((exists b, forall comps Q z, gets cs comps Q z -> (length comps < b)%nat) -> exists tr w2, w_walk st bl f order d true w1 0 = (Ok tr, w2)) /\
    ((forall b, exists comps Q z, gets cs comps Q z /\ (b <= length comps)%nat) -> exists w2, w_walk st bl f order d true w1 0 = (Panic, w2)).

Section any.
  Variable st : list Z -> nat -> Z.
  Variable bl : list Z -> list Z -> Z -> list Z.
  Variable ok : rd -> Prop.
  Variable f : nat.
  Hypothesis F : (0 < f)%nat.
  Variable s : shared.
  Variable name : text.
  Variable cs : list (list Z * content).
  Hypothesis T : forall comps, (exists Q z, gets cs comps Q z) \/ lacks cs comps.

  Lemma sole_node : forall a cs w i b Q z z' j k, bounded w -> dir_at f st bl ok s w i cs -> gets cs a Q z -> gets cs b Q z' ->
    passes w i a (Some j) -> passes w i b (Some k) -> j = k.
  Proof using F.
    clear T. induction a as [|n a IH]; intros cs' w i b Q z z' j k B A Ga Gb Pa Pb.
    - inversion Ga; subst. inversion Gb; subst. inversion Pa; subst. inversion Pb; subst. reflexivity.
    - destruct b as [|m b]; [inversion Gb; subst; inversion Ga|]. destruct (dir_parse f st bl ok s F w i cs' B A) as (w1 & E & _ & _ & _ & In1 & _).
      inversion Pa as [|? c ? x ? ? H U N Pa'|]; subst. inversion Pb as [|? c' ? y ? ? H' U' N' Pb'|]; subst. clear H' U'.
      assert (w1 = w) as -> by (unfold w_parse in E; rewrite H, U in E; congruence).
      inversion Ga as [|? ? kids ? Q1 ? L1 G1|? ? props ? Q1 ? L1 Fo1 Le1]; subst; inversion Gb as [|? ? kids' ? Q2 ? L2 G2|? ? props' ? Q2 ? L2 Fo2 Le2]; subst;
        pose proof (last_unique _ _ _ _ L1 L2) as X; try discriminate X; injection X as <-; destruct (In1 _ _ L1) as (x' & Nx & Lx);
        (assert (x' = x) as -> by congruence); (assert (y = x) as -> by congruence); destruct (lc_content _ _ _ _ _ _ _ _ _ _ Lx) as [Ax _].
      + eapply IH; eassumption.
      + destruct Ax as [Wt|Go].
        * assert (Z0 : forall r o, passes w x r (Some o) -> r = []).
          { intros r o P. inversion P as [|? cx ? ? ? ? Hx Ux|]; subst; [reflexivity|]. destruct Wt as (? & ? & ? & ? & ? & ? & ? & ? & Hw & Uw & _). rewrite Hw in Hx. injection Hx as <-. cbn in Ux. congruence. }
          rewrite (Z0 _ _ Pa') in Pa'. rewrite (Z0 _ _ Pb') in Pb'. inversion Pa'; subst. inversion Pb'; subst. reflexivity.
        * destruct Go as (r0 & nm & off & size & c0 & _ & _ & _ & _ & _ & So & _). eapply (proj1 So); [exact Fo1|exact Fo2|eassumption..].
  Qed.
  Lemma world_one_node w : walkable st bl ok f s name cs w -> one_node st bl f w cs.
  Proof.
    intros W w1 a b Q z U Na Nb Pa Pb Ga Gb. destruct (used_linked st bl ok f F s name cs T w w1 W U) as [L1 _]. pose proof L1 as (B1 & A1 & _).
    destruct (proj1 (walk_links f st bl ok s F a cs w1 0 B1 A1) Q z Ga) as (i & w2 & E & B2 & G2 & _ & P2 & _).
    pose proof (linked_grows f st bl ok s F cs name w1 w2 L1 B2 G2) as L2. pose proof L2 as (_ & A2 & _).
    destruct (proj1 (walk_links f st bl ok s F b cs w2 0 B2 A2) Q z Gb) as (k & w3 & E3 & B3 & G3 & _ & P3 & _).
    pose proof (linked_grows f st bl ok s F cs name w2 w3 L2 B3 G3) as (_ & A3 & _).
    assert (i = k) as <- by (eapply (sole_node a cs w3 0 b); [exact B3|exact A3|exact Ga|exact Gb|exact (grows_passes f st bl ok w2 w3 0 a _ B2 G3 P2)|exact P3]).
    exists i, w2, w3. rewrite (linked_fold f st bl ok s cs name w1 _ L1), (linked_fold f st bl ok s cs name w2 _ L2), !split_join by assumption. auto.
  Qed.
  Lemma world_ends w : walkable st bl ok f s name cs w -> ends_or_jams st bl f w cs.
  Proof.
    intros W. destruct (content_ends f st bl ok s F (CDir cs)) as (D & HD). exists D. intros w1 order d U Ord Le.
    destruct (used_linked st bl ok f F s name cs T w w1 W U) as [L1 O1]. pose proof L1 as (B & A & kd & sl & H & _).
    assert (No : forall d', (D <= d')%nat -> fst (w_walk st bl f order d' true w1 0) <> OutOfFuel).
    { intros d' Le'. eapply (HD d' Le' order w1 0 [] []); [exact Ord|exact (conj B O1)|exact A|eapply up_top; [exact H|reflexivity]|intros ? []]. }
    pose proof (world_tours_links st bl ok f F s name cs T w W w1 order) as To. split.
    - intros (b & Hb). destruct (proj1 (To (Nat.max d b) U Ord)) as (tr & w2 & E & _).
      { intros comps Q z G. eapply Nat.lt_le_trans; [exact (Hb comps Q z G)|apply Nat.le_max_r]. }
      exists tr, w2. rewrite <- E. symmetry. apply walk_in_more; [apply Nat.le_max_l|apply No, Le].
    - intro Ub. destruct (To d U Ord) as [_ Nk]. specialize (Nk (Ub d)). specialize (No d Le).
      destruct (locked_or st bl f order true d [] w1 0) as [E|E].
      + destruct (walk_content f st bl ok s F order Ord d (CDir cs) w1 0 (conj B O1) A) as [(tr & w2 & ps & E2 & _)|(w2 & E2 & _)]; rewrite E2 in E.
        * destruct (Nk tr w2 E).
        * unfold w_walk in No. rewrite E in No. destruct (No eq_refl).
      + unfold w_walk. destruct (w_walk_in st bl f order [] d true w1 0) as [x w2]. cbn [fst] in E. subst x. eauto.
  Qed.
End any.

Lemma package_under_walkable bl name buf iv existing ky patch cs cache : bytes buf -> zlen buf < 2 ^ 31 -> package_under buf iv existing ky patch cs ->
  (forall comps, (exists Q z, gets cs comps Q z) \/ lacks cs comps) /\
  exists f0, forall f, (f0 <= f)%nat -> exists w ok s,
    w_parse (iv_key (aes256 user_key)) bl f (w_open name buf iv existing patch cache) 0 0 = (Ok tt, w) /\ (0 < f)%nat /\
    walkable (iv_key (aes256 user_key)) bl ok f s name cs w /\ forall rr, ok rr -> rd_buf rr = buf /\ forall j, rd_ks rr j = ky j.
Proof.
  intros Hb Hs Pk. set (st := iv_key (aes256 user_key)).
  assert (X : exists kids key h f1 kids' cache', header_of buf = Ok h /\ (forall j, byte (rd_ks (reader_of st buf key) j)) /\ stocked buf (rd_ks (reader_of st buf key)) kids cs /\
    shows_trees kids' kids /\ (rd_buf (reader_of st buf key) = buf /\ forall j, rd_ks (reader_of st buf key) j = ky j) /\ forall f, (f1 <= f)%nat -> exists x, parse_file st f buf iv existing patch None cache = Ok x /\ pf_key x = key /\ pf_kids x = kids' /\ pf_cache x = cache').
  { inversion Pk as [h p r t e v ds kids ? Hd Id He Hv D Fo L Fn Tt Hr Of Fw|h p r t pt kids ? Hd Id He Hp L Fn Tt Hr Of Fw|h p r t v ds kids ? Hd Id Hv D He Nr L Fn Tt Hr Of Fw|h p pt kids ? Hd W Nz Un L Fw]; subst.
    - destruct (C149_classic_package buf h p r t iv existing patch (folded (digit_hash 0 ds)) patch ds kids cache Hb Hs Hd Id He Hv D eq_refl L Fn Tt Hr Of) as (f1 & kids' & Sh & P).
      exists kids, (DEcb (region_iv r)), h, f1. eexists _, _. split; [exact (header_was _ _ _ Hd)|]. split; [exact (region_key_bytes r)|]. split; [exact Fw|]. split; [exact Sh|]. split; [split; reflexivity|].
      intros f Hf. eexists. split; [apply P, Hf|]. repeat split.
    - destruct (C245_unversioned_package buf h p r t iv existing patch kids cache) as (f1 & kids' & Sh & P); [assumption..|].
      exists kids, (DEcb (region_iv r)), h, f1. eexists _, _. split; [exact (header_was _ _ _ Hd)|]. split; [exact (region_key_bytes r)|]. split; [exact Fw|]. split; [exact Sh|]. split; [split; reflexivity|].
      intros f Hf. eexists. split; [apply P, Hf|]. repeat split.
    - destruct (C247_lowest_version buf h p r t iv existing v ds kids cache) as (f1 & kids' & Sh & P); [assumption..|].
      exists kids, (DEcb (region_iv r)), h, f1. eexists _, _. split; [exact (header_was _ _ _ Hd)|]. split; [exact (region_key_bytes r)|]. split; [exact Fw|]. split; [exact Sh|]. split; [split; reflexivity|].
      intros f Hf. eexists. split; [apply P, Hf|]. repeat split.
    - destruct (C153_wide_package buf h p iv existing patch None kids cache Hb Hs Hd W Nz Un L) as (f1 & kids' & key & cache' & Sh & _ & _ & P).
      exists kids, (DPkg2 key), h, f1. eexists _, _. split; [exact (header_was _ _ _ Hd)|]. split; [intro j; unfold byte; cbn; lia|]. split; [exact Fw|]. split; [exact Sh|]. split; [split; reflexivity|].
      intros f Hf. eexists. split; [apply P, Hf|]. repeat split. }
  destruct X as (kids & key & h & f1 & kids' & cache' & Hh & Kb & Fw & Sh & Rk & P). split; [exact (stocked_total _ _ _ _ Fw)|].
  destruct (stock_world st bl name buf iv existing patch cache h key kids cs Hs Hh Kb Fw) as (f2 & W).
  exists (Nat.max f1 f2). intros f Hf. destruct (P f ltac:(lia)) as (x & Px & Kx & Tx & _).
  destruct (W f x ltac:(lia) Px Kx ltac:(rewrite Tx; exact Sh)) as (w & s & E & F & O). exists w, (eq (reader_of st buf key)), s. split; [exact E|]. split; [exact F|].
  split; [|intros rr <-; exact Rk]. split; [exact O|]. change w with (snd (Ok (A := unit) tt, w)). rewrite <- E. apply one_parse. unfold w_open. apply one_fresh. intros ? ? Y. discriminate Y.
Qed.
Lemma package_walkable bl name buf iv existing patch cs cache : bytes buf -> zlen buf < 2 ^ 31 -> package buf iv existing patch cs ->
  (forall comps, (exists Q z, gets cs comps Q z) \/ lacks cs comps) /\
  exists f0, forall f, (f0 <= f)%nat -> exists w ok s,
    w_parse (iv_key (aes256 user_key)) bl f (w_open name buf iv existing patch cache) 0 0 = (Ok tt, w) /\ (0 < f)%nat /\
    walkable (iv_key (aes256 user_key)) bl ok f s name cs w.
Proof.
  intros Hb Hs [ky Pk]. destruct (package_under_walkable bl name buf iv existing ky patch cs cache Hb Hs Pk) as (T & f0 & W). split; [exact T|].
  exists f0. intros f Hf. destruct (W f Hf) as (w & ok & s & E & F & K & _). exists w, ok, s. auto.
Qed.
Lemma archive_walkable block name buf file images cs : bytes buf -> zlen buf < 2 ^ 63 -> archive block buf file images -> holds_links images cs ->
  exists w0 f0, w_open_ms block name file buf = Ok w0 /\ (forall comps, (exists Q z, gets cs comps Q z) \/ lacks cs comps) /\ forall f, (f0 <= f)%nat -> exists w ok s,
    w_parse (iv_key (aes256 user_key)) block f w0 0 0 = (Ok tt, w) /\ (0 < f)%nat /\ walkable (iv_key (aes256 user_key)) block ok f s name cs w.
Proof.
  intros Hb Hs A H. destruct (archive_linked block name buf file images cs Hb Hs A H) as (w0 & f0 & O & N & T & W).
  exists w0, f0. split; [exact O|]. split; [exact T|]. intros f Hf. destruct (W f Hf) as (w & s & E & F & L). exists w. eexists _, s. split; [exact E|]. split; [exact F|].
  split; [exact L|]. change w with (snd (Ok (A := unit) tt, w)). rewrite <- E. apply one_parse, N.
Qed.

(** C274: in a package, a link that leads somewhere is the node it leads to. *)
Theorem C274_package_one_node : forall bl name buf iv existing patch cs cache,
  bytes buf -> zlen buf < 2 ^ 31 -> package buf iv existing patch cs ->
  exists f0, forall f, (f0 <= f)%nat -> exists w,
    w_parse (iv_key (aes256 user_key)) bl f (w_open name buf iv existing patch cache) 0 0 = (Ok tt, w) /\ one_node (iv_key (aes256 user_key)) bl f w cs.
Proof.
  intros bl name buf iv existing patch cs cache Hb Hs P. destruct (package_walkable bl name buf iv existing patch cs cache Hb Hs P) as (T & f0 & W).
  exists f0. intros f Hf. destruct (W f Hf) as (w & ok & s & E & F & K). exists w. split; [exact E|]. eapply world_one_node; eassumption.
Qed.
Print Assumptions C274_package_one_node.
(** And in an archive. *)
Theorem C274_archive_one_node : forall block name buf file images cs,
  bytes buf -> zlen buf < 2 ^ 63 -> archive block buf file images -> holds_links images cs ->
  exists w0 f0, w_open_ms block name file buf = Ok w0 /\ forall f, (f0 <= f)%nat -> exists w,
    w_parse (iv_key (aes256 user_key)) block f w0 0 0 = (Ok tt, w) /\ one_node (iv_key (aes256 user_key)) block f w cs.
Proof.
  intros block name buf file images cs Hb Hs A H. destruct (archive_walkable block name buf file images cs Hb Hs A H) as (w0 & f0 & O & T & W).
  exists w0, f0. split; [exact O|]. intros f Hf. destruct (W f Hf) as (w & ok & s & E & F & K). exists w. split; [exact E|]. eapply world_one_node; eassumption.
Qed.
Print Assumptions C274_archive_one_node.

(** C275: a forced walk through a package comes to its end or stops for ever at a node it holds; it never goes deeper and deeper. *)
Theorem C275_package_ends_or_jams : forall bl name buf iv existing patch cs cache,
  bytes buf -> zlen buf < 2 ^ 31 -> package buf iv existing patch cs ->
  exists f0, forall f, (f0 <= f)%nat -> exists w,
    w_parse (iv_key (aes256 user_key)) bl f (w_open name buf iv existing patch cache) 0 0 = (Ok tt, w) /\ ends_or_jams (iv_key (aes256 user_key)) bl f w cs.
Proof.
  intros bl name buf iv existing patch cs cache Hb Hs P. destruct (package_walkable bl name buf iv existing patch cs cache Hb Hs P) as (T & f0 & W).
  exists f0. intros f Hf. destruct (W f Hf) as (w & ok & s & E & F & K). exists w. split; [exact E|]. eapply world_ends; eassumption.
Qed.
Print Assumptions C275_package_ends_or_jams.
(** So does one through an archive. *)
Theorem C275_archive_ends_or_jams : forall block name buf file images cs,
  bytes buf -> zlen buf < 2 ^ 63 -> archive block buf file images -> holds_links images cs ->
  exists w0 f0, w_open_ms block name file buf = Ok w0 /\ forall f, (f0 <= f)%nat -> exists w,
    w_parse (iv_key (aes256 user_key)) block f w0 0 0 = (Ok tt, w) /\ ends_or_jams (iv_key (aes256 user_key)) block f w cs.
Proof.
  intros block name buf file images cs Hb Hs A H. destruct (archive_walkable block name buf file images cs Hb Hs A H) as (w0 & f0 & O & T & W).
  exists w0, f0. split; [exact O|]. intros f Hf. destruct (W f Hf) as (w & ok & s & E & F & K). exists w. split; [exact E|]. eapply world_ends; eassumption.
Qed.
Print Assumptions C275_archive_ends_or_jams.

(** No path in [stair] is longer than two names. *)
Definition stair_rank (P : list (list Z)) : nat := match P with [] => 2 | [x] => if text_eqb x (codes "s") then 1 else 0 | _ => 0 end.
Lemma stair_short P comps Q : follows stair P comps Q -> (length comps <= stair_rank P)%nat.
Proof.
  assert (Lk : forall P n us, linked stair P n us -> (P = [] /\ us = [codes "s"]) \/ (P = [codes "s"] /\ us = [codes ".."; codes "a"])).
  { intros P0 n us (Ne & Pl & L). apply stair_places in L. cbn [In] in L.
    assert (J : forall vs, vs <> [] -> Forall (fun u => ~ In 47 u) vs -> joined us = joined vs -> us = vs) by (intros vs Nv Pv E; apply joined_inj; assumption).
    repeat (destruct L as [L|L]; [injection L as EP E; try discriminate E|]); try contradiction; [left|right].
    - split; [destruct P0 as [|? [|]]; [reflexivity|discriminate EP..]|]. apply eq_sym, (J [codes "s"]) in E; [exact E|discriminate|plain_names].
    - split; [destruct P0 as [|? [|? [|]]]; try discriminate EP; injection EP as <- _; reflexivity|]. apply eq_sym, (J [codes ".."; codes "a"]) in E; [exact E|discriminate|plain_names]. }
  induction 1 as [P|P n rest Q pl L Nl _ IH|P n us T rest Q L R _ IH|P n us L As]; cbn [length].
  - lia.
  - apply stair_places in L. cbn [In] in L.
    repeat (destruct L as [L|L]; [injection L as EP E; try (destruct P; discriminate EP); try (subst pl; destruct Nl; eexists; reflexivity)|]); try contradiction;
      (assert (P = [] /\ n = last (P ++ [n]) []) as [-> En] by (split; [destruct P as [|? [|]]; [reflexivity|discriminate EP..]|symmetry; apply last_last]));
      cbn [app] in EP; injection EP as <-; cbn in IH |- *; lia.
  - destruct (Lk _ _ _ L) as [[-> ->]|[-> ->]].
    + inversion R as [| |? ? ? ? ? _ _ _ R1]; subst. inversion R1; subst. cbn in IH |- *. lia.
    + inversion R as [|P1 n1 us1 T1 R1 EP|? ? ? ? ? Nu _ _ R1]; subst; [|destruct (Nu eq_refl)]. assert (P1 = []) as -> by (destruct P1 as [|? [|]]; [reflexivity|discriminate EP..]).
      inversion R1 as [| |? ? ? ? ? _ _ _ R2]; subst. inversion R2; subst. cbn in IH |- *. lia.
  - destruct (Lk _ _ _ L) as [[-> ->]|[-> ->]]; cbn; lia.
Qed.
Lemma stair_bounded comps Q z : gets [(codes "Mob.img", CImage stair)] comps Q z -> (length comps < 4)%nat.
Proof.
  intro G. inversion G as [|? n kids rest Q' ? L _|? n props rest Q' ? L Fo _]; subst; [cbn; lia| |].
  - destruct L as (pre & post & E & _). destruct pre as [|? [|]]; discriminate E.
  - destruct L as (pre & post & E & _). destruct pre as [|? [|]]; try discriminate E. injection E as <- <- <-. apply stair_short in Fo. cbn [stair_rank] in Fo. cbn [length]. exact (le_n_S _ _ (le_n_S _ _ Fo)).
Qed.
(** [link83] is a package whose links go round, [stair83] one whose links do not. *)
Lemma link83_package : package link83 None None 83 link_content.
Proof.
  destruct C265_example as ((_ & Hd & De & Fo & L & Fn & Fw) & _).
  eexists. eapply package_classic with (r := Global) (t := codes "Mob.img"); [exact Hd|reflexivity|reflexivity|lia|exact De|exact Fo|exact L|exact Fn|vm_compute; repeat constructor; discriminate|discriminate|exact Logic.I|exact Fw].
Qed.
Lemma stair83_package : package stair83 None None 83 [(codes "Mob.img", CImage stair)].
Proof.
  destruct C265_example as ((_ & _ & De & Fo & _) & _). destruct C269_example as ((_ & Hd & L & Fn & Fw) & _).
  eexists. eapply package_classic with (r := Global) (t := codes "Mob.img"); [exact Hd|reflexivity|reflexivity|lia|exact De|exact Fo|exact L|exact Fn|vm_compute; repeat constructor; discriminate|discriminate|exact Logic.I|exact Fw].
Qed.
(** The nodes found one after another. *)
Fixpoint nodes (w : world) (paths : list text) : list (res id) :=
  match paths with [] => [] | p :: r => let '(x, w1) := w_at_path_parsed (iv_key (aes256 user_key)) chacha_block 20 w 0 p in x :: nodes w1 r end.
Example C274_example :
  bytes link83 /\ package link83 None None 83 link_content /\
  gets link_content [codes "Mob.img"; codes "t"; codes "b"; codes "s"; codes "l"] [codes "Mob.img"; codes "a"] (PlProp (PInt 300)) /\
  gets link_content [codes "Mob.img"; codes "a"] [codes "Mob.img"; codes "a"] (PlProp (PInt 300)) /\
  match nodes (snd (w_parse (iv_key (aes256 user_key)) chacha_block 20 (w_open (codes "Mob.wz") link83 None None 83 []) 0 0))
    [codes "Mob.img/t/b/s/l"; codes "Mob.img/a"; codes "Mob.img/s/b"; codes "Mob.img"] with
  | [Ok i; Ok j; Ok k; Ok l] => i = j /\ k = l /\ i <> k
  | _ => False
  end.
Proof.
  split; [exact (proj1 (proj1 C265_example))|]. split; [exact link83_package|]. split; [exact link_gets|]. split.
  - eapply gets_image; [exists [], [(codes "d", CDir [(codes "j.img", CImage small_props)])]; split; [reflexivity|intros [E|[]]; discriminate E]| |apply linky_leads; auto].
    eapply follows_plain; [apply linky_leads; auto|apply not_link; discriminate|constructor].
  - vm_compute. repeat split. discriminate.
Qed.
Example C275_example :
  let st := iv_key (aes256 user_key) in
  let walk := fun buf d => outcome (w_walk st chacha_block 20 (@rev (text * id)) d true (snd (w_parse st chacha_block 20 (w_open (codes "Mob.wz") buf None None 83 []) 0 0)) 0) in
  (package link83 None None 83 link_content /\ (forall b, exists comps Q z, gets link_content comps Q z /\ (b <= length comps)%nat) /\ walk link83 40%nat = 2%nat) /\
  (package stair83 None None 83 [(codes "Mob.img", CImage stair)] /\ (forall comps Q z, gets [(codes "Mob.img", CImage stair)] comps Q z -> (length comps < 4)%nat) /\ walk stair83 40%nat = 0%nat).
Proof.
  split; (split; [first [exact link83_package|exact stair83_package]|]).
  - split; [|vm_compute; reflexivity]. intro b. exists (codes "Mob.img" :: concat (repeat [codes "s"; codes "b"] b)), [codes "Mob.img"], (PlImage linky). split.
    + eapply gets_image; [exists [], [(codes "d", CDir [(codes "j.img", CImage small_props)])]; split; [reflexivity|intros [X|[]]; discriminate X]|apply linky_round|constructor].
    + cbn [length]. rewrite round_length. lia.
  - split; [exact stair_bounded|vm_compute; reflexivity].
Qed.
