(** Pictures and other data in archives whose images have links: C280, C281. *)
From Coq Require Import ZArith List Bool Lia ZifyBool ZifyNat Permutation.
From Coq Require String Ascii.
From Verif.Model Require Import Base Utf Keys Reader WzStr Header Offset VersionPkg1 VersionPkg2 Directory Image Media Guess File Png Node Snow2 Ms World WorldPicture.
From Verif.Spec Require Import Wire Stream StrWire HeaderSpec Version Media PropWire PropView DirWire DirView DirWire2 Aes KeyFind PropEnc PathSpec Tree ChaCha Snow2 Ms MsFile MsFile2 Whole Pixel Picture Portrait Linked WholeLinks PortraitLinks.
From Verif.Proofs Require Import OpenL BaseL WireL KeysL AtL MediaL EncL ImageL GuessL FileL NodeL WorldL WalkWL Snow2L MsReadL MsFileL CanvasL PortraitL LinkedL LinkWorldL TourLinksL PortraitLinksL OwnL.
From Verif.Props Require Import P_Media P_Header P_Strict P_Version P_Directory P_Node P_Guess P_File P_Canvas P_Ms P_MsRead2 P_Ms2 P_Whole P_Tour P_Archive P_ImgFile P_Linked P_Detect P_Portrait P_Album P_LinkPack P_LinkTour P_LinkEnd P_LinkPicture.
Import ListNotations. Import String.StringSyntax.
Open Scope Z_scope.

(** As for packages ([gives_linked_pictures]), with the picture kept in the image itself. *)
Definition gives_own_linked_pictures (st : list Z -> nat -> Z) (bl : list Z -> list Z -> Z -> list Z) (f : nat) (inflate : bool -> list Z -> Z -> option (list Z))
    (bc7 : list Z -> Z -> Z -> option (list Z)) (rayon : bool) (w : world) (images : list (meta * list Z)) (cs : list (list Z * content)) : Prop :=
  forall w1 n data props Q r, used st bl f w w1 -> Q <> [] -> Forall (fun c => ~ In 47 c) (n :: Q) -> in_archive images cs n data props -> depicts props Q r ->
  exists i w', w_at_path_parsed st bl f w1 0 (joined (n :: Q)) = (Ok i, w') /\
    match r with
    | None => exists d0, forall d, (d0 <= d)%nat -> w_get_image st bl f inflate bc7 rayon d [] w' i = (Err (EOther 70), w')
    | Some v => forall raw wd h fm, holds_picture inflate rayon data (fun _ => 0) v raw wd h fm ->
        exists d0 l, (forall d, (d0 <= d)%nat -> w_get_image st bl f inflate bc7 rayon d [] w' i = (Ok l, w')) /\ Pixel.picture wd h l (pixel_of fm raw wd)
    end.
Definition gives_own_linked_data (st : list Z -> nat -> Z) (bl : list Z -> list Z -> Z -> list Z) (f : nat) (w : world)
    (images : list (meta * list Z)) (cs : list (list Z * content)) : Prop :=
  forall w1 n data props Q v, used st bl f w w1 -> Q <> [] -> Forall (fun c => ~ In 47 c) (n :: Q) -> in_archive images cs n data props -> comes_to props Q v ->
  exists i w' rr o, w_at_path_parsed st bl f w1 0 (joined (n :: Q)) = (Ok i, w') /\ w_thing w' i = ThProp rr o /\
    match v with
    | PSound off size dur hoff => exists s, o = OSound s /\ forall header stored, 0 <= hoff -> at_ data hoff off header -> at_ data off (off + size) stored ->
        (zlen header = 70 /\ ~ (dur = 1000 /\ length_field data hoff size) -> snd_buffer rr s = Ok (wav_file (firstn 16 (skipn 52 header)) stored)) /\
        (zlen header <> 70 \/ (dur = 1000 /\ length_field data hoff size) -> snd_buffer rr s = Ok stored)
    | PRaw off size _ => exists a m, o = ORaw a m /\ forall stored, at_ data off (off + size) stored -> raw_buffer rr a m = Ok stored
    | PVideo off size => exists a m, o = OVideo a m /\ forall stored, at_ data off (off + size) stored -> raw_buffer rr a m = Ok stored
    | _ => True
    end.

Lemma same_named {A} (l : list (list Z * A)) n x y : last_named l n x -> last_named l n y -> x = y.
Proof.
  intros (p1 & q1 & -> & N1) (p2 & q2 & E & N2). revert p2 E. induction p1 as [|u p1 IH]; intros [|u2 p2] Q; cbn [app] in Q.
  - injection Q as -> _. reflexivity.
  - injection Q as <- Q. exfalso. apply N1. rewrite Q, map_app. apply in_or_app. right. left. reflexivity.
  - injection Q as -> Q. exfalso. apply N2. rewrite <- Q, map_app. apply in_or_app. right. left. reflexivity.
  - injection Q as _ Q. eapply IH, Q.
Qed.
Lemma used_mine st bl f j b e x w w1 : to_wz_image bl b e = Ok x -> mine st j b e x w -> used st bl f w w1 -> mine st j b e x w1.
Proof.
  intros X M U. induction U as [|w1 path _ IH|w1 order d tr w2 _ IH Ord E]; [exact M|apply mine_path; assumption|].
  pose proof (mine_walk st bl f j b e x X order true d [] w1 0 IH) as R. unfold w_walk in E. rewrite E in R. exact R.
Qed.
Section top.
  Variable st : list Z -> nat -> Z.
  Variable bl : list Z -> list Z -> Z -> list Z.
  Variable ok : rd -> Prop.
  Variable f : nat.
  Hypothesis F : (0 < f)%nat.
  Variable s : shared.
  Variable name : text.
  Variable cs : list (list Z * content).
  Hypothesis T : forall comps, (exists Q z, gets cs comps Q z) \/ lacks cs comps.
  (** The archive keeps its list of images. *)
  Lemma used_top w w1 sl : walkable st bl ok f s name cs w -> w_heap w 0 = Some (mkCell name (KMsFile true) None sl) -> used st bl f w w1 -> w_heap w1 0 = w_heap w 0.
  Proof.
    intros W H U. induction U as [|w1 path U IH|w1 order d tr w2 U IH Ord E]; [reflexivity| |]; destruct (used_linked st bl ok f F s name cs T w w1 W U) as [L1 O1].
    - destruct (linked_look f st bl ok s F cs name T w1 path L1) as [_ [_ G]]. pose proof L1 as (B & _). rewrite <- IH in H.
      destruct (G 0 (B _ _ H)) as [[E _]|[(n & p & sl' & E & _)|(n & k & p & sl' & E & Uk & _)]]; [rewrite E; exact IH|rewrite H in E; discriminate E|].
      rewrite H in E. injection E as _ <- _ _. discriminate Uk.
    - pose proof L1 as (B & A & _). rewrite <- IH in H.
      destruct (walk_content f st bl ok s F order Ord d (CDir cs) w1 0 (conj B O1) A) as [(tr' & w' & ps & E' & ((_ & D & _) & _ & _) & _)|(w' & E' & _)];
        rewrite (locked_free _ _ _ _ _ _ _ _ _ _ _ E) in E'; [|discriminate]. injection E' as _ <-.
      destruct (D 0 (B _ _ H)) as [[X _]|[(n & p & sl' & X & _)|(n & k & p & sl' & k' & sl'' & X & _ & _ & Nt & _)]]; [rewrite X; exact IH|rewrite H in X; discriminate X|].
      rewrite H in X. injection X as _ <- _ _. exfalso. apply Nt. right. reflexivity.
  Qed.
End top.

(** At the image. *)
Lemma archive_enter_links block name buf file images cs : bytes buf -> zlen buf < 2 ^ 63 -> archive block buf file images -> holds_links images cs ->
  exists w0 f0, w_open_ms block name file buf = Ok w0 /\ forall f, (f0 <= f)%nat -> exists w, let st := iv_key (aes256 user_key) in
    w_parse st block f w0 0 0 = (Ok tt, w) /\ (0 < f)%nat /\
    forall w1 n data props, used st block f w w1 -> in_archive images cs n data props -> exists a w2 r0,
      (forall Q, Q <> [] -> Forall (fun c => ~ In 47 c) (n :: Q) -> w_at_path_parsed st block f w1 0 (joined (n :: Q)) = w_fold st block f w2 a Q) /\
      clear w2 a /\ good f (eq r0) w2 a props /\ rd_buf r0 = data /\ (forall j, rd_ks r0 j = 0) /\ zlen data < 2 ^ 31.
Proof.
  intros Hb Hs A H. destruct (archive_linked block name buf file images cs Hb Hs A H) as (w0 & f0 & O & N & T & W). exists w0, f0. split; [exact O|].
  intros f Hf. destruct (W f Hf) as (w & s & E & F & L). exists w. cbv zeta. set (st := iv_key (aes256 user_key)) in *. split; [exact E|]. split; [exact F|].
  assert (K : walkable st block (of_image images) f s name cs w).
  { split; [exact L|]. change w with (snd (Ok (A := unit) tt, w)). rewrite <- E. apply one_parse, N. }
  destruct (archive_entries block buf file images Hb Hs A) as (h & es & Oh & Pe & Fe). unfold w_open_ms in O. rewrite Oh in O. cbn [rmap rbind] in O. injection O as <-.
  destruct (ms_things st block f name buf h es w Pe E) as ((sl & H0) & Th).
  intros w1 n data props U [La Lc].
  assert (Fn : Forall2 (fun a b => fst a = fst b /\ (fun e d => to_wz_image block buf e = Ok d /\ zlen d < 2 ^ 31) (snd a) (snd b)) (map (fun e => (me_name e, e)) es) (by_name images)).
  { clear - Fe. induction Fe as [|e p es images (N & T & Z) _ IH]; constructor; [cbn [fst snd]; auto|exact IH]. }
  destruct (named_twin _ _ _ Fn n data La) as (e & Le & Te & Sz). destruct (Th n e Le) as (j & G & J & Tj).
  assert (M1 : mine st j buf e data w1) by (eapply used_mine; [exact Te| |exact U]; split; [exact J|left; exact Tj]).
  pose proof (used_top st block _ f F s name cs T w w1 sl K H0 U) as R1. destruct (used_linked st block _ f F s name cs T w w1 K U) as [L1 _]. pose proof L1 as (B1 & A1 & _).
  assert (G1 : node_at (w_heap w1) 0 n = Some j) by (unfold node_at in *; rewrite R1; exact G).
  assert (L2 : leads (PlDir cs) [n] (PlImage props)) by (eapply leads_on; [apply (inside_dir _ _ (CImage props)), Lc|constructor]).
  assert (Cl : clear w1 0) by (eapply clear_top; [rewrite R1; exact H0|reflexivity|intros (_ & b & Kb); discriminate Kb]).
  destruct (dirs_clear f F st block _ s props [n] cs w1 0 B1 A1 Cl L2) as (a & w1' & E1 & B1' & _ & W1 & C1).
  assert (S1 : w1' = w1 /\ a = j).
  { cbn [w_fold] in E1. unfold w_parse in E1. rewrite R1, H0 in E1. cbn [nd_kind unread negb] in E1. rewrite G1 in E1. injection E1 as <- <-. auto. }
  destruct S1 as [-> ->]. destruct (image_parse f st block _ s F w1 j props B1 W1) as (w2 & E2 & B2 & G2 & Go).
  pose proof (clear_grows f st block _ w1 w2 j B1 G2 C1) as C2.
  assert (M2 : mine st j buf e data w2) by (replace w2 with (snd (w_parse st block f w1 j j)) by (rewrite E2; reflexivity); apply mine_parse; assumption).
  pose proof Go as (r0 & nm & off & size & c & Or & Ta & Ha & Ka & Rest). exists j, w2, r0.
  assert (Er : r0 = own_reader st data) by (destruct M2 as [_ [X|(? & ? & ? & X)]]; rewrite Ta in X; [discriminate X|injection X as -> _ _ _; reflexivity]).
  assert (Ne : data <> []).
  { intro Z. destruct Lc as (pre & post & -> & Nc). apply Forall2_app_inv_r in H as (i1 & i2 & Hi1 & Hi2 & ->). inversion Hi2 as [|[m d] ? i3 ? (Nm & _ & props' & Ep & La' & _) Hi3]; subst.
    cbn [fst snd] in *. injection Ep as <-.
    assert (Ld : last_named (by_name (i1 ++ (m, d) :: i3)) n d).
    { exists (by_name i1), (by_name i3). split; [unfold by_name; rewrite map_app; cbn [map fst snd]; rewrite Nm; reflexivity|].
      intro I2. apply Nc. clear - I2 Hi3. unfold by_name in I2. induction Hi3 as [|[m0 d0] c ? ? (Nm & _) _ IH]; [exact I2|]. cbn [map fst snd] in *. destruct I2 as [<-|I2]; [left; exact Nm|right; auto]. }
    rewrite (same_named _ _ _ _ Ld La) in La'. destruct La' as (q & e' & (x & y & E3 & _) & _). destruct x; discriminate E3. }
  assert (Ow : own_reader st data = mkRd data (fun _ => 0) (rd_pks (own_reader st data))).
  { unfold own_reader, fresh_reader. destruct data; [congruence|]. reflexivity. }
  split; [|split; [|split; [|split; [|split]]]].
  - intros Q Nq Sl. rewrite (linked_fold f st block _ s cs name w1 _ L1), split_join by (first [exact Sl|discriminate]). change (n :: Q) with ([n] ++ Q). rewrite fold_app, E1.
    destruct Q as [|q Q]; [congruence|]. cbn [w_fold]. rewrite E2. unfold w_parse at 1. rewrite Ha, Ka. reflexivity.
  - exact C2.
  - exists r0, nm, off, size, c. auto.
  - rewrite Er, Ow. reflexivity.
  - intro k. rewrite Er, Ow. reflexivity.
  - exact Sz.
Qed.

(** C280: archives give the pictures that the paths into their images stand for. *)
Theorem C280_archive_linked_pictures : forall inflate bc7 rayon block name buf file images cs,
  bytes buf -> zlen buf < 2 ^ 63 -> archive block buf file images -> holds_links images cs ->
  exists w0 f0, w_open_ms block name file buf = Ok w0 /\ forall f, (f0 <= f)%nat -> exists w,
    w_parse (iv_key (aes256 user_key)) block f w0 0 0 = (Ok tt, w) /\
    gives_own_linked_pictures (iv_key (aes256 user_key)) block f inflate bc7 rayon w images cs.
Proof.
  intros inflate bc7 rayon block name buf file images cs Hb Hs A H. destruct (archive_enter_links block name buf file images cs Hb Hs A H) as (w0 & f0 & O & P).
  exists w0, f0. split; [exact O|]. intros f Hf. destruct (P f Hf) as (w & E & F & V). exists w. split; [exact E|].
  intros w1 n data props Q v U Nq Sl In_ De. destruct (V w1 n data props U In_) as (a & w2 & r0 & Fo & Cl & Go & Eb & Ek & Sz). rewrite (Fo Q Nq Sl).
  assert (Fl : exists X, follows props [] Q X) by (inversion De as [? Fl|? ? (X & Fl & _)|? ? ? ? (X & Fl & _)|? ? ? (X & Fl & _)|? ? (X & Fl & _)]; subst; eauto). destruct Fl as [X Fl].
  pose proof Go as (r1 & nm & off & size & c & Or1 & Ta & Ha & Ka & _ & _ & R). destruct (proj1 (R Q) X Fl) as (j & z & _ & Pj & _).
  destruct (passes_fold _ _ _ _ Pj (iv_key (aes256 user_key)) block f) as [_ Fq]. exists j, w2. split; [exact Fq|].
  destruct (depicted f F (iv_key (aes256 user_key)) block _ inflate bc7 rayon w2 a props Go Cl Q v De j Pj []) as (d0 & x & Sh & G).
  destruct v as [v|]; cbn [shown_as] in Sh; [|subst x; eauto].
  intros raw wd h fm (f1 & f2 & pg & hd & of & sz & kids & -> & -> & Hf' & Hw & Hh & Hz & Hby & D & K & M & M3).
  destruct Sh as (rr & <- & ->).
  destruct (extract_picture inflate bc7 rayon r0 (Png.mkPng of sz f1 f2 hd wd h) raw (zlen raw)) as (l & El & Pl);
    cbn [pg_fmt1 pg_fmt2 pg_w pg_h pg_off pg_size pg_header]; try assumption; try reflexivity.
  - rewrite Eb. lia.
  - rewrite Eb. eapply kept_key; [|exact K]. intro i. apply Ek.
  - exists d0, l. split; [intros d Hd; rewrite (G d Hd), El; reflexivity|exact Pl].
Qed.
Print Assumptions C280_archive_linked_pictures.

(** C281: and the data. *)
Theorem C281_archive_linked_data : forall block name buf file images cs,
  bytes buf -> zlen buf < 2 ^ 63 -> archive block buf file images -> holds_links images cs ->
  exists w0 f0, w_open_ms block name file buf = Ok w0 /\ forall f, (f0 <= f)%nat -> exists w,
    w_parse (iv_key (aes256 user_key)) block f w0 0 0 = (Ok tt, w) /\
    gives_own_linked_data (iv_key (aes256 user_key)) block f w images cs.
Proof.
  intros block name buf file images cs Hb Hs A H. destruct (archive_enter_links block name buf file images cs Hb Hs A H) as (w0 & f0 & O & P).
  exists w0, f0. split; [exact O|]. intros f Hf. destruct (P f Hf) as (w & E & F & V). exists w. split; [exact E|].
  intros w1 n data props Q v U Nq Sl In_ Cv. destruct (V w1 n data props U In_) as (a & w2 & r0 & Fo & Cl & Go & Eb & _ & Sz). rewrite (Fo Q Nq Sl).
  destruct (come_node f _ w2 a props Go Q v Cv) as (j & rr & o & sub & <- & Pj & Tj & Sh & _).
  destruct (passes_fold _ _ _ _ Pj (iv_key (aes256 user_key)) block f) as [_ Fq]. exists j, w2, r0, o. split; [exact Fq|]. split; [exact Tj|].
  rewrite <- Eb in Sz |- *. destruct v; try exact I.
  - inversion Sh as [| | | | | | | | | | | | |? ? ? ? ty K| |]; subst. eexists. split; [reflexivity|]. intros header data H0 Hh Hd.
    destruct (C36_shown r0 _ _ _ _ _ header data Sh H0 Hh Hd Sz) as (Bu & _ & Ty). split.
    + intro C. apply Ty in C. rewrite C in Bu. exact Bu.
    + intro C. destruct (snd_type _); [exact Bu| |exact Bu]. destruct Ty as [Ty _]. specialize (Ty eq_refl). tauto.
  - inversion Sh; subst. eexists _, _. split; [reflexivity|]. intros data Hd. apply C112_stored; [exact Hd|lia].
  - inversion Sh; subst. eexists _, _. split; [reflexivity|]. intros data Hd. apply C112_stored; [exact Hd|lia].
Qed.
Print Assumptions C281_archive_linked_data.

(** An archive of version 2 whose image "p.img" is the one with links ([gal_block]). *)
Definition bare_gal : list Z := Eval vm_compute in gal_block (fun _ => 0).
Lemma bare_gal_laid : laid_image bare_gal (fun _ => 0) 0 (gal_props 0).
Proof.
  exists 10, 159. split; [at_tac|]. split; [at_tac|].
  apply (list_at _ _ _ 12 13 159); [split; [vm_compute; split; congruence|at_tac]|].
  apply (entries_cons _ _ _ 13 16 52 159); [blk 13 16| |].
  { apply (value_ext _ _ _ 16 52 46 31); [lia|at_tac|reflexivity|]. apply (ext_canvas_plain _ _ _ 21 29 46 52 0); [blk 21 29|lia|lia|at_tac|].
    apply (canvas_at _ 31 32 33 34 36 37 2 1 2 0 0 0 40056 8); try lia; first [split; [lia|at_tac]|at_tac]. }
  apply (entries_cons _ _ _ 52 55 69 159); [blk 52 55| |].
  { apply (value_ext _ _ _ 55 69 69 9); [lia|at_tac|reflexivity|]. apply (ext_uol _ _ _ 60 65 69 69); [blk 60 65|blk 66 69]. }
  apply (entries_cons _ _ _ 69 72 120 159); [blk 69 72| |].
  { apply (value_ext _ _ _ 72 120 118 43); [lia|at_tac|reflexivity|]. apply (ext_canvas_kids _ _ _ 77 85 103 118 120); [blk 77 85|at_tac| |].
    - apply (list_at _ _ _ 89 90 103); [split; [vm_compute; split; congruence|at_tac]|].
      apply (entries_cons _ _ _ 90 99 103 103); [blk 90 99|apply value_str; [at_tac|blk 100 103]|constructor].
    - apply (canvas_at _ 103 104 105 106 108 109 1 1 2 0 0 0 40056 4); try lia; first [split; [lia|at_tac]|at_tac]. }
  apply (entries_cons _ _ _ 120 123 142 159); [blk 120 123| |].
  { apply (value_ext _ _ _ 123 142 139 14); [lia|at_tac|reflexivity|]. apply (ext_raw_plain _ _ _ 128 137 139 142 0 3); [blk 128 137|lia|lia|at_tac|lia|split; [lia|at_tac]]. }
  apply (entries_cons _ _ _ 142 145 159 159); [blk 142 145| |constructor].
  apply (value_ext _ _ _ 145 159 159 9); [lia|at_tac|reflexivity|]. apply (ext_uol _ _ _ 150 155 159 159); [blk 150 155|blk 156 159].
Qed.
Definition galms_meta : meta := Meta (codes "p.img") 5 6 1 159 160 7 8 ex_key1 11 (-12).
Definition galms_metas : list meta := [galms_meta; arc_meta2].
Definition galms_images : list (meta * list Z) := [(galms_meta, bare_gal); (arc_meta2, arc_x)].
Definition galms_content : list (list Z * content) := [(codes "p.img", CImage (gal_props 0)); (codes "Mob/x.img", CImage arc_props)].
Definition galms_fill : list Z := Eval vm_compute in [0].
Definition galms_pieces := flat_map pieces2 galms_metas.
Definition galms_table : list Z := quick (table_key2 ex_fb) (repeat 0 12) (counter (ends 0 galms_pieces)) (Ms.stream galms_pieces ++ repeat 0 52).
Definition galms : list Z := Eval vm_compute in
  ex_rand ++ [1] ++ [7; 1; 2; 3] ++ e2_hidden ++ e2_enc 2 ++ repeat 0 131 ++ galms_table ++ repeat 0 445 ++
  e2_store arc_meta2 (arc_x ++ arc_fill2) ++ repeat 0 992 ++ e2_store galms_meta (bare_gal ++ galms_fill).
Lemma galms_metas_ok : Forall meta_ok galms_metas.
Proof.
  apply Forall_cons; [|apply Forall_cons; [|apply Forall_nil]];
    (split; [repeat (apply Forall_cons || apply Forall_nil); cbn; lia|]; split; [discriminate|]; split; [vm|];
     repeat (split; [cbn; unfold i32; lia|]); split; [apply bytes_dec; vm|]; cbn; unfold i32; lia).
Qed.
Lemma galms_image image m filler :
  forallb (fun c => (0 <=? c) && (c <? 128)) (m_name m) = true ->
  len image = m_size m -> len (image ++ filler) = m_aligned m ->
  slice galms (1024 + 1024 * m_start m) (1024 + 1024 * m_start m + m_aligned m) = Some (e2_store m (image ++ filler)) ->
  image_at2 chacha_block galms ex_salt 1024 m image.
Proof.
  intros A L La S. exists ex_digits, filler, (e2_store m (image ++ filler)).
  split.
  - split; [apply Forall_forall; intros x Hx; cbn in Hx; lia|]. split; [vm|]. right. do 2 eexists. split; [reflexivity|discriminate].
  - split; [apply Forall_forall; intros x Hx; rewrite forallb_forall in A; specialize (A x Hx); lia|].
    split; [exact L|]. split; [exact La|]. split; [unfold e2_store; rewrite quick_ok by reflexivity; reflexivity|]. apply at_slice, S.
Qed.
Lemma galms_head : head2 chacha_block galms ex_file ex_salt 77 4 2 387.
Proof.
  exists [97; 98; 46; 109; 115], ex_fb, ex_rand, 7, 1, 2, 3, e2_hidden, (repeat 0 56), (e2_enc 2).
  cbv zeta. change (total [97; 98; 46; 109; 115] mod 312 + 30) with 183. change (183 + 5 + 2 * len ex_salt) with 192.
  split; [apply utf8_check; vm|]. split; [apply utf8_check; vm|]. split; [discriminate|].
  split; [apply (bytes_dec ex_salt); vm|]. split; [vm|]. split; [discriminate|].
  split; [apply at_slice; vm|]. split; [apply at_slice; vm|]. split; [apply at_slice; vm|]. split; [vm|]. split; [apply at_slice; vm|].
  split; [intros [|[|i]] H; [vm|vm|cbn in H; lia]|].
  split; [split; [discriminate|vm]|]. split; [lia|]. split; [split; [discriminate|vm]|]. split; [vm|].
  split; [apply quick_ok; reflexivity|]. split; [apply at_slice; vm|]. split; [vm_compute; discriminate|]. vm.
Qed.
Lemma galms_first : not_version1 galms ex_file.
Proof.
  exists e2_salt1, (sext 32 (le_val (firstn 4 e2_dec1))), (nth 4 e2_dec1 0), (sext 32 (le_val (firstn 4 (skipn 5 e2_dec1)))).
  eexists _, _. split; [|intros [V _]; discriminate V].
  exists [97; 98; 46; 109; 115], e2_fb1, ex_rand, 1, 7, 1, 2, (firstn 20 (skipn 187 galms)), (skipn 9 e2_dec1), (firstn 12 (skipn 207 galms)).
  cbv zeta. change (total [97; 98; 46; 109; 115] mod 312 + 30) with 183. change (183 + 4 + 2 * len e2_salt1) with 207.
  split; [apply utf8_check; vm|]. split; [apply utf8_check; vm|]. split; [discriminate|].
  split; [apply (bytes_dec e2_salt1); vm|]. split; [vm|]. split; [discriminate|].
  split; [apply at_slice; vm|]. split; [apply at_slice; vm|]. split; [vm|]. split; [apply at_slice; vm|].
  split; [intros i H; change (length e2_salt1) with 10%nat in H; do 10 (destruct i as [|i]; [vm|]); lia|].
  split; [split; [discriminate|vm]|]. split; [split; [discriminate|vm]|]. split; [split; [discriminate|vm]|]. split; [vm|].
  split; [apply added_check; [apply head_key_ok|vm|vm]|]. split; [apply at_slice; vm|]. split; reflexivity.
Qed.
Lemma galms_archive : archive chacha_block galms ex_file galms_images.
Proof.
  exists 1024. right. split; [exact chacha64|]. split; [|exact galms_first].
  exists ex_salt, ex_fb, 77, 387, 579. split; [exact galms_head|]. split; [apply utf8_check; vm|].
  split; [exact galms_metas_ok|]. split.
  { exists (repeat 0 52), galms_table. split; [apply quick_ok; reflexivity|]. split; [cbn; lia|]. split; [vm|]. split; [apply at_slice; vm|].
    apply Forall_forall. intros p Hp.
    assert (X : forallb (fun p => 579 + len (piece_bytes p) <=? len galms) (flat_map pieces2 (map fst galms_images)) = true) by vm.
    rewrite forallb_forall in X. apply Z.leb_le, X, Hp. }
  split; [split; [vm|lia]|].
  apply Forall_cons; [|apply Forall_cons; [|apply Forall_nil]]; cbn [fst snd].
  - apply (galms_image _ _ galms_fill); vm.
  - apply (galms_image _ _ arc_fill2); vm.
Qed.
Lemma galms_holds : holds_links galms_images galms_content.
Proof.
  constructor; [|constructor; [|constructor]]; cbn [fst snd galms_meta arc_meta2 m_name]; (split; [reflexivity|]).
  - split; [apply (not_text_img (codes "p"))|]. exists (gal_props 0). split; [reflexivity|]. split; [exact bare_gal_laid|right; exact (conj (gal_tidy 0) (gal_simple 0))].
  - split; [apply (not_text_img (codes "Mob/x"))|]. exists arc_props. split; [reflexivity|]. split; [|left; repeat constructor].
    apply (serialised_image _ _ _ (zlen arc_x)); [vm_compute; reflexivity|repeat (constructor; try lia); apply lit_unicode; reflexivity|]. exists [], []. repeat split.
Qed.
Lemma galms_has : in_archive galms_images galms_content (codes "p.img") bare_gal (gal_props 0).
Proof. split; named_at 0%nat. Qed.
Definition galms_read : world :=
  match w_open_ms chacha_block (codes "Ab") ex_file galms with Ok w => snd (w_parse (iv_key (aes256 user_key)) chacha_block 40 w 0 0) | _ => nowhere [] end.
Example C280_example :
  (bytes galms /\ archive chacha_block galms ex_file galms_images /\ holds_links galms_images galms_content /\ in_archive galms_images galms_content (codes "p.img") bare_gal (gal_props 0)) /\
  depicts (gal_props 0) [codes "l"] (Some (gal_c 0)) /\ holds_picture as_is false bare_gal (fun _ => 0) (gal_c 0) [120; 156; 3; 4; 5; 6; 7; 8] 2 1 2 /\
  P_Portrait.seen galms_read (codes "p.img/l") = Ok [[3; 156; 120; 4]; [7; 6; 5; 8]].
Proof.
  split; [split; [apply bytes_check; vm_compute; reflexivity|split; [exact galms_archive|split; [exact galms_holds|exact galms_has]]]|].
  split; [exact (gal_shows 0)|]. split; [|vm_compute; reflexivity].
  do 7 eexists. split; [reflexivity|]. split; [reflexivity|]. split; [lia|]. split; [lia|]. split; [lia|]. split; [lia|]. split; [byte_list|].
  split; [apply (size_four 2); left; reflexivity|]. split; [as_they_are|unfold in_blocks; split; intros; lia].
Qed.
Example C281_example :
  comes_to (gal_props 0) [codes "q"] (gal_r 0) /\ at_ bare_gal 139 142 [201; 202; 203] /\ bytes_behind galms_read (codes "p.img/q") = Ok [201; 202; 203].
Proof. split; [exact (proj1 C279_example)|]. split; [at_tac|]. vm_compute. reflexivity. Qed.
