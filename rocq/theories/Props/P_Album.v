(** C260, C261: pictures and other data in archives, from the bytes of the file to the pixels at the end of a path. *)
From Coq Require Import ZArith List Bool Lia ZifyBool ZifyNat Permutation.
From Coq Require String Ascii.
From Verif.Model Require Import Base Utf Keys Reader WzStr Header Offset VersionPkg1 VersionPkg2 Directory Image Media Guess File Png Node Snow2 Ms World WorldPicture.
From Verif.Spec Require Import Wire Stream StrWire HeaderSpec Version Media PropWire PropView DirWire DirView DirWire2 Aes KeyFind PropEnc PathSpec Tree ChaCha Snow2 Ms MsFile MsFile2 Whole Pixel Picture Portrait.
From Verif.Proofs Require Import OpenL BaseL WireL KeysL AtL MediaL EncL ImageL GuessL FileL NodeL WorldL WalkWL Snow2L MsReadL MsFileL CanvasL PortraitL.
From Verif.Props Require Import P_Media P_Header P_Strict P_Version P_Directory P_Node P_Guess P_File P_Canvas P_Ms P_MsRead2 P_Ms2 P_Whole P_Archive P_ImgFile P_Portrait.
Import ListNotations. Import String.StringSyntax.
Open Scope Z_scope.

(** The images by name. *)
Definition by_name (images : list (meta * list Z)) : list (list Z * list Z) := map (fun p => (m_name (fst p), snd p)) images.
(** [props] is what the archive has in its image [n] (the last of that name), which is kept in [data]. *)
Definition in_archive (images : list (meta * list Z)) (cs : list (list Z * content)) (n data : list Z) (props : list (list Z * prop)) : Prop :=
  last_named (by_name images) n data /\ last_named cs n (CImage props).

(** As for packages ([gives_pictures]), with the picture kept in the image itself. *)
Definition gives_own_pictures (st : list Z -> nat -> Z) (bl : list Z -> list Z -> Z -> list Z) (f : nat) (inflate : bool -> list Z -> Z -> option (list Z))
    (bc7 : list Z -> Z -> Z -> option (list Z)) (rayon : bool) (w : world) (images : list (meta * list Z)) (cs : list (list Z * content)) : Prop :=
  forall past n data props Q r, Q <> [] -> Forall (fun c => ~ In 47 c) (n :: Q) -> in_archive images cs n data props -> portrays props Q r ->
  exists i w', w_at_path_parsed st bl f (lookups st bl f w past) 0 (joined (n :: Q)) = (Ok i, w') /\
    match r with
    | None => exists d0, forall d, (d0 <= d)%nat -> w_get_image st bl f inflate bc7 rayon d [] w' i = (Err (EOther 70), w')
    | Some v => forall raw wd h fm, holds_picture inflate rayon data (fun _ => 0) v raw wd h fm ->
        exists d0 l, (forall d, (d0 <= d)%nat -> w_get_image st bl f inflate bc7 rayon d [] w' i = (Ok l, w')) /\ Pixel.picture wd h l (pixel_of fm raw wd)
    end.
(** As for packages ([gives_data]). *)
Definition gives_own_data (st : list Z -> nat -> Z) (bl : list Z -> list Z -> Z -> list Z) (f : nat) (w : world)
    (images : list (meta * list Z)) (cs : list (list Z * content)) : Prop :=
  forall past n data props Q v, Forall (fun c => ~ In 47 c) (n :: Q) -> in_archive images cs n data props -> leads (PlImage props) Q (PlProp v) ->
  exists i w' rr o, w_at_path_parsed st bl f (lookups st bl f w past) 0 (joined (n :: Q)) = (Ok i, w') /\ w_thing w' i = ThProp rr o /\
    match v with
    | PSound off size dur hoff => exists s, o = OSound s /\ forall header stored, 0 <= hoff -> at_ data hoff off header -> at_ data off (off + size) stored ->
        (zlen header = 70 /\ ~ (dur = 1000 /\ length_field data hoff size) -> snd_buffer rr s = Ok (wav_file (firstn 16 (skipn 52 header)) stored)) /\
        (zlen header <> 70 \/ (dur = 1000 /\ length_field data hoff size) -> snd_buffer rr s = Ok stored)
    | PRaw off size _ => exists a m, o = ORaw a m /\ forall stored, at_ data off (off + size) stored -> raw_buffer rr a m = Ok stored
    | PVideo off size => exists a m, o = OVideo a m /\ forall stored, at_ data off (off + size) stored -> raw_buffer rr a m = Ok stored
    | _ => True
    end.

Lemma planted_ms buf i es : forall w w' l us, plant_list (plant_ms buf i) w (map (fun e => (me_name e, e)) es) = (w', l, us) ->
  keeps w w' /\ Forall2 (fun e d => fst e = fst d /\ (fun (_ : text) x j => w_next w <= j < w_next w' /\ w_thing w' j = ThMsImage buf x) (fst e) (snd e) (snd d)) (map (fun e => (me_name e, e)) es) l.
Proof.
  induction es as [|e es IH]; intros w w' l us; cbn [map].
  - intros [= <- <- <-]. split; [apply keeps_refl|constructor].
  - rewrite plant_list_cons. unfold plant_ms at 1. destruct (World.fresh w (me_name e) (ThMsImage buf e) (Some i)) as [w3 i3] eqn:E3.
    apply fresh_ok in E3 as (-> & N3 & K3 & _ & T3 & _).
    destruct (plant_list (plant_ms buf i) w3 _) as [[w4 l4] u4] eqn:E4. destruct (IH _ _ _ _ E4) as (K4 & R4).
    intros [= <- <- <-]. split; [eapply keeps_trans; eassumption|]. destruct K4 as [N4 K4]. constructor.
    + cbn [fst snd]. split; [reflexivity|]. split; [lia|]. destruct (K4 (w_next w) ltac:(lia)) as [_ ->]. exact T3.
    + clear - R4 N3. induction R4 as [|a b ? ? (A1 & A2 & A3) _ IHr]; constructor; [|exact IHr]. split; [exact A1|]. split; [lia|exact A3].
Qed.
Lemma ms_things st bl f name buf h es w : ms_parse bl h buf = Ok es -> w_parse st bl f (fst (World.fresh (nowhere []) name (ThMsFile buf h) None)) 0 0 = (Ok tt, w) ->
  (exists sl, w_heap w 0 = Some (mkCell name (KMsFile true) None sl)) /\
  forall n e, last_named (map (fun e => (me_name e, e)) es) n e -> exists j, node_at (w_heap w) 0 n = Some j /\ j < w_next w /\ w_thing w j = ThMsImage buf e.
Proof.
  intros P. unfold World.fresh, nowhere. cbn [fst w_next w_heap w_thing w_cache kind_of]. set (w0 := mkWorld _ _ _ _).
  assert (C0 : w_heap w0 0 = Some (mkCell name (KMsFile false) None [])) by reflexivity.
  unfold w_parse. rewrite C0. cbn [nd_kind unread negb]. unfold w_load. change (w_thing w0 0) with (ThMsFile buf h). cbv iota. rewrite P.
  destruct (plant_list (plant_ms buf 0) w0 _) as [[w1 l] us] eqn:E. destruct (planted_ms buf 0 es _ _ _ _ E) as ([N K] & R). change (w_next w0) with 1 in *. destruct (K 0 ltac:(lia)) as [H0 _].
  unfold parse. rewrite C0. cbn [nd_kind]. unfold parse_as. rewrite H0, C0. cbn [fold_left nd_name nd_parent nd_slots].
  change (fold_left (fun l0 e => slot_insert l0 (fst e) (snd e)) l []) with (filled l). intros [= <-]. cbn [w_heap w_thing w_next]. split; [eexists; unfold Node.put; reflexivity|].
  intros n e L. destruct (filled_last (fun (_ : text) x j => 1 <= j < w_next w1 /\ w_thing w1 j = ThMsImage buf x) _ _ R n e L) as (j & G & Bj & T). exists j. split; [unfold node_at, Node.put; cbn; exact G|]. split; [lia|exact T].
Qed.
Lemma own_image f st bl ok s w w2 j props buf e x : ext f st bl w w2 -> j < w_next w -> w_thing w j = ThMsImage buf e -> to_wz_image bl buf e = Ok x ->
  at_place f st bl ok s w2 j (PlImage props) -> at_place f st bl (eq (own_reader st x)) s w2 j (PlImage props).
Proof.
  intros [_ X] J T Tx (p & name & R). exists p, name. inversion R as [? kids ? ? ? r off size k l H Sr O I Re L|]; subst.
  eapply rc_image with (k := k) (l := l); try eassumption.
  destruct (X j J) as [[_ T']|[(n' & q & sl' & _ & _ & T')|(n' & k' & q & r' & nm & off' & size' & ks & us & l' & _ & _ & Sr' & _ & _ & T' & _)]].
  - rewrite T', T in Sr. inversion Sr; subst. congruence.
  - rewrite T', T in Sr. inversion Sr; subst. congruence.
  - rewrite T' in Sr. rewrite T in Sr'. inversion Sr'; subst. inversion Sr; subst. congruence.
Qed.

Lemma named_twin {A B} (R : A -> B -> Prop) l l' : Forall2 (fun a b => fst a = fst b /\ R (snd a) (snd b)) l l' -> forall n (x : B), last_named l' n x -> exists y : A, last_named l n y /\ R y x.
Proof.
  intros F n x (pre & post & -> & N). apply Forall2_app_inv_r in F as (l1 & l2 & F1 & F2 & ->). inversion F2 as [|[k y] ? l3 ? [E D] F3]; subst. cbn [fst snd] in *. subst k.
  exists y. split; [|exact D]. exists l1, l3. split; [reflexivity|]. intro I. apply N. clear - I F3. induction F3 as [|a b ? ? [E _] _ IH]; [exact I|]. cbn [map] in *. destruct I as [<-|I]; [left; symmetry; exact E|right; auto].
Qed.

(** At the image. *)
Lemma archive_enter block name buf file images cs : bytes buf -> zlen buf < 2 ^ 63 -> archive block buf file images -> holds images cs ->
  exists w0 f0, w_open_ms block name file buf = Ok w0 /\ forall f, (f0 <= f)%nat -> exists w, let st := iv_key (aes256 user_key) in
    w_parse st block f w0 0 0 = (Ok tt, w) /\ (0 < f)%nat /\
    forall past n data props, in_archive images cs n data props -> exists a w1 r0,
      (forall Q, Forall (fun c => ~ In 47 c) (n :: Q) -> w_at_path_parsed st block f (lookups st block f w past) 0 (joined (n :: Q)) = w_fold st block f w1 a Q) /\
      bounded w1 /\ clear w1 a /\ at_place f st block (eq r0) no_shared w1 a (PlImage props) /\ rd_buf r0 = data /\ (forall j, rd_ks r0 j = 0) /\ zlen data < 2 ^ 31.
Proof.
  intros Hb Hs A H. destruct (archive_opens block name buf file images cs Hb Hs A H) as (w0 & f0 & O & P). exists w0, f0. split; [exact O|].
  intros f Hf. destruct (P f Hf) as (w & E & F & W). exists w. cbv zeta. set (st := iv_key (aes256 user_key)) in *. split; [exact E|]. split; [exact F|].
  destruct (archive_entries block buf file images Hb Hs A) as (h & es & Oh & Pe & Fe). unfold w_open_ms in O. rewrite Oh in O. cbn [rmap rbind] in O. injection O as <-.
  destruct (ms_things st block f name buf h es w Pe E) as ((sl & H0) & Th).
  intros past n data props [La Lc].
  assert (Fn : Forall2 (fun a b => fst a = fst b /\ (fun e d => to_wz_image block buf e = Ok d /\ zlen d < 2 ^ 31) (snd a) (snd b)) (map (fun e => (me_name e, e)) es) (by_name images)).
  { clear - Fe. induction Fe as [|e p es images (N & T & Z) _ IH]; constructor; [cbn [fst snd]; auto|exact IH]. }
  destruct (named_twin _ _ _ Fn n data La) as (e & Le & Te & Sz). destruct (Th n e Le) as (j & G & J & Tj).
  destruct (lookups_ok st block _ f _ _ _ F past w W) as [W1 X1]. set (w1 := lookups st block f w past) in *. clearbody w1. pose proof W1 as (B1 & A1 & _).
  assert (R1 : w_heap w1 0 = w_heap w 0).
  { destruct X1 as [_ X1]. destruct (X1 0 ltac:(destruct W as (B & _); exact (B 0 _ H0))) as [[E1 _]|[(n' & q & sl' & E1 & _)|(n' & k' & q & r' & nm & off' & size' & ks & us & l' & E1 & U' & _)]];
      [exact E1|rewrite H0 in E1; discriminate E1|rewrite H0 in E1; injection E1 as _ <- _ _; discriminate U']. }
  assert (G1 : node_at (w_heap w1) 0 n = Some j) by (unfold node_at in *; rewrite R1; exact G).
  destruct (walk f st block _ _ F [n] w1 0 _ B1 A1) as [Wk _].
  assert (L1 : leads (PlDir cs) [n] (PlImage props)) by (eapply leads_on; [apply (inside_dir _ _ (CImage props)), Lc|constructor]).
  destruct (Wk _ L1) as (a & w2 & E2 & X2 & B2 & A2 & _).
  assert (S2 : w2 = w1 /\ a = j).
  { cbn [w_fold] in E2. unfold w_parse in E2. rewrite R1, H0 in E2. cbn [nd_kind unread negb] in E2. rewrite G1 in E2. injection E2 as <- <-. auto. }
  destruct S2 as [-> ->]. exists j, w1, (own_reader st data).
  assert (Ne : data <> []).
  { intro Z. pose proof (own_image f st block _ _ w w1 j props buf e data X1 J Tj Te A2) as (p & nm & R). inversion R as [? kids ? ? ? r off size k l Hc Sr Or I Re Lx|]; subst.
    destruct Lc as (pre & post & -> & Nc). apply Forall2_app_inv_r in H as (i1 & i2 & Hi1 & Hi2 & ->). inversion Hi2 as [|[m d] ? i3 ? (Nm & _ & props' & Ep & La' & _) Hi3]; subst.
    cbn [fst snd] in *. injection Ep as <-. assert (d = []).
    { destruct La as (pre' & post' & Eq & Nn). unfold by_name in Eq. rewrite map_app in Eq. cbn [map fst snd] in Eq.
      assert (Nn2 : ~ In n (map fst (by_name i3))).
      { intro I2. apply Nc. clear - I2 Hi3. unfold by_name in I2. induction Hi3 as [|[m0 d0] c ? ? (Nm & _) _ IH]; [exact I2|]. cbn [map fst snd] in *. destruct I2 as [<-|I2]; [left; exact Nm|right; auto]. }
      assert (Un : forall (p1 q1 p2 q2 : list (list Z * list Z)) x y, p1 ++ (n, x) :: q1 = p2 ++ (n, y) :: q2 -> ~ In n (map fst q1) -> ~ In n (map fst q2) -> x = y).
      { induction p1 as [|u p1 IHp]; intros q1 [|u2 p2] q2 x y Q N1 N2; cbn [app] in Q.
        - injection Q as -> _. reflexivity.
        - injection Q as <- Q. exfalso. apply N1. rewrite Q, map_app. apply in_or_app. right. left. reflexivity.
        - injection Q as -> Q. exfalso. apply N2. rewrite <- Q, map_app. apply in_or_app. right. left. reflexivity.
        - injection Q as _ Q. eapply IHp; eassumption. }
      rewrite <- Nm in Eq. exact (Un _ _ _ _ _ _ Eq Nn2 Nn). }
    subst d. destruct La' as (q & e' & (a & b & E1 & _) & _). destruct a; discriminate. }
  assert (Ow : own_reader st data = mkRd data (fun _ => 0) (rd_pks (own_reader st data))).
  { unfold own_reader, fresh_reader. destruct data; [congruence|]. reflexivity. }
  split; [|split; [|split; [|split; [|split; [|split]]]]].
  - intros Q Nq. rewrite (opened_fold st block _ f _ _ _ w1 _ W1), split_join by (first [exact Nq|discriminate]). change (n :: Q) with ([n] ++ Q). rewrite fold_app, E2. reflexivity.
  - exact B1.
  - eapply (walk_clear f F st block _ _ [n] w1 0 _ _ j w1 B1 A1); [|exact L1|exact E2]. eapply clear_top; [rewrite R1; exact H0|reflexivity|]. intros (_ & b & K). discriminate K.
  - exact (own_image f st block _ _ w w1 j props buf e data X1 J Tj Te A2).
  - rewrite Ow. reflexivity.
  - intro k. rewrite Ow. reflexivity.
  - exact Sz.
Qed.

(** C260: archives give the pictures kept in their images. *)
Theorem C260_archive_pictures : forall inflate bc7 rayon block name buf file images cs,
  bytes buf -> zlen buf < 2 ^ 63 -> archive block buf file images -> holds images cs ->
  exists w0 f0, w_open_ms block name file buf = Ok w0 /\ forall f, (f0 <= f)%nat -> exists w,
    w_parse (iv_key (aes256 user_key)) block f w0 0 0 = (Ok tt, w) /\
    gives_own_pictures (iv_key (aes256 user_key)) block f inflate bc7 rayon w images cs.
Proof.
  intros inflate bc7 rayon block name buf file images cs Hb Hs A H. destruct (archive_enter block name buf file images cs Hb Hs A H) as (w0 & f0 & O & P). exists w0, f0. split; [exact O|].
  intros f Hf. destruct (P f Hf) as (w & E & F & En). exists w. split; [exact E|]. set (st := iv_key (aes256 user_key)) in *.
  intros past n data props Q r Nq Sl Ia Po. destruct (En past n data props Ia) as (a & w1 & r0 & Fo & B1 & C1 & A1 & Eb & Ek & Sz).
  destruct (parse_place f st block _ _ w1 a _ F B1 A1) as (w2 & E2 & X2 & B2 & A2 & _ & _ & Rd2).
  assert (R2 : read_image f st block (eq r0) no_shared w2 a props) by (split; [exact A2|exact (Rd2 props eq_refl)]).
  assert (C2 : clear w2 a) by (eapply clear_ext; [exact B1|exact X2|exact C1]).
  assert (LQ : exists z, leads (PlImage props) Q z) by (inversion Po; eauto). destruct LQ as [z LQ].
  destruct (image_walk f st block _ _ w2 a props Q R2) as [Iw _]. destruct (Iw z LQ Nq) as (j & u & _ & E3 & T3 & _).
  exists j, w2. split.
  - rewrite Fo by exact Sl. destruct Q as [|c Q]; [congruence|]. cbn [w_fold] in E3 |- *. rewrite E2.
    destruct Rd2 with (props := props) as (n2 & p & sl2 & H2); [reflexivity|]. unfold w_parse in E3 at 1. rewrite H2 in E3. exact E3.
  - destruct (portrayed f F st block _ _ inflate bc7 rayon w2 a props R2 C2 Q r Po Nq j T3 []) as (d0 & x & Sh & G).
    destruct r as [v|]; cbn [shown_as] in Sh; [|subst x; eauto].
    intros raw wd h fm (f1 & f2 & pg & hd & off & size & kids & -> & -> & Hfm & Hw & Hh & Hsz & Hraw & D & K & M & M3).
    destruct Sh as (rr & <- & ->).
    destruct (extract_picture inflate bc7 rayon r0 (Png.mkPng off size f1 f2 hd wd h) raw (zlen raw)) as (l & El & Pl); cbn [pg_fmt1 pg_fmt2 pg_w pg_h pg_off pg_size pg_header];
      try assumption; try reflexivity.
    + rewrite Eb. lia.
    + rewrite Eb. eapply kept_key; [exact Ek|exact K].
    + exists d0, l. split; [intros d Hd; rewrite (G d Hd), El; reflexivity|exact Pl].
Qed.
Print Assumptions C260_archive_pictures.

(** C261: and the sounds, raw data and videos. *)
Theorem C261_archive_data : forall block name buf file images cs,
  bytes buf -> zlen buf < 2 ^ 63 -> archive block buf file images -> holds images cs ->
  exists w0 f0, w_open_ms block name file buf = Ok w0 /\ forall f, (f0 <= f)%nat -> exists w,
    w_parse (iv_key (aes256 user_key)) block f w0 0 0 = (Ok tt, w) /\ gives_own_data (iv_key (aes256 user_key)) block f w images cs.
Proof.
  intros block name buf file images cs Hb Hs A H. destruct (archive_enter block name buf file images cs Hb Hs A H) as (w0 & f0 & O & P). exists w0, f0. split; [exact O|].
  intros f Hf. destruct (P f Hf) as (w & E & F & En). exists w. split; [exact E|]. set (st := iv_key (aes256 user_key)) in *.
  intros past n data props Q v Sl Ia L. destruct (En past n data props Ia) as (a & w1 & r0 & Fo & B1 & C1 & A1 & Eb & Ek & Sz).
  destruct (walk f st block _ _ F Q w1 a _ B1 A1) as [Wk _]. destruct (Wk _ L) as (i & w' & E' & _ & _ & A' & _).
  destruct (place_presents st block (eq r0) f no_shared w' i _ A') as (rr & o & sub & <- & T & Sh).
  exists i, w', r0, o. split; [rewrite Fo by exact Sl; exact E'|]. split; [exact T|]. destruct v; try exact I.
  - inversion Sh as [| | | | | | | | | | | | |? ? ? ? ty K| |]; subst. eexists. split; [reflexivity|]. intros header stored H0 Hh Hd.
    destruct (C36_shown r0 _ _ _ _ _ header stored Sh H0 Hh Hd Sz) as (B & _ & W). split.
    + intro C. apply W in C. rewrite C in B. exact B.
    + intro C. destruct (snd_type _); [exact B| |exact B]. destruct W as [W _]. specialize (W eq_refl). tauto.
  - inversion Sh; subst. eexists _, _. split; [reflexivity|]. intros stored Hd. apply C112_stored; [exact Hd|lia].
  - inversion Sh; subst. eexists _, _. split; [reflexivity|]. intros stored Hd. apply C112_stored; [exact Hd|lia].
Qed.
Print Assumptions C261_archive_data.

(** An archive of version 2 whose image "p.img" has pictures, raw data, a video and a sound. *)
Definition bare_pics : list Z := Eval vm_compute in pic_block (fun _ => 0).
Lemma bare_laid : laid_image bare_pics (fun _ => 0) 0 pic_props.
Proof.
exists 10, 364. split; [at_tac|]. split; [at_tac|].
apply (list_at _ _ _ 12 13 364); [split; [vm_compute; split; congruence|at_tac]|].
apply (entries_cons _ _ _ 13 16 52 364).
{ apply (block_inline _ _ _ 13 16 _ 115); [right; reflexivity|apply lit_unicode; reflexivity|at_tac|at_tac]. }
{ apply (value_ext _ _ _ 16 52 46 31); [lia|at_tac|reflexivity|].
apply (ext_canvas_plain _ _ _ 21 29 46 52 0); [|lia|lia|at_tac|].
{ apply (block_inline _ _ _ 21 29 _ 115); [right; reflexivity|apply lit_unicode; reflexivity|at_tac|at_tac]. }
{ apply (canvas_at _ 31 32 33 34 36 37 2 1 2 0 0 0 40056 8); try lia; first [split; [lia|at_tac]|at_tac]. }
}
apply (entries_cons _ _ _ 52 55 103 364).
{ apply (block_inline _ _ _ 52 55 _ 115); [right; reflexivity|apply lit_unicode; reflexivity|at_tac|at_tac]. }
{ apply (value_ext _ _ _ 55 103 101 43); [lia|at_tac|reflexivity|].
apply (ext_canvas_kids _ _ _ 60 68 86 101 103); [|at_tac| |].
{ apply (block_inline _ _ _ 60 68 _ 115); [right; reflexivity|apply lit_unicode; reflexivity|at_tac|at_tac]. }
{ apply (list_at _ _ _ 72 73 86); [split; [vm_compute; split; congruence|at_tac]|]. apply (entries_cons _ _ _ 73 82 86 86); [|apply value_str; [at_tac|]|constructor].
{ apply (block_inline _ _ _ 73 82 _ 115); [right; reflexivity|apply lit_unicode; reflexivity|at_tac|at_tac]. }
{ apply (block_inline _ _ _ 83 86 _ 115); [right; reflexivity|apply lit_unicode; reflexivity|at_tac|at_tac]. }
}
{ apply (canvas_at _ 86 87 88 89 91 92 1 1 2 0 0 0 40056 4); try lia; first [split; [lia|at_tac]|at_tac]. }
}
apply (entries_cons _ _ _ 103 106 163 364).
{ apply (block_inline _ _ _ 103 106 _ 115); [right; reflexivity|apply lit_unicode; reflexivity|at_tac|at_tac]. }
{ apply (value_ext _ _ _ 106 163 155 52); [lia|at_tac|reflexivity|].
apply (ext_canvas_kids _ _ _ 111 119 140 155 163); [|at_tac| |].
{ apply (block_inline _ _ _ 111 119 _ 115); [right; reflexivity|apply lit_unicode; reflexivity|at_tac|at_tac]. }
{ apply (list_at _ _ _ 123 124 140); [split; [vm_compute; split; congruence|at_tac]|]. apply (entries_cons _ _ _ 124 133 140 140); [|apply value_str; [at_tac|]|constructor].
{ apply (block_inline _ _ _ 124 133 _ 115); [right; reflexivity|apply lit_unicode; reflexivity|at_tac|at_tac]. }
{ apply (block_inline _ _ _ 134 140 _ 115); [right; reflexivity|apply lit_unicode; reflexivity|at_tac|at_tac]. }
}
{ apply (canvas_at _ 140 141 142 143 145 146 1 1 2 0 0 0 6 10); try lia; first [split; [lia|at_tac]|at_tac]. }
}
apply (entries_cons _ _ _ 163 166 168 364).
{ apply (block_inline _ _ _ 163 166 _ 115); [right; reflexivity|apply lit_unicode; reflexivity|at_tac|at_tac]. }
{ apply (value_int _ _ _ _ _ 3); [left; reflexivity|at_tac|split; [lia|at_tac]]. }
apply (entries_cons _ _ _ 168 171 219 364).
{ apply (block_inline _ _ _ 168 171 _ 115); [right; reflexivity|apply lit_unicode; reflexivity|at_tac|at_tac]. }
{ apply (value_ext _ _ _ 171 219 217 43); [lia|at_tac|reflexivity|].
apply (ext_canvas_kids _ _ _ 176 184 202 217 219); [|at_tac| |].
{ apply (block_inline _ _ _ 176 184 _ 115); [right; reflexivity|apply lit_unicode; reflexivity|at_tac|at_tac]. }
{ apply (list_at _ _ _ 188 189 202); [split; [vm_compute; split; congruence|at_tac]|]. apply (entries_cons _ _ _ 189 198 202 202); [|apply value_str; [at_tac|]|constructor].
{ apply (block_inline _ _ _ 189 198 _ 115); [right; reflexivity|apply lit_unicode; reflexivity|at_tac|at_tac]. }
{ apply (block_inline _ _ _ 199 202 _ 115); [right; reflexivity|apply lit_unicode; reflexivity|at_tac|at_tac]. }
}
{ apply (canvas_at _ 202 203 204 205 207 208 1 1 2 0 0 0 40056 4); try lia; first [split; [lia|at_tac]|at_tac]. }
}
apply (entries_cons _ _ _ 219 222 241 364).
{ apply (block_inline _ _ _ 219 222 _ 115); [right; reflexivity|apply lit_unicode; reflexivity|at_tac|at_tac]. }
{ apply (value_ext _ _ _ 222 241 238 14); [lia|at_tac|reflexivity|].
apply (ext_raw_plain _ _ _ 227 236 238 241 0 3); [|lia|lia|at_tac|lia|split; [lia|at_tac]].
{ apply (block_inline _ _ _ 227 236 _ 115); [right; reflexivity|apply lit_unicode; reflexivity|at_tac|at_tac]. }
}
apply (entries_cons _ _ _ 241 244 269 364).
{ apply (block_inline _ _ _ 241 244 _ 115); [right; reflexivity|apply lit_unicode; reflexivity|at_tac|at_tac]. }
{ apply (value_ext _ _ _ 244 269 267 20); [lia|at_tac|reflexivity|].
apply (ext_video _ _ _ 249 263 267 269 2); [|lia|split; [lia|at_tac]].
{ apply (block_inline _ _ _ 249 263 _ 115); [right; reflexivity|apply lit_unicode; reflexivity|at_tac|at_tac]. }
}
apply (entries_cons _ _ _ 269 272 364 364).
{ apply (block_inline _ _ _ 269 272 _ 115); [right; reflexivity|apply lit_unicode; reflexivity|at_tac|at_tac]. }
{ apply (value_ext _ _ _ 272 364 291 87); [lia|at_tac|reflexivity|].
apply (ext_sound _ _ _ 277 288 290 291 364 3 5); [|lia|lia|split; [lia|at_tac]|split; [lia|at_tac]|lia|vm_compute; discriminate].
{ apply (block_inline _ _ _ 277 288 _ 115); [right; reflexivity|apply lit_unicode; reflexivity|at_tac|at_tac]. }
}
constructor.
Qed.
Definition pic_meta : meta := Meta (codes "p.img") 5 6 1 364 384 7 8 ex_key1 11 (-12).
Definition pic_metas : list meta := [pic_meta; arc_meta2].
Definition pic_images : list (meta * list Z) := [(pic_meta, bare_pics); (arc_meta2, arc_x)].
Definition pic_content : list (list Z * content) := [(codes "p.img", CImage pic_props); (codes "Mob/x.img", CImage arc_props)].
Definition pic_fill : list Z := Eval vm_compute in repeat 0 20.
Definition pic_pieces := flat_map pieces2 pic_metas.
Definition pic_table : list Z := quick (table_key2 ex_fb) (repeat 0 12) (counter (ends 0 pic_pieces)) (stream pic_pieces ++ repeat 0 52).
Definition album : list Z := Eval vm_compute in
  ex_rand ++ [1] ++ [7; 1; 2; 3] ++ e2_hidden ++ e2_enc 2 ++ repeat 0 131 ++ pic_table ++ repeat 0 445 ++
  e2_store arc_meta2 (arc_x ++ arc_fill2) ++ repeat 0 992 ++ e2_store pic_meta (bare_pics ++ pic_fill).
Lemma pic_metas_ok : Forall meta_ok pic_metas.
Proof.
  apply Forall_cons; [|apply Forall_cons; [|apply Forall_nil]];
    (split; [repeat (apply Forall_cons || apply Forall_nil); cbn; lia|]; split; [discriminate|]; split; [vm|];
     repeat (split; [cbn; unfold i32; lia|]); split; [apply bytes_dec; vm|]; cbn; unfold i32; lia).
Qed.
Lemma album_image image m filler :
  forallb (fun c => (0 <=? c) && (c <? 128)) (m_name m) = true ->
  len image = m_size m -> len (image ++ filler) = m_aligned m ->
  slice album (1024 + 1024 * m_start m) (1024 + 1024 * m_start m + m_aligned m) = Some (e2_store m (image ++ filler)) ->
  image_at2 chacha_block album ex_salt 1024 m image.
Proof.
  intros A L La S. exists ex_digits, filler, (e2_store m (image ++ filler)).
  split.
  - split; [apply Forall_forall; intros x Hx; cbn in Hx; lia|]. split; [vm|]. right. do 2 eexists. split; [reflexivity|discriminate].
  - split; [apply Forall_forall; intros x Hx; rewrite forallb_forall in A; specialize (A x Hx); lia|].
    split; [exact L|]. split; [exact La|]. split; [unfold e2_store; rewrite quick_ok by reflexivity; reflexivity|]. apply at_slice, S.
Qed.
Lemma album_head : head2 chacha_block album ex_file ex_salt 77 4 2 387.
Proof.
  exists [97; 98; 46; 109; 115], ex_fb, ex_rand, 7, 1, 2, 3, e2_hidden, (repeat 0 56), (e2_enc 2).
  cbv zeta. change (total [97; 98; 46; 109; 115] mod 312 + 30) with 183. change (183 + 5 + 2 * len ex_salt) with 192.
  split; [apply utf8_check; vm|]. split; [apply utf8_check; vm|]. split; [discriminate|].
  split; [apply (bytes_dec ex_salt); vm|]. split; [vm|]. split; [discriminate|].
  split; [apply at_slice; vm|]. split; [apply at_slice; vm|]. split; [apply at_slice; vm|]. split; [vm|]. split; [apply at_slice; vm|].
  split; [intros [|[|i]] H; [vm|vm|cbn in H; lia]|].
  split; [split; [discriminate|vm]|]. split; [lia|]. split; [split; [discriminate|vm]|]. split; [vm|].
  split; [apply quick_ok; reflexivity|]. split; [apply at_slice; vm|]. split; [vm_compute; discriminate|]. vm.
Qed.
Lemma album_first : not_version1 album ex_file.
Proof.
  exists e2_salt1, (sext 32 (le_val (firstn 4 e2_dec1))), (nth 4 e2_dec1 0), (sext 32 (le_val (firstn 4 (skipn 5 e2_dec1)))).
  eexists _, _. split; [|intros [V _]; discriminate V].
  exists [97; 98; 46; 109; 115], e2_fb1, ex_rand, 1, 7, 1, 2, (firstn 20 (skipn 187 album)), (skipn 9 e2_dec1), (firstn 12 (skipn 207 album)).
  cbv zeta. change (total [97; 98; 46; 109; 115] mod 312 + 30) with 183. change (183 + 4 + 2 * len e2_salt1) with 207.
  split; [apply utf8_check; vm|]. split; [apply utf8_check; vm|]. split; [discriminate|].
  split; [apply (bytes_dec e2_salt1); vm|]. split; [vm|]. split; [discriminate|].
  split; [apply at_slice; vm|]. split; [apply at_slice; vm|]. split; [vm|]. split; [apply at_slice; vm|].
  split; [intros i H; change (length e2_salt1) with 10%nat in H; do 10 (destruct i as [|i]; [vm|]); lia|].
  split; [split; [discriminate|vm]|]. split; [split; [discriminate|vm]|]. split; [split; [discriminate|vm]|]. split; [vm|].
  split; [apply added_check; [apply head_key_ok|vm|vm]|]. split; [apply at_slice; vm|]. split; reflexivity.
Qed.
Lemma album_archive : archive chacha_block album ex_file pic_images.
Proof.
  exists 1024. right. split; [exact chacha64|]. split; [|exact album_first].
  exists ex_salt, ex_fb, 77, 387, 579. split; [exact album_head|]. split; [apply utf8_check; vm|].
  split; [exact pic_metas_ok|]. split.
  { exists (repeat 0 52), pic_table. split; [apply quick_ok; reflexivity|]. split; [cbn; lia|]. split; [vm|]. split; [apply at_slice; vm|].
    apply Forall_forall. intros p Hp.
    assert (X : forallb (fun p => 579 + len (piece_bytes p) <=? len album) (flat_map pieces2 (map fst pic_images)) = true) by vm.
    rewrite forallb_forall in X. apply Z.leb_le, X, Hp. }
  split; [split; [vm|lia]|].
  apply Forall_cons; [|apply Forall_cons; [|apply Forall_nil]]; cbn [fst snd].
  - apply (album_image _ _ pic_fill); vm.
  - apply (album_image _ _ arc_fill2); vm.
Qed.
Lemma album_holds : holds pic_images pic_content.
Proof.
  constructor; [|constructor; [|constructor]]; cbn [fst snd pic_meta arc_meta2 m_name]; (split; [reflexivity|]).
  - split; [apply (not_text_img (codes "p"))|]. exists pic_props. split; [reflexivity|]. split; [exact bare_laid|repeat constructor].
  - split; [apply (not_text_img (codes "Mob/x"))|]. exists arc_props. split; [reflexivity|]. split; [|repeat constructor].
    apply (serialised_image _ _ _ (zlen arc_x)); [vm_compute; reflexivity|repeat (constructor; try lia); apply lit_unicode; reflexivity|]. exists [], []. repeat split.
Qed.
Lemma album_has : in_archive pic_images pic_content (codes "p.img") bare_pics pic_props.
Proof. split; named_at 0%nat. Qed.
Definition album_read : world :=
  match w_open_ms chacha_block (codes "Ab") ex_file album with Ok w => snd (w_parse (iv_key (aes256 user_key)) chacha_block 40 w 0 0) | _ => nowhere [] end.
Example C260_example :
  (bytes album /\ archive chacha_block album ex_file pic_images /\ holds pic_images pic_content /\ in_archive pic_images pic_content (codes "p.img") bare_pics pic_props) /\
  shown_right pic_props /\ kept_right bare_pics (fun _ => 0) pic_props /\ 
  P_Portrait.seen album_read (codes "p.img/l") = Ok [[3; 156; 120; 4]; [7; 6; 5; 8]].
Proof.
  split; [split; [apply bytes_check; vm_compute; reflexivity|split; [exact album_archive|split; [exact album_holds|exact album_has]]]|].
  split; [exact pic_shown|]. split; [kept_tac; [as_they_are|in_a_block]|]. vm_compute. repeat split.
Qed.
Example C261_example :
  leads (PlImage pic_props) [codes "r"] (PlProp (PRaw 238 3 [])) /\ at_ bare_pics 238 241 [201; 202; 203] /\
    handed album_read (codes "p.img/m") = Ok (wav_file (map Z.of_nat (seq 52 16)) [1; 2; 3]).
Proof. split; [in_place 5%nat|]. split; [at_tac|]. vm_compute. repeat split. Qed.
