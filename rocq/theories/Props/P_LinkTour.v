(** C269-C272: walking through whole packages and archives whose images have links. *)
From Coq Require Import ZArith List Bool Lia ZifyBool ZifyNat Permutation.
From Coq Require String Ascii.
From Verif.Model Require Import Base Utf Keys Reader WzStr Header Offset VersionPkg1 VersionPkg2 Directory Image Media Guess File Node Snow2 Ms World.
From Verif.Spec Require Import Wire Stream StrWire HeaderSpec Version Media PropWire PropView DirWire DirView DirWire2 Aes KeyFind PropEnc PathSpec Tree ChaCha Snow2 Ms MsFile MsFile2 Whole Linked WholeLinks.
From Verif.Proofs Require Import OpenL BaseL WireL KeysL AtL DirL HeaderL MediaL EncL ImageL StrictL GuessL FileL NodeL WorldL WalkWL Snow2L MsReadL MsFileL LinkedL LinkWorldL TourLinksL.
From Verif.Props Require Import P_Media P_Header P_Strict P_Version P_Directory P_Node P_Guess P_File P_Ms P_MsRead2 P_Ms2 P_Whole P_Tour P_Archive P_ImgFile P_Linked P_Detect P_LinkPack.
Import ListNotations. Import String.StringSyntax.
Open Scope Z_scope.

(** [f] was called once for every path that leads somewhere, down the directories and through the links, for a path before those that go
    on from it; with the node that stands for the place the path leads to and has, at that moment, that place's own full path.  Every
    image has been let go in the end. *)
Definition toured_links (st : list Z -> nat -> Z) (bl : list Z -> list Z -> Z -> list Z) (ok : rd -> Prop) (name : text) (cs : list (list Z * content))
    (tr : list (id * world)) (last : world) : Prop :=
  exists ps, Forall2 (fun e comps => exists Q z, gets cs comps Q z /\ presents st bl (snd e) ok (fst e) z /\
      (forall k, (length Q <= k)%nat -> get_full_path k (w_heap (snd e)) (fst e) = Ok (joined (name :: Q))) /\
      match z with PlImage _ => let_go last (fst e) | _ => True end) tr ps /\
    NoDup ps /\ (forall comps Q z, gets cs comps Q z -> In comps ps) /\ (forall a p n b, ps = a ++ (p ++ [n]) :: b -> In p a).
(** A forced walk at any time tours the package if no path is as long as the walk may go deep; if there is such a path, it does not come to
    its end: it would go deeper, or stops for ever at a node it holds itself. *)
Definition tours_links (st : list Z -> nat -> Z) (bl : list Z -> list Z -> Z -> list Z) (f : nat) (w : world) (ok : rd -> Prop) (name : text)
    (cs : list (list Z * content)) : Prop :=
  forall w1 order d, used st bl f w w1 -> (forall l, Permutation (order l) l) ->
    ((forall comps Q z, gets cs comps Q z -> (length comps < d)%nat) ->
       exists tr w2, w_walk st bl f order d true w1 0 = (Ok tr, w2) /\ toured_links st bl ok name cs tr w2) /\
    ((exists comps Q z, gets cs comps Q z /\ (d <= length comps)%nat) ->
       forall tr w2, w_walk st bl f order d true w1 0 <> (Ok tr, w2)).

Section any.
  Variable st : list Z -> nat -> Z.
  Variable bl : list Z -> list Z -> Z -> list Z.
  Variable ok : rd -> Prop.
  Variable f : nat.
  Hypothesis F : (0 < f)%nat.
  Variable s : shared.
  Variable name : text.
  Variable cs : list (list Z * content).
  Hypothesis T : forall comps, (exists Q z, gets cs comps Q z) \/ lacks cs comps.

  Definition walkable (w : world) : Prop := linked_world f st bl ok s cs name w /\ one_each (w_heap w).
  Lemma linked_drift w w' : linked_world f st bl ok s cs name w -> drift f st bl ok w w' -> bounded w' -> linked_world f st bl ok s cs name w'.
  Proof using.
    clear F T. intros (B & A & k & sl & H & U) D B'. split; [exact B'|]. split; [exact (drift_dir f st bl ok s w w' 0 cs B D A)|].
    destruct A as (n & k0 & p & l & H0 & I & K & _). rewrite H in H0. injection H0 as _ <- _ _. destruct D as (_ & D & _).
    destruct (D 0 I) as [[E _]|[(n1 & p1 & sl1 & E & _)|(n1 & k1 & p1 & sl1 & k' & sl' & E & _ & Nd & Nt & _)]].
    - exists k, sl. rewrite E. auto.
    - rewrite H in E. injection E as _ -> _ _. discriminate U.
    - rewrite H in E. injection E as _ <- _ _. destruct K as [K|(b & d & -> & _)]; [destruct (Nt K)|destruct (Nd b eq_refl)].
  Qed.
  Lemma used_linked w w1 : walkable w -> used st bl f w w1 -> walkable w1.
  Proof.
    intros O U. induction U as [|w1 path _ [L1 O1]|w1 order d tr w2 _ [L1 O1] Ord E]; [exact O| |].
    - split; [apply (linked_look f st bl ok s F cs name T w1 path L1)|]. rewrite (linked_fold f st bl ok s cs name w1 path L1). apply one_fold, O1.
    - pose proof L1 as (B & A & _).
      destruct (walk_content f st bl ok s F order Ord d (CDir cs) w1 0 (conj B O1) A) as [(tr' & w' & ps & E' & (D & _ & _) & [B' O'] & _)|(w' & E' & _)];
        rewrite (locked_free _ _ _ _ _ _ _ _ _ _ _ E) in E'; [|discriminate]. injection E' as _ <-. split; [eapply linked_drift; eassumption|exact O'].
  Qed.
  Lemma world_tours_links w : walkable w -> tours_links st bl f w ok name cs.
  Proof.
    intros O0 w1 order d U Ord. destruct (used_linked w w1 O0 U) as [L1 O1]. pose proof L1 as (B & A & _).
    destruct (walk_content f st bl ok s F order Ord d (CDir cs) w1 0 (conj B O1) A) as [(tr & w2 & ps & E & (D & S & _) & [B2 O2] & Fr & V & Nd & Cm & Pf & Ln)|(w2 & E & Lg)].
    - split.
      + intros _. exists tr, w2. split.
        { eapply (content_locked f st bl ok s F order Ord d (CDir cs)) with (l := []); [exact (conj B O1)|exact A| |intros ? []|exact E].
          destruct L1 as (_ & _ & kd & sl & H & _). eapply up_top; [exact H|reflexivity]. }
        exists ps. split; [|split; [exact Nd|split; [intros comps Q z G; apply Cm; exists Q, z; exact G|exact Pf]]].
        clear E Nd Cm Pf Ln. induction V as [|e c tr' ps' (Q & z & G & St & De & Ab & Pi) _ IHv]; constructor.
        * exists Q, z. split; [exact G|]. split; [destruct z; exact St|]. split.
          -- intros k Hk. assert (R : exists kd sl, w_heap (snd e) 0 = Some (mkCell name kd None sl)).
             { destruct L1 as (_ & _ & kd & sl & H & _). destruct (drift_cell f st bl ok w1 (snd e) 0 _ B De H) as ([n' k' p' l'] & H' & N' & P'). cbn in N', P'. subst n' p'. eauto. }
             destruct R as (kd & sl & R). rewrite (above_path (w_heap (snd e)) 0 Q (fst e) _ ltac:(eexists; split; [exact R|discriminate]) Ab R k Hk). reflexivity.
          -- destruct z as [cs'|props|v]; [exact I| |exact I]. destruct (Pi props eq_refl) as (x & Hx & Px).
             destruct (Fr e x (or_introl eq_refl) Hx Px) as (n' & p' & E'). eexists. split; [exact E'|]. split; reflexivity.
        * apply IHv. intros e' c' I'. apply Fr. right. exact I'.
      + intros (comps & Q & z & G & Le) tr' w2' _. pose proof (Cm comps (ex_intro _ Q (ex_intro _ z G))) as I. rewrite Forall_forall in Ln.
        specialize (Ln comps I). cbn beta in Ln. apply (Nat.lt_irrefl d). eapply Nat.le_lt_trans; [exact Le|exact Ln].
    - split.
      + intro Sh. exfalso. destruct Lg as (comps & Q & z & G & Le). apply (Nat.lt_irrefl d). eapply Nat.le_lt_trans; [exact Le|]. exact (Sh comps Q z G).
      + intros _ tr w2' E'. rewrite (locked_free _ _ _ _ _ _ _ _ _ _ _ E') in E. discriminate E.
  Qed.
  Lemma world_still_links w w1 : walkable w -> used st bl f w w1 -> serves_links st bl f w1 ok name cs.
  Proof. intros O U. eapply world_links; [exact F|exact T|]. exact (proj1 (used_linked w w1 O U)). Qed.
End any.

Lemma stock_tours st bl name buf iv existing patch cache h key kids cs :
  zlen buf < 2 ^ 31 -> header_of buf = Ok h -> (forall j, byte (rd_ks (reader_of st buf key) j)) ->
  stocked buf (rd_ks (reader_of st buf key)) kids cs ->
  exists f0, forall f x, (f0 <= f)%nat -> parse_file st f buf iv existing patch None cache = Ok x -> pf_key x = key -> shows_trees (pf_kids x) kids ->
    exists w, w_parse st bl f (w_open name buf iv existing patch cache) 0 0 = (Ok tt, w) /\
      tours_links st bl f w (eq (reader_of st buf key)) name cs /\
      forall w1, used st bl f w w1 -> serves_links st bl f w1 (eq (reader_of st buf key)) name cs.
Proof.
  intros Hs Hh Hk Fw. pose proof (stocked_total _ _ _ _ Fw) as T.
  destruct (stock_world st bl name buf iv existing patch cache h key kids cs Hs Hh Hk Fw) as (f0 & W).
  exists f0. intros f x Hf Pf Ek Sh. destruct (W f x Hf Pf Ek Sh) as (w & s & E & F & O). exists w. split; [exact E|].
  assert (K : walkable st bl (eq (reader_of st buf key)) f s name cs w).
  { split; [exact O|]. change w with (snd (Ok (A := unit) tt, w)). rewrite <- E. apply one_parse. unfold w_open. apply one_fresh. intros ? ? X. discriminate X. }
  split; [eapply world_tours_links; eassumption|]. intros w1 U. eapply world_still_links; eassumption.
Qed.

(** C269: a forced walk through a classic package whose images have links, at any time, calls [f] with the node of every path and then comes to
    its end, when the paths do not go on for ever; lookups go on as before. *)
Theorem C269_classic_link_tour : forall bl name buf h p r t iv existing e v ds kids cs cache,
  bytes buf -> zlen buf < 2 ^ 31 -> read_header buf = Ok (h, p) -> hd_ident h = IV1 -> hd_encver h = Some e ->
  0 <= v < 1000000 -> Version.decimal v ds -> folded (digit_hash 0 ds) = e ->
  laid_dir buf (iv_key (aes256 user_key) (region_iv r)) (hd_fstart h) (digit_hash 0 ds) (hd_data_start h) kids ->
  first_name true buf (hd_data_start h) (enc_str (iv_key (aes256 user_key) (region_iv r)) t) ->
  plain_ascii t -> (r = Sea -> (2 <= length t)%nat) ->
  offered (aes256 user_key) (iv_key (aes256 user_key) (region_iv r)) (length t) (region_iv r) iv existing ->
  stocked buf (iv_key (aes256 user_key) (region_iv r)) kids cs ->
  exists f0, forall f, (f0 <= f)%nat -> exists w,
    w_parse (iv_key (aes256 user_key)) bl f (w_open name buf iv existing v cache) 0 0 = (Ok tt, w) /\
    tours_links (iv_key (aes256 user_key)) bl f w (eq (reader_of (iv_key (aes256 user_key)) buf (DEcb (region_iv r)))) name cs /\
    forall w1, used (iv_key (aes256 user_key)) bl f w w1 ->
      serves_links (iv_key (aes256 user_key)) bl f w1 (eq (reader_of (iv_key (aes256 user_key)) buf (DEcb (region_iv r)))) name cs.
Proof.
  intros bl name buf h p r t iv existing e v ds kids cs cache Hb Hs Hd Id He Hv D Fo L Fn T Hr Of Fw.
  destruct (C149_classic_package buf h p r t iv existing v e v ds kids cache Hb Hs Hd Id He Hv D Fo L Fn T Hr Of) as (f1 & kids' & Sh & P).
  destruct (stock_tours (iv_key (aes256 user_key)) bl name buf iv existing v cache h (DEcb (region_iv r)) kids cs Hs (header_was _ _ _ Hd)
    (region_key_bytes r) Fw) as (f2 & W).
  exists (Nat.max f1 f2). intros f Hf. eapply W; [lia|apply P; lia|reflexivity|exact Sh].
Qed.
Print Assumptions C269_classic_link_tour.

(** An image with links, none of which goes round. *)
Definition stair_sub : list (list Z * prop) := [(codes "l", PUol (codes "../a"))].
Definition stair : list (list Z * prop) := [(codes "a", PInt 300); (codes "s", PSub stair_sub); (codes "t", PUol (codes "s"))].
Lemma stair_places P pl : leads (PlImage stair) P pl -> In (P, pl)
  [([], PlImage stair); ([codes "a"], PlProp (PInt 300)); ([codes "s"], PlProp (PSub stair_sub)); ([codes "t"], PlProp (PUol (codes "s")));
   ([codes "s"; codes "l"], PlProp (PUol (codes "../a")))].
Proof.
  intro L. inversion L as [|? n q rest ? I L1]; subst; [left; reflexivity|]. inversion I as [|? ? v La|]; subst. apply last_named_in in La.
  assert (Leaf : forall v rest z, leads (PlProp v) rest z -> below v [] -> rest = [] /\ z = PlProp v).
  { intros u r z Lz B. inversion Lz as [|? ? ? ? ? Iz _]; subst; [auto|]. inversion Iz as [| |? ks ? ? B' La']; subst. rewrite (below_fun _ _ _ B' B) in La'. apply last_named_in in La'. destruct La'. }
  destruct La as [[= <- <-]|[[= <- <-]|[[= <- <-]|[]]]]; try (apply Leaf in L1 as [-> ->]; [|constructor; exact Logic.I]; cbn [In]; tauto).
  inversion L1 as [|? n q rest' ? I2 L2]; subst; [cbn [In]; tauto|]. inversion I2 as [| |? ks ? u B La]; subst. inversion B; subst; [|contradiction]. apply last_named_in in La.
  destruct La as [[= <- <-]|[]]; apply Leaf in L2 as [-> ->]; try (constructor; exact Logic.I); cbn [In]; tauto.
Qed.
Lemma stair_tidy : tidy stair.
Proof.
  intros P pl ns L Ls. apply stair_places in L. assert (Lf : forall v, below v [] -> lists (PlProp v) ns -> ns = []) by (intros v B X; inversion X as [|? ks B']; subst; rewrite (below_fun _ _ _ B' B); reflexivity).
  cbn [In] in L. repeat (destruct L as [L|L]; [injection L as <- <-; try (apply Lf in Ls; [|constructor; exact Logic.I]; subst ns; split; constructor)|]); [| |destruct L].
  - inversion Ls; subst. split; [no_dup|good_names].
  - inversion Ls as [|? ks B]; subst. inversion B; subst; [|contradiction]. split; [no_dup|good_names].
Qed.
Lemma stair_leads k v : In (k, v) stair -> leads (PlImage stair) [k] (PlProp v).
Proof. intro I. econstructor; [constructor|constructor]. apply nodup_last; [|exact I]. exact (proj1 (stair_tidy [] _ _ (leads_here _) (lists_image _))). Qed.
Lemma stair_simple : simple_links stair.
Proof.
  intros P n us (Ne & Pl & L). apply stair_places in L. cbn [In] in L.
  assert (J : forall vs, vs <> [] -> Forall (fun u => ~ In 47 u) vs -> joined us = joined vs -> us = vs) by (intros vs Nv Pv E; apply joined_inj; assumption).
  repeat (destruct L as [L|L]; [injection L as EP E; try discriminate E|]); try contradiction; left.
  - assert (P = []) as -> by (destruct P as [|? [|]]; [reflexivity|discriminate EP..]). apply eq_sym, (J [codes "s"]) in E as ->; [|discriminate|plain_names]. exists [codes "s"].
    eapply route_down; [discriminate|apply stair_leads; right; left; reflexivity|apply not_link; discriminate|apply route_end].
  - assert (P = [codes "s"]) as -> by (destruct P as [|? [|? [|]]]; try discriminate EP; injection EP as <- _; reflexivity).
    apply eq_sym, (J [codes ".."; codes "a"]) in E as ->; [|discriminate|plain_names]. exists [codes "a"].
    apply (route_up stair []). eapply route_down; [discriminate|apply stair_leads; left; reflexivity|apply not_link; discriminate|apply route_end].
Qed.
Lemma stair_good : good_kids stair.
Proof. repeat (constructor; try lia); apply lit_unicode; reflexivity. Qed.
Definition stair_img : list Z := Eval vm_compute in ser_image (key_of Global) stair.
Definition stair_zero : list Z := Eval vm_compute in ser_image (fun _ => 0) stair.
Lemma stair_neat : neat stair.
Proof. right. exact (conj stair_tidy stair_simple). Qed.
(** A package of version 83 with that image as "Mob.img". *)
Definition stair83 : list Z := Eval vm_compute in
  PKG1 ++ enc_le 8 (18 + zlen stair_img) ++ enc_le 4 16 ++ [172; 0] ++
  [1] ++ [4] ++ enc_str (key_of Global) (codes "Mob.img") ++ [zlen stair_img; 0] ++ stored OPkg1 16 0 1876 30 34 ++ stair_img.
Definition stair_kids : list (list Z * dtree) := [(codes "Mob.img", TImage 34 (zlen stair_img))].
(** How a walk ends: it came to its end, it would go deeper, or it stopped at a node it holds. *)
Definition outcome {A} (x : res A * world) : nat := match fst x with Ok _ => 0 | OutOfFuel => 1 | Panic => 2 | Err _ => 3 end.
(** No path leads further than four names; in [link83] (hypotheses: see [C265_example]) paths go on for ever. *)
Example C269_example :
  (bytes stair83 /\ read_header stair83 = Ok (mkHeader IV1 (zlen stair83 - 16) 16 18 (Some 172) 0 0 FNone, 16) /\
   laid_dir stair83 (key_of Global) 16 (digit_hash 0 [8; 3]) 18 stair_kids /\
   first_name true stair83 18 (enc_str (key_of Global) (codes "Mob.img")) /\ stocked stair83 (key_of Global) stair_kids [(codes "Mob.img", CImage stair)]) /\
  (let st := iv_key (aes256 user_key) in
   let w := snd (w_parse st chacha_block 20 (w_open (codes "Mob.wz") stair83 None None 83 []) 0 0) in
   let x := w_walk st chacha_block 20 (fun l => l) 4 true w 0 in
   seen x = [codes "Mob.wz"; codes "Mob.wz/Mob.img"; codes "Mob.wz/Mob.img/a"; codes "Mob.wz/Mob.img/s"; codes "Mob.wz/Mob.img/a"; codes "Mob.wz/Mob.img/s"; codes "Mob.wz/Mob.img/a"] /\
   at_path (w_heap (snd x)) 0 (codes "Mob.img/s") = None /\
   outcome (w_walk st chacha_block 20 (fun l => l) 3 true w 0) = 1%nat /\
   outcome (w_walk st chacha_block 20 (@rev (text * id)) 12 true (snd (w_parse st chacha_block 20 (w_open (codes "Mob.wz") link83 None None 83 []) 0 0)) 0) = 2%nat).
Proof.
  split; [|vm_compute; repeat split].
  split; [byte_list|]. split; [vm_compute; reflexivity|]. change (digit_hash 0 [8; 3]) with 1876. split; [|split].
  - apply (DirWire.dir_at _ _ _ _ 18 19 34 1); [lia|split; [lia|at_tac]|].
    apply (ents_image _ _ _ _ 19 28 34 34 0 (codes "Mob.img") 34 (zlen stair_img) 0x73);
      [apply head_inline; [apply lit_unicode; reflexivity|at_tac|at_tac]|classic_tail 30|auto|at_tac|constructor].
  - exists 19, 28, 1, 4. split; [split; [lia|at_tac]|]. split; [lia|]. split; [at_tac|]. split; [lia|at_tac].
  - apply stocked_image; [apply (not_text_img (codes "Mob"))| |exact stair_neat|constructor].
    apply (serialised_image _ _ _ (zlen stair83)); [vm_compute; reflexivity|exact stair_good|at_tac].
Qed.

(** C270: the same for packages with 64-bit hashes. *)
Theorem C270_wide_link_tour : forall bl name buf h p iv existing patch0 kids cs cache,
  bytes buf -> zlen buf < 2 ^ 31 -> read_header buf = Ok (h, p) -> is_pkg2_64 h = true -> wide_hash h <> 0 ->
  unlike_entry buf (hd_data_start h) ->
  laid_dir2 buf (fun _ => 0) (number_key (wide_number h)) true true (hd_fstart h) (hd_hash1 h) (wide_hash h) OPkg264 true (hd_data_start h) kids ->
  stocked buf (fun _ => 0) kids cs ->
  exists f0 key, forall f, (f0 <= f)%nat -> exists w,
    w_parse (iv_key (aes256 user_key)) bl f (w_open name buf iv existing patch0 cache) 0 0 = (Ok tt, w) /\
    tours_links (iv_key (aes256 user_key)) bl f w (eq (reader_of (iv_key (aes256 user_key)) buf (DPkg2 key))) name cs /\
    forall w1, used (iv_key (aes256 user_key)) bl f w w1 ->
      serves_links (iv_key (aes256 user_key)) bl f w1 (eq (reader_of (iv_key (aes256 user_key)) buf (DPkg2 key))) name cs.
Proof.
  intros bl name buf h p iv existing patch0 kids cs cache Hb Hs Hd W Nz Un L Fw.
  destruct (C153_wide_package buf h p iv existing patch0 None kids cache Hb Hs Hd W Nz Un L) as (f1 & kids' & key & cache' & Sh & _ & _ & P).
  destruct (stock_tours (iv_key (aes256 user_key)) bl name buf iv existing patch0 cache h (DPkg2 key) kids cs Hs (header_was _ _ _ Hd)) as (f2 & Wd).
  - intro j. unfold byte. cbn. lia.
  - exact Fw.
  - exists (Nat.max f1 f2), key. intros f Hf. eapply Wd; [lia|apply P; lia|reflexivity|exact Sh].
Qed.
Print Assumptions C270_wide_link_tour.
(** A package with 64-bit hashes 5 and 9 and the image whose links do not go round. *)
Definition wide_stair : list Z := Eval vm_compute in
  let h := mkHeader IV2 0 150 150 None 5 9 FRandom64 in let n := zlen stair_zero in
  wide_header 5 9 (32 + n) ++
  enc_wzint 8 (sext 64 (Z.lxor (Z.lxor (Z.lxor 65536 5) (wide_hash h)) 0x550EC4DD02C468EC)) ++
  [4] ++ enc_le 2 (- 7) ++ body_pkg2 (number_key (wide_number h)) (units16 (codes "Mob.img")) ++
  [n; 0] ++ stored OPkg264 150 5 (wide_hash h) 178 182 ++ stair_zero.
Definition wide_stair_head := mkHeader IV2 (32 + zlen stair_zero) 150 150 None 5 9 FRandom64.
Example C270_example :
  (bytes wide_stair /\ read_header wide_stair = Ok (wide_stair_head, 150) /\ unlike_entry wide_stair 150 /\
   laid_dir2 wide_stair (fun _ => 0) (number_key (wide_number wide_stair_head)) true true 150 5 (wide_hash wide_stair_head) OPkg264 true 150
     [(codes "Mob.img", TImage 182 (zlen stair_zero))] /\
   stocked wide_stair (fun _ => 0) [(codes "Mob.img", TImage 182 (zlen stair_zero))] [(codes "Mob.img", CImage stair)]) /\
  (let st := iv_key (aes256 user_key) in
   let w := snd (w_parse st chacha_block 20 (w_open (codes "Mob.wz") wide_stair None None (-1) []) 0 0) in
   let x := w_walk st chacha_block 20 (@rev (text * id)) 9 true w 0 in
   seen x = [codes "Mob.wz"; codes "Mob.wz/Mob.img"; codes "Mob.wz/Mob.img/s"; codes "Mob.wz/Mob.img/a"; codes "Mob.wz/Mob.img/s"; codes "Mob.wz/Mob.img/a"; codes "Mob.wz/Mob.img/a"] /\
   founds (snd x) [codes "Mob.img/t/l"; codes "Mob.img/d"] = [Some (300, Ok (codes "Mob.wz/Mob.img/a")); None]).
Proof.
  split; [|vm_compute; split; reflexivity]. split; [byte_list|]. split; [vm_compute; reflexivity|]. split; [|split].
  - exists 108, 15, 128, 33, 220, 43. split; [at_tac|]. lia.
  - pose (h := wide_stair_head).
    apply (dir_wide _ _ _ _ _ _ _ _ _ _ 150 159 178 182 (sext 64 (Z.lxor (Z.lxor (Z.lxor 65536 5) (wide_hash h)) 0x550EC4DD02C468EC)) 0);
      [reflexivity|reflexivity|cbn; lia|lia|vm_compute; split; congruence|vm_compute; reflexivity|at_tac| |].
    + apply (heads_cons _ _ _ _ _ true 159 176 177 178 178 0);
        [at_tac| |vm_compute; discriminate|split; [vm_compute; split; congruence|at_tac]|split; [lia|at_tac]|constructor].
      apply name_keyed_wide; [reflexivity|apply lit_unicode; reflexivity|reflexivity|vm_compute; split; discriminate|at_tac].
    + apply (offs_image _ _ _ _ _ _ _ _ _ _ 178 182 (codes "Mob.img") 182 (zlen stair_zero) (stored_num OPkg264 150 5 (wide_hash h) 178 182) 0x73);
        [vm_compute; discriminate|vm_compute; split; congruence|at_tac|apply pkg2_holds; pk_side|auto|at_tac|constructor].
  - apply stocked_image; [apply (not_text_img (codes "Mob"))| |exact stair_neat|constructor].
    apply (serialised_image _ _ _ (zlen wide_stair)); [vm_compute; reflexivity|exact stair_good|at_tac].
Qed.

(** C271: and for archives. *)
Theorem C271_archive_link_tour : forall block name buf file images cs,
  bytes buf -> zlen buf < 2 ^ 63 -> archive block buf file images -> holds_links images cs ->
  exists w0 f0, w_open_ms block name file buf = Ok w0 /\ forall f, (f0 <= f)%nat -> exists w,
    w_parse (iv_key (aes256 user_key)) block f w0 0 0 = (Ok tt, w) /\
    tours_links (iv_key (aes256 user_key)) block f w (of_image images) name cs /\
    forall w1, used (iv_key (aes256 user_key)) block f w w1 -> serves_links (iv_key (aes256 user_key)) block f w1 (of_image images) name cs.
Proof.
  intros block name buf file images cs Hb Hs A H. destruct (archive_linked block name buf file images cs Hb Hs A H) as (w0 & f0 & O & N & T & W).
  exists w0, f0. split; [exact O|]. intros f Hf. destruct (W f Hf) as (w & s & E & F & L). exists w. split; [exact E|].
  assert (K : walkable (iv_key (aes256 user_key)) block (of_image images) f s name cs w).
  { split; [exact L|]. change w with (snd (Ok (A := unit) tt, w)). rewrite <- E. apply one_parse, N. }
  split; [eapply world_tours_links; eassumption|]. intros w1 U. eapply world_still_links; eassumption.
Qed.
Print Assumptions C271_archive_link_tour.
(** [arcl]: links that go round (hypotheses: see [C267_example]); [arc2]: an archive without any (see [C239_example] for what is seen). *)
Lemma arc_links : holds_links arc_images arc_content.
Proof.
  unfold holds_links. pose proof arc_holds as H. unfold holds in H. induction H as [|p c l l' (N & T & props & E & L & Li) _ IH]; constructor; [|exact IH].
  split; [exact N|]. split; [exact T|]. exists props. split; [exact E|]. split; [exact L|left; exact Li].
Qed.
Example C271_example :
  let st := iv_key (aes256 user_key) in
  (bytes arcl /\ archive chacha_block arcl ex_file arcl_images /\ holds_links arcl_images [(codes "l.img", CImage linky); (codes "Mob/x.img", CImage arc_props)] /\
   outcome (w_walk st chacha_block 20 (fun l => l) 10 true (arc_read arcl) 0) = 2%nat) /\
  (bytes arc2 /\ archive chacha_block arc2 ex_file arc_images /\ holds_links arc_images arc_content /\
   length (seen (w_walk st chacha_block 20 (fun l => l) 4 true (arc_read arc2) 0)) = 8%nat /\
   outcome (w_walk st chacha_block 20 (fun l => l) 3 true (arc_read arc2) 0) = 1%nat).
Proof.
  split; (split; [apply bytes_dec; vm|]).
  - split; [exact arcl_archive|]. split; [exact arcl_holds|]. vm_compute. reflexivity.
  - split; [exact arc2_archive|]. split; [exact arc_links|]. vm_compute. split; reflexivity.
Qed.

(** C272: and for packages without a version field, opened with no version or with 770. *)
Theorem C272_unversioned_link_tour : forall bl name buf h p r t iv existing patch kids cs cache,
  bytes buf -> zlen buf < 2 ^ 31 -> read_header buf = Ok (h, p) -> hd_ident h = IV1 -> hd_encver h = None ->
  patch = -1 \/ patch = 770 ->
  laid_dir buf (iv_key (aes256 user_key) (region_iv r)) (hd_fstart h) (digit_hash 0 [7; 7; 0]) (hd_data_start h) kids ->
  first_name true buf (hd_data_start h) (enc_str (iv_key (aes256 user_key) (region_iv r)) t) ->
  plain_ascii t -> (r = Sea -> (2 <= length t)%nat) ->
  offered (aes256 user_key) (iv_key (aes256 user_key) (region_iv r)) (length t) (region_iv r) iv existing ->
  stocked buf (iv_key (aes256 user_key) (region_iv r)) kids cs ->
  exists f0, forall f, (f0 <= f)%nat -> exists w,
    w_parse (iv_key (aes256 user_key)) bl f (w_open name buf iv existing patch cache) 0 0 = (Ok tt, w) /\
    tours_links (iv_key (aes256 user_key)) bl f w (eq (reader_of (iv_key (aes256 user_key)) buf (DEcb (region_iv r)))) name cs /\
    forall w1, used (iv_key (aes256 user_key)) bl f w w1 ->
      serves_links (iv_key (aes256 user_key)) bl f w1 (eq (reader_of (iv_key (aes256 user_key)) buf (DEcb (region_iv r)))) name cs.
Proof.
  intros bl name buf h p r t iv existing patch kids cs cache Hb Hs Hd Id He Hp L Fn T Hr Of Fw.
  destruct (C245_unversioned_package buf h p r t iv existing patch kids cache) as (f1 & kids' & Sh & P); [assumption..|].
  destruct (stock_tours (iv_key (aes256 user_key)) bl name buf iv existing patch cache h (DEcb (region_iv r)) kids cs Hs (header_was _ _ _ Hd)
    (region_key_bytes r) Fw) as (f2 & W).
  exists (Nat.max f1 f2). intros f Hf. eapply W; [lia|apply P; lia|reflexivity|exact Sh].
Qed.
Print Assumptions C272_unversioned_link_tour.
(** And one whose version is the lowest that fits its field, opened with none. *)
Theorem C272_lowest_version_link_tour : forall bl name buf h p r t iv existing v ds kids cs cache,
  bytes buf -> zlen buf < 2 ^ 31 -> read_header buf = Ok (h, p) -> hd_ident h = IV1 ->
  1 <= v <= 2000 -> Version.decimal v ds -> hd_encver h = Some (folded (digit_hash 0 ds)) -> (forall u, ~ rival v (folded (digit_hash 0 ds)) u) ->
  laid_dir buf (iv_key (aes256 user_key) (region_iv r)) (hd_fstart h) (digit_hash 0 ds) (hd_data_start h) kids ->
  first_name true buf (hd_data_start h) (enc_str (iv_key (aes256 user_key) (region_iv r)) t) ->
  plain_ascii t -> (r = Sea -> (2 <= length t)%nat) ->
  offered (aes256 user_key) (iv_key (aes256 user_key) (region_iv r)) (length t) (region_iv r) iv existing ->
  stocked buf (iv_key (aes256 user_key) (region_iv r)) kids cs ->
  exists f0, forall f, (f0 <= f)%nat -> exists w,
    w_parse (iv_key (aes256 user_key)) bl f (w_open name buf iv existing (-1) cache) 0 0 = (Ok tt, w) /\
    tours_links (iv_key (aes256 user_key)) bl f w (eq (reader_of (iv_key (aes256 user_key)) buf (DEcb (region_iv r)))) name cs /\
    forall w1, used (iv_key (aes256 user_key)) bl f w w1 ->
      serves_links (iv_key (aes256 user_key)) bl f w1 (eq (reader_of (iv_key (aes256 user_key)) buf (DEcb (region_iv r)))) name cs.
Proof.
  intros bl name buf h p r t iv existing v ds kids cs cache Hb Hs Hd Id Hv D He Nr L Fn T Hr Of Fw.
  destruct (C247_lowest_version buf h p r t iv existing v ds kids cache) as (f1 & kids' & Sh & P); [assumption..|].
  destruct (stock_tours (iv_key (aes256 user_key)) bl name buf iv existing (-1) cache h (DEcb (region_iv r)) kids cs Hs (header_was _ _ _ Hd)
    (region_key_bytes r) Fw) as (f2 & W).
  exists (Nat.max f1 f2). intros f Hf. eapply W; [lia|apply P; lia|reflexivity|exact Sh].
Qed.
Print Assumptions C272_lowest_version_link_tour.
(** [stair83] (hypotheses: see [C269_example]; 83 is the lowest: see [C247_example]) opened with no version; and a package without a version field. *)
Definition stair770 : list Z := Eval vm_compute in
  PKG1 ++ enc_le 8 (16 + zlen stair_img) ++ enc_le 4 16 ++
  [1] ++ [4] ++ enc_str (key_of Global) (codes "Mob.img") ++ [zlen stair_img; 0] ++ stored OPkg1 16 0 (digit_hash 0 [7; 7; 0]) 28 32 ++ stair_img.
Example C272_example :
  (bytes stair770 /\ read_header stair770 = Ok (mkHeader IV1 (zlen stair770 - 16) 16 16 None 0 0 FNone, 16) /\
   laid_dir stair770 (iv_key (aes256 user_key) (region_iv Global)) 16 (digit_hash 0 [7; 7; 0]) 16 [(codes "Mob.img", TImage 32 (zlen stair_img))] /\
   first_name true stair770 16 (enc_str (iv_key (aes256 user_key) (region_iv Global)) (codes "Mob.img")) /\
   stocked stair770 (iv_key (aes256 user_key) (region_iv Global)) [(codes "Mob.img", TImage 32 (zlen stair_img))] [(codes "Mob.img", CImage stair)]) /\
  (let look := fun buf => let st := iv_key (aes256 user_key) in
                          seen (w_walk st chacha_block 20 (fun l => l) 9 true (snd (w_parse st chacha_block 20 (w_open (codes "Mob.wz") buf None None (-1) []) 0 0)) 0) in
   let all := [codes "Mob.wz"; codes "Mob.wz/Mob.img"; codes "Mob.wz/Mob.img/a"; codes "Mob.wz/Mob.img/s"; codes "Mob.wz/Mob.img/a"; codes "Mob.wz/Mob.img/s"; codes "Mob.wz/Mob.img/a"] in
   look stair770 = all /\ look stair83 = all).
Proof.
  split; [|vm_compute; split; reflexivity]. split; [byte_list|]. split; [vm_compute; reflexivity|]. change (digit_hash 0 [7; 7; 0]) with 59185. split; [|split].
  - apply (DirWire.dir_at _ _ _ _ 16 17 32 1); [lia|split; [lia|at_tac]|].
    apply (ents_image _ _ _ _ 17 26 32 32 0 (codes "Mob.img") 32 (zlen stair_img) 0x73);
      [apply head_inline; [apply lit_unicode; reflexivity|at_tac|at_tac]|classic_tail 28|auto|at_tac|constructor].
  - exists 17, 26, 1, 4. split; [split; [lia|at_tac]|]. split; [lia|]. split; [at_tac|]. split; [lia|at_tac].
  - apply stocked_image; [apply (not_text_img (codes "Mob"))| |exact stair_neat|constructor].
    apply (serialised_image _ _ _ (zlen stair770)); [vm_compute; reflexivity|exact stair_good|at_tac].
Qed.

(** C273: a forced walk does not always come to an end: a well-formed package may have a link to a node above it, and then there is no depth that is
    enough. *)
Lemma linky_round k : follows linky [] (concat (repeat [codes "s"; codes "b"] k)) [].
Proof.
  induction k as [|k IH]; [constructor|]. cbn [repeat concat app]. eapply follows_plain; [apply linky_leads; auto|apply not_link; discriminate|].
  eapply follows_link with (us := [codes ".."]) (T := []); [apply linky_link; [discriminate|plain_names|apply linky_leads2; cbn [In]; auto]|apply (route_up linky []), route_end|exact IH].
Qed.
Lemma round_length k : length (concat (repeat [codes "s"; codes "b"] k)) = (2 * k)%nat.
Proof. induction k as [|k IH]; [reflexivity|]. cbn [repeat concat app length]. rewrite IH. lia. Qed.
Theorem C273_walks_end_refuted : exists bl name buf h kids cs f w,
  (bytes buf /\ read_header buf = Ok (h, 16) /\ hd_ident h = IV1 /\ hd_encver h = Some (folded (digit_hash 0 [8; 3])) /\
   laid_dir buf (iv_key (aes256 user_key) (region_iv Global)) (hd_fstart h) (digit_hash 0 [8; 3]) (hd_data_start h) kids /\
   stocked buf (iv_key (aes256 user_key) (region_iv Global)) kids cs) /\
  w_parse (iv_key (aes256 user_key)) bl f (w_open name buf None None 83 []) 0 0 = (Ok tt, w) /\
  forall order d tr w2, (forall l, Permutation (order l) l) -> w_walk (iv_key (aes256 user_key)) bl f order d true w 0 <> (Ok tr, w2).
Proof.
  destruct C265_example as ((Hb & Hd & De & Fo & L & Fn & Fw) & _).
  destruct (C269_classic_link_tour chacha_block (codes "Mob.wz") link83 link_head 16 Global (codes "Mob.img") None None 172 83 [8; 3] link_kids link_content []) as (f0 & W);
    [exact Hb|vm_compute; reflexivity|exact Hd|reflexivity|reflexivity|lia|exact De|exact Fo|exact L|exact Fn|vm_compute; repeat constructor; discriminate|discriminate| |exact Fw|].
  { exact Logic.I. }
  destruct (W f0 (le_n _)) as (w & E & To & _). exists chacha_block, (codes "Mob.wz"), link83, link_head, link_kids, link_content, f0, w.
  split; [repeat (split; [first [exact Hb|exact Hd|reflexivity|exact L]|]); exact Fw|]. split; [exact E|]. intros order d tr w2 Ord. revert tr w2.
  apply (To w order d (used_not _ _ _ _) Ord). exists (codes "Mob.img" :: concat (repeat [codes "s"; codes "b"] d)), [codes "Mob.img"], (PlImage linky). split.
  - eapply gets_image; [exists [], [(codes "d", CDir [(codes "j.img", CImage small_props)])]; split; [reflexivity|intros [X|[]]; discriminate X]|apply linky_round|constructor].
  - cbn [length]. rewrite round_length. lia.
Qed.
Print Assumptions C273_walks_end_refuted.
