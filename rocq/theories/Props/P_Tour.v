(** C227-C229: walking through whole packages that are read on the way. *)
From Coq Require Import ZArith List Bool Lia ZifyBool ZifyNat Permutation.
From Coq Require String Ascii.
From Verif.Model Require Import Base Utf Keys Reader WzStr Header Offset VersionPkg1 VersionPkg2 Directory Image Media Guess File Node Ms World.
From Verif.Spec Require Import Wire Stream StrWire HeaderSpec Version Media PropWire PropView DirWire DirView DirWire2 Aes KeyFind PropEnc PathSpec Tree ChaCha Whole.
From Verif.Proofs Require Import OpenL BaseL KeysL FileL NodeL WorldL WalkWL.
From Verif.Props Require Import P_Media P_Header P_Strict P_Version P_Directory P_Node P_Guess P_File P_Whole.
Import ListNotations. Import String.StringSyntax.
Open Scope Z_scope.

(** What may have been done with an opened file: lookups, found or not, and forced walks that came to their end. *)
Inductive used (st : list Z -> nat -> Z) (bl : list Z -> list Z -> Z -> list Z) (f : nat) (w : world) : world -> Prop :=
| used_not : used st bl f w w
| used_lookup w1 path : used st bl f w w1 -> used st bl f w (snd (w_at_path_parsed st bl f w1 0 path))
| used_walk w1 order d tr w2 : used st bl f w w1 -> (forall l, Permutation (order l) l) -> w_walk st bl f order d true w1 0 = (Ok tr, w2) -> used st bl f w w2.

(** An image without its children. *)
Definition let_go (w : world) (i : id) : Prop := exists c, w_heap w i = Some c /\ nd_kind c = KImage false /\ nd_slots c = [].
(** [f] was called with every node of the package, once, parents before children; each presents what is at its path and
    has that path as its full path at that moment.  Every image has been let go in the end. *)
Definition toured (st : list Z -> nat -> Z) (bl : list Z -> list Z -> Z -> list Z) (ok : rd -> Prop) (name : text) (top : place) (tr : list (id * world)) (last : world) : Prop :=
  exists ps, Forall2 (fun e comps => exists pl, leads top comps pl /\ presents st bl (snd e) ok (fst e) pl /\
      (Forall name_ok comps -> forall k, (length comps <= k)%nat -> get_full_path k (w_heap (snd e)) (fst e) = Ok (joined (name :: comps))) /\
      match pl with PlImage _ => let_go last (fst e) | _ => True end) tr ps /\
    NoDup ps /\ (forall comps pl, leads top comps pl -> In comps ps) /\ (forall a p n b, ps = a ++ (p ++ [n]) :: b -> In p a).
(** A forced walk at any time comes to its end and tours the package. *)
Definition tours (st : list Z -> nat -> Z) (bl : list Z -> list Z -> Z -> list Z) (f : nat) (w : world) (ok : rd -> Prop) (name : text) (top : place) : Prop :=
  exists d0, forall w1 order d, used st bl f w w1 -> (forall l, Permutation (order l) l) -> (d0 <= d)%nat ->
    exists tr w2, w_walk st bl f order d true w1 0 = (Ok tr, w2) /\ toured st bl ok name top tr w2.

Section any.
  Variable st : list Z -> nat -> Z.
  Variable bl : list Z -> list Z -> Z -> list Z.
  Variable ok : rd -> Prop.
  Variable f : nat.
  Hypothesis F : (0 < f)%nat.
  Variable s : shared.
  Variable name : text.
  Variable cs : list (text * content).

  Lemma used_opened w w1 : opened_world st bl ok f s name (PlDir cs) w -> used st bl f w w1 -> opened_world st bl ok f s name (PlDir cs) w1.
  Proof.
    intros O U. induction U as [|w1 path _ IH|w1 order d tr w2 _ IH Ord E]; [exact O| |].
    - apply (looked_up st bl ok f F s name (PlDir cs) w1 path IH).
    - destruct (content_shallow (CDir cs)) as (d0 & D). pose proof IH as (B & _).
      destruct (walk_all f F st bl ok s order Ord (Nat.max d d0) (PlDir cs)) with (w := w1) (i := 0) as (tr' & w' & E' & R & B' & _);
        [intros c z L; eapply Nat.lt_le_trans; [exact (D c z L)|lia]|exact B|exact (proj1 (proj2 IH))|].
      rewrite (walk_more _ _ _ _ _ _ (Nat.max d d0) _ _ _ _ (Nat.le_max_l d d0) (locked_free _ _ _ _ _ _ _ _ _ _ _ E)) in E'. injection E' as <- <-. eapply opened_loose; eassumption.
  Qed.

  Lemma world_tours w : opened_world st bl ok f s name (PlDir cs) w -> tours st bl f w ok name (PlDir cs).
  Proof.
    intro O0. destruct (content_shallow (CDir cs)) as (d0 & D). exists d0. intros w1 order d U Ord Hd.
    pose proof (used_opened w w1 O0 U) as O. pose proof O as (B & _).
    destruct (walk_all f F st bl ok s order Ord d (PlDir cs)) with (w := w1) (i := 0) as (tr & w2 & E & R & B2 & S & Fr & ps & V & Nd & Cm & Pf);
      [intros c z L; eapply Nat.lt_le_trans; [exact (D c z L)|lia]|exact B|exact (proj1 (proj2 O))|].
    exists tr, w2. split.
    { destruct O as (_ & A & kd & l & H & _). eapply (walk_locked f F st bl ok s order Ord d (PlDir cs)) with (l := []);
        [intros c z L; eapply Nat.lt_le_trans; [exact (D c z L)|lia]|exact B|exact A|eapply up_top; [exact H|reflexivity]|intros ? []|exact E]. }
    exists ps. split; [|auto]. clear Nd Cm Pf.
    assert (Hd0 : dhangs w1 0 [] 0) by (destruct O as (_ & _ & kd & l & H & _); econstructor; exact H).
    clear E. induction V as [|e c tr' ps' (z & L & A & Lo & Be & H) _ IHv]; constructor.
    - exists z. split; [exact L|]. split; [apply (place_presents st bl ok f s), A|]. split.
      + intros Nm k Hk. pose proof (opened_loose st bl ok f s name cs w1 (snd e) O Lo Be) as Oe. destruct (opened_root st bl ok f s name (PlDir cs) _ Oe) as [Rl _].
        destruct Oe as (_ & _ & kd & l & He & _). rewrite (C25_full_path (w_heap (snd e)) 0 c (fst e) _ Rl (H Nm 0 [] Hd0) He k Hk). reflexivity.
      + destruct z as [cs'|props|v]; [exact I| |exact I]. destruct A as (p & n & R'). inversion R' as [? ? ? ? ? ? ? ? k l Hc T ? ? ? ?|]; subst.
        destruct (Fr e _ (or_introl eq_refl) Hc ltac:(inversion T; reflexivity)) as (n' & p' & E'). eexists. split; [exact E'|]. split; reflexivity.
    - apply IHv. intros e' c' I'. apply Fr. right. exact I'.
  Qed.
  Lemma world_still_serves w w1 : opened_world st bl ok f s name (PlDir cs) w -> used st bl f w w1 -> serves st bl f w1 ok name (PlDir cs).
  Proof. intros O U. eapply world_serves; [exact F|]. eapply used_opened; eassumption. Qed.
  Lemma used_loose w w1 : opened_world st bl ok f s name (PlDir cs) w -> used st bl f w w1 -> loose f st bl w w1.
  Proof.
    intros O U. induction U as [|w1 path U IH|w1 order d tr w2 U IH Ord E]; [apply loose_refl| |].
    - eapply loose_trans; [exact IH|]. apply ext_loose. apply (looked_up st bl ok f F s name (PlDir cs) w1 path). eapply used_opened; eassumption.
    - eapply loose_trans; [exact IH|]. destruct (content_shallow (CDir cs)) as (d0 & D). pose proof (used_opened w w1 O U) as O1. pose proof O1 as (B & _).
      destruct (walk_all f F st bl ok s order Ord (Nat.max d d0) (PlDir cs)) with (w := w1) (i := 0) as (tr' & w' & E' & R & B' & _);
        [intros c z L; eapply Nat.lt_le_trans; [exact (D c z L)|lia]|exact B|exact (proj1 (proj2 O1))|].
      rewrite (walk_more _ _ _ _ _ _ (Nat.max d d0) _ _ _ _ (Nat.le_max_l d d0) (locked_free _ _ _ _ _ _ _ _ _ _ _ E)) in E'. injection E' as <- <-. exact R.
  Qed.
  Lemma world_keeps w : opened_world st bl ok f s name (PlDir cs) w -> forall w1 comps i w', used st bl f w w1 -> comps <> [] -> Forall name_ok comps ->
    (exists z, leads (PlDir cs) comps z /\ forall v, z <> PlProp v) ->
    w_at_path_parsed st bl f w1 0 (joined comps) = (Ok i, w') -> forall w2, used st bl f w' w2 -> at_path (w_heap w2) 0 (joined comps) = Some i.
  Proof.
    intros O0 w1 comps i w' U Ne Nm (z & L & Nz) E w2 U2. pose proof (used_opened w w1 O0 U) as O. pose proof (plain_names _ Nm) as Pl.
    destruct (looked_up st bl ok f F s name (PlDir cs) w1 (joined comps) O) as [O' _]. rewrite E in O'. cbn [snd] in O'.
    rewrite (opened_fold st bl ok f s name (PlDir cs) w1 _ O), split_join in E by assumption. pose proof O as (B & _).
    destruct (fold_dirs f F st bl ok s comps w1 0 (PlDir cs) z B (proj1 (proj2 O)) L Nz) as (j & w3 & E3 & X & B3 & Hg).
    rewrite E in E3. injection E3 as <- <-.
    assert (Hd0 : dhangs w1 0 [] 0) by (destruct O as (_ & _ & kd & l & H & _); econstructor; exact H).
    pose proof (dhangs_loose f st bl w' w2 0 B3 (used_loose w' w2 O' U2) _ _ (Hg Nm 0 [] Hd0)) as D2. cbn [app] in D2. apply dhangs_hangs in D2.
    pose proof (used_opened w' w2 O' U2) as O2. destruct (opened_root st bl ok f s name (PlDir cs) w2 O2) as [R2 _].
    apply (C25_path_leads_back _ _ _ _ R2 D2 Ne (length comps) (le_n _)).
  Qed.
End any.

(** C227: a forced walk through a classic package, at any time, calls [f] with all of its nodes, and lookups go on as before. *)
Theorem C227_classic_tour : forall bl name buf h p r t iv existing e v ds kids cs cache,
  bytes buf -> zlen buf < 2 ^ 31 -> read_header buf = Ok (h, p) -> hd_ident h = IV1 -> hd_encver h = Some e ->
  0 <= v < 1000000 -> decimal v ds -> folded (digit_hash 0 ds) = e ->
  laid_dir buf (iv_key (aes256 user_key) (region_iv r)) (hd_fstart h) (digit_hash 0 ds) (hd_data_start h) kids ->
  first_name true buf (hd_data_start h) (enc_str (iv_key (aes256 user_key) (region_iv r)) t) ->
  plain_ascii t -> (r = Sea -> (2 <= length t)%nat) ->
  offered (aes256 user_key) (iv_key (aes256 user_key) (region_iv r)) (length t) (region_iv r) iv existing ->
  filled_with buf (iv_key (aes256 user_key) (region_iv r)) kids cs ->
  exists f0, forall f, (f0 <= f)%nat -> exists w,
    w_parse (iv_key (aes256 user_key)) bl f (w_open name buf iv existing v cache) 0 0 = (Ok tt, w) /\
    tours (iv_key (aes256 user_key)) bl f w (eq (reader_of (iv_key (aes256 user_key)) buf (DEcb (region_iv r)))) name (PlDir cs) /\
    forall w1, used (iv_key (aes256 user_key)) bl f w w1 ->
      serves (iv_key (aes256 user_key)) bl f w1 (eq (reader_of (iv_key (aes256 user_key)) buf (DEcb (region_iv r)))) name (PlDir cs).
Proof.
  intros bl name buf h p r t iv existing e v ds kids cs cache Hb Hs Hd Id He Hv D Fo L Fn T Hr Of Fw.
  destruct (classic_opens bl name buf h p r t iv existing e v ds kids cs cache) as (f0 & W); [assumption..|].
  exists f0. intros f Hf. destruct (W f Hf) as (w & s & E & F & O). exists w. split; [exact E|].
  split; [eapply world_tours; eassumption|]. intros w1 U. eapply world_still_serves; eassumption.
Qed.
Print Assumptions C227_classic_tour.

(** The full paths [f] sees. *)
Definition seen (x : res (list (id * world)) * world) : list text :=
  match fst x with Ok tr => map (fun e => match get_full_path 9 (w_heap (snd e)) (fst e) with Ok t => t | _ => [] end) tr | _ => [] end.
(** [full83] (hypotheses: see [C223_example]): a walk, with the children taken the other way round; what is left; a lookup after it, and another walk. *)
Example C227_example :
  let st := iv_key (aes256 user_key) in
  let w := snd (w_parse st chacha_block 20 (w_open (codes "Mob.wz") full83 None None 83 []) 0 0) in
  let x := w_walk st chacha_block 20 (@rev (text * id)) 9 true w 0 in
  let y := w_at_path_parsed st chacha_block 20 (snd x) 0 (codes "d/j.img/s/v") in
  seen x = [codes "Mob.wz"; codes "Mob.wz/d"; codes "Mob.wz/d/j.img"; codes "Mob.wz/d/j.img/s"; codes "Mob.wz/d/j.img/s/v"; codes "Mob.wz/d/j.img/s/x";
            codes "Mob.wz/d/j.img/a"; codes "Mob.wz/Mob.img"; codes "Mob.wz/Mob.img/s"; codes "Mob.wz/Mob.img/s/v"; codes "Mob.wz/Mob.img/s/x"; codes "Mob.wz/Mob.img/a"] /\
  at_path (w_heap (snd x)) 0 (codes "d/j.img") <> None /\ at_path (w_heap (snd x)) 0 (codes "d/j.img/s") = None /\
  match fst y with Ok i => prop_at (snd y) i = Some (OVector 3 (-4)) | _ => False end /\
  seen (w_walk st chacha_block 20 (fun l => l) 9 true (snd y) 0) =
           [codes "Mob.wz"; codes "Mob.wz/Mob.img"; codes "Mob.wz/Mob.img/a"; codes "Mob.wz/Mob.img/s"; codes "Mob.wz/Mob.img/s/x"; codes "Mob.wz/Mob.img/s/v";
            codes "Mob.wz/d"; codes "Mob.wz/d/j.img"; codes "Mob.wz/d/j.img/a"; codes "Mob.wz/d/j.img/s"; codes "Mob.wz/d/j.img/s/x"; codes "Mob.wz/d/j.img/s/v"].
Proof. vm_compute. repeat split. discriminate. Qed.

(** C228: the same for packages with 64-bit hashes. *)
Theorem C228_wide_tour : forall bl name buf h p iv existing patch0 kids cs cache,
  bytes buf -> zlen buf < 2 ^ 31 -> read_header buf = Ok (h, p) -> is_pkg2_64 h = true -> wide_hash h <> 0 ->
  unlike_entry buf (hd_data_start h) ->
  laid_dir2 buf (fun _ => 0) (number_key (wide_number h)) true true (hd_fstart h) (hd_hash1 h) (wide_hash h) OPkg264 true (hd_data_start h) kids ->
  filled_with buf (fun _ => 0) kids cs ->
  exists f0 key, forall f, (f0 <= f)%nat -> exists w,
    w_parse (iv_key (aes256 user_key)) bl f (w_open name buf iv existing patch0 cache) 0 0 = (Ok tt, w) /\
    tours (iv_key (aes256 user_key)) bl f w (eq (reader_of (iv_key (aes256 user_key)) buf (DPkg2 key))) name (PlDir cs) /\
    forall w1, used (iv_key (aes256 user_key)) bl f w w1 -> serves (iv_key (aes256 user_key)) bl f w1 (eq (reader_of (iv_key (aes256 user_key)) buf (DPkg2 key))) name (PlDir cs).
Proof.
  intros bl name buf h p iv existing patch0 kids cs cache Hb Hs Hd W Nz Un L Fw.
  destruct (wide_opens bl name buf h p iv existing patch0 kids cs cache) as (f0 & key & Wd); [assumption..|].
  exists f0, key. intros f Hf. destruct (Wd f Hf) as (w & s & E & F & O). exists w. split; [exact E|].
  split; [eapply world_tours; eassumption|]. intros w1 U. eapply world_still_serves; eassumption.
Qed.
Print Assumptions C228_wide_tour.
(** [wide_full] (hypotheses: see [C225_example]). *)
Example C228_example :
  let st := iv_key (aes256 user_key) in
  let w := snd (w_parse st chacha_block 20 (w_open (codes "Mob.wz") wide_full None None (-1) []) 0 0) in
  let x := w_walk st chacha_block 20 (fun l => l) 9 true w 0 in
  seen x = [codes "Mob.wz"; codes "Mob.wz/Mob.img"; codes "Mob.wz/Mob.img/a"; codes "Mob.wz/Mob.img/s"; codes "Mob.wz/Mob.img/s/x"; codes "Mob.wz/Mob.img/s/v"] /\
  at_path (w_heap (snd x)) 0 (codes "Mob.img/s") = None /\ fst (w_at_path_parsed st chacha_block 20 (snd x) 0 (codes "Mob.img/s")) <> Err ENotFound.
Proof. vm_compute. repeat split. discriminate. Qed.

(** C229: the directories and images found in it are found again, whatever lookups and forced walks came between. *)
Theorem C229_directories_stay : forall bl name buf h p r t iv existing e v ds kids cs cache,
  bytes buf -> zlen buf < 2 ^ 31 -> read_header buf = Ok (h, p) -> hd_ident h = IV1 -> hd_encver h = Some e ->
  0 <= v < 1000000 -> decimal v ds -> folded (digit_hash 0 ds) = e ->
  laid_dir buf (iv_key (aes256 user_key) (region_iv r)) (hd_fstart h) (digit_hash 0 ds) (hd_data_start h) kids ->
  first_name true buf (hd_data_start h) (enc_str (iv_key (aes256 user_key) (region_iv r)) t) ->
  plain_ascii t -> (r = Sea -> (2 <= length t)%nat) ->
  offered (aes256 user_key) (iv_key (aes256 user_key) (region_iv r)) (length t) (region_iv r) iv existing ->
  filled_with buf (iv_key (aes256 user_key) (region_iv r)) kids cs ->
  exists f0, forall f, (f0 <= f)%nat -> exists w,
    w_parse (iv_key (aes256 user_key)) bl f (w_open name buf iv existing v cache) 0 0 = (Ok tt, w) /\
    forall w1 comps i w', used (iv_key (aes256 user_key)) bl f w w1 -> comps <> [] -> Forall name_ok comps ->
      (exists z, leads (PlDir cs) comps z /\ forall v, z <> PlProp v) ->
      w_at_path_parsed (iv_key (aes256 user_key)) bl f w1 0 (joined comps) = (Ok i, w') ->
      forall w2, used (iv_key (aes256 user_key)) bl f w' w2 -> at_path (w_heap w2) 0 (joined comps) = Some i.
Proof.
  intros bl name buf h p r t iv existing e v ds kids cs cache Hb Hs Hd Id He Hv D Fo L Fn T Hr Of Fw.
  destruct (classic_opens bl name buf h p r t iv existing e v ds kids cs cache) as (f0 & W); [assumption..|].
  exists f0. intros f Hf. destruct (W f Hf) as (w & s & E & F & O). exists w. split; [exact E|].
  apply (world_keeps _ _ _ f F s name cs w O).
Qed.
Print Assumptions C229_directories_stay.
Example C229_example :
  let st := iv_key (aes256 user_key) in
  let w := snd (w_parse st chacha_block 20 (w_open (codes "Mob.wz") full83 None None 83 []) 0 0) in
  let '(x, w1) := w_at_path_parsed st chacha_block 20 w 0 (codes "d/j.img") in
  let w2 := snd (w_walk st chacha_block 20 (fun l => l) 9 true (lookups st chacha_block 20 w1 [codes "d/j.img/s/v"; codes "q"]) 0) in
  x = Ok 3 /\ at_path (w_heap w2) 0 (codes "d/j.img") = Some 3 /\ w_next w2 <> w_next w1.
Proof. vm_compute. repeat split. discriminate. Qed.

(** C230: properties do not stay: after a forced walk the path of a property found before leads, once read again, to a new node. *)
Theorem C230_properties_stay_refuted : exists name buf v st bl f path d i j,
  let w := snd (w_parse st bl f (w_open name buf None None v []) 0 0) in
  let '(found, w1) := w_at_path_parsed st bl f w 0 path in
  let '(tr, w2) := w_walk st bl f (fun l => l) d true w1 0 in
  fst (w_parse st bl f (w_open name buf None None v []) 0 0) = Ok tt /\
  found = Ok i /\ at_path (w_heap w1) 0 path = Some i /\
  match tr with Ok _ => True | _ => False end /\
  at_path (w_heap w2) 0 path = None /\
  fst (w_at_path_parsed st bl f w2 0 path) = Ok j /\ j <> i /\
  match w_heap w2 i with Some c => nd_parent c <> None | None => False end.
Proof.
  exists (codes "Mob.wz"), full83, 83, (iv_key (aes256 user_key)), chacha_block, 20%nat, (codes "Mob.img/a"), 9%nat, 8, 18.
  vm_compute. repeat split; discriminate.
Qed.
Print Assumptions C230_properties_stay_refuted.
