(** C251-C253: images with links, from the bytes to the lookups. *)
From Coq Require Import ZArith List Bool Lia ZifyBool ZifyNat Permutation.
From Coq Require String Ascii.
From Verif.Model Require Import Base Utf Keys Reader WzStr Header Offset VersionPkg1 VersionPkg2 Directory Image Media Guess File Node Snow2 Ms World.
From Verif.Spec Require Import Wire Stream StrWire HeaderSpec Version Media PropWire PropView DirWire DirView DirWire2 Aes KeyFind PropEnc PathSpec Tree ChaCha Snow2 Ms MsFile MsFile2 Whole Linked.
From Verif.Proofs Require Import OpenL BaseL KeysL FileL NodeL WorldL WalkWL GuessL LinkedL.
From Verif.Props Require Import P_Media P_Header P_Strict P_Version P_Directory P_Node P_Guess P_File P_Ms P_MsRead2 P_Ms2 P_Whole P_Archive P_ImgFile.
Import ListNotations. Import String.StringSyntax.
Open Scope Z_scope.

(** Below the image [i], which is at [base], every path either leads, through the links, to a place and gives the one node that stands
    for it, whose full path is that of the place itself; or is refused.  Nothing changes by asking. *)
Definition follows_links (st : list Z -> nat -> Z) (bl : list Z -> list Z -> Z -> list Z) (f : nat) (w : world) (r : rd) (i : id)
    (props : list (list Z * prop)) (base : list text) : Prop :=
  forall comps, comps <> [] -> Forall (fun c => ~ In 47 c) comps ->
    (forall Q, follows props [] comps Q -> exists j pl, leads (PlImage props) Q pl /\
       at_path (w_heap w) i (joined comps) = Some j /\ w_at_path_parsed st bl f w i (joined comps) = (Ok j, w) /\
       presents st bl w (eq r) j pl /\
       forall k, (length (base ++ Q) <= k)%nat -> get_full_path k (w_heap w) j = Ok (joined (base ++ Q))) /\
    (missing props [] comps -> at_path (w_heap w) i (joined comps) = None /\ w_at_path_parsed st bl f w i (joined comps) = (Err ENotFound, w)) /\
    ((exists Q, follows props [] comps Q) \/ missing props [] comps).

Lemma resolved_follows st bl f w3 w r i props root q c : resolved st bl f w3 r i props w -> simple_links props ->
  hangs (w_heap w) root q i -> w_heap w root = Some c -> nd_parent c = None -> follows_links st bl f w3 r i props (nd_name c :: q).
Proof.
  intros ((nm & off & size & T) & (ck & Ck & Uk) & R) Sl H C P comps Ne Pl. destruct (R comps) as [A B].
  assert (E : w_at_path_parsed st bl f w3 i (joined comps) = w_fold st bl f w3 i comps).
  { unfold w_at_path_parsed. rewrite split_join by assumption. destruct comps as [|n rest]; [contradiction|]. cbn [w_fold]. unfold w_parse. rewrite Ck, Uk. reflexivity. }
  rewrite E, at_path_join by assumption. split; [|split].
  - intros Q F. destruct (A Q F) as (j & z & Lz & F1 & F2 & S & Fp). exists j, z. split; [exact Lz|]. split; [exact F1|]. split; [exact F2|]. split.
    + destruct z as [cs|ps|v]; cbn [presents].
      * destruct (image_nodir _ _ _ Lz cs eq_refl).
      * subst j. exists r. split; [reflexivity|]. left. eauto.
      * destruct S as (o & sub & To & So). exists r, o, sub. auto.
    + intros k Hk. apply Fp with (root := root); try assumption. cbn [app length] in Hk. lia.
  - exact B.
  - apply (links_total props Sl comps [] (PlImage props)). constructor.
Qed.

(** C251: whatever the tree looks like, reading an image that has not been read resolves its links: paths go through them, and what leads
    nowhere is left as it is. *)
Theorem C251_linked_image : forall st bl w i p name r off size props root q c,
  (forall j d, w_heap w j = Some d -> j < w_next w) ->
  w_heap w i = Some (mkCell name (KImage false) p []) -> w_thing w i = ThImage r name off size ->
  hangs (w_heap w) root q i -> w_heap w root = Some c -> nd_parent c = None ->
  zlen (rd_buf r) < 2 ^ 31 -> (forall j, byte (rd_ks r j)) -> laid_image (rd_buf r) (rd_ks r) off props -> not_text name ->
  tidy props -> simple_links props ->
  exists f0, forall f, (f0 <= f)%nat -> exists w1,
    w_parse st bl f w i i = (Ok tt, w1) /\ follows_links st bl f w1 r i props (nd_name c :: q).
Proof.
  intros st bl w i p name r off size props root q c B H T Hg C P Hs Hk L Nt Ty Sl.
  destruct (image_shows r name size off props Hs Hk L Nt) as (f0 & kids & R). exists f0. intros f Hf. destruct (R f Hf) as (S & us & Im).
  destruct (links_read st bl f w i (KImage false) p name r off size props kids us B H eq_refl) as (w1 & E & Re); [rewrite T; constructor|assumption..|].
  exists w1. split; [exact E|]. eapply resolved_follows; eassumption.
Qed.
Print Assumptions C251_linked_image.

(** C252: the same for an image in an archive, which is unpacked when it is read. *)
Theorem C252_linked_archive_image : forall st bl w i p buf e x props root q c,
  (forall j d, w_heap w j = Some d -> j < w_next w) ->
  w_heap w i = Some (mkCell (me_name e) KMsImage p []) -> w_thing w i = ThMsImage buf e -> to_wz_image bl buf e = Ok x ->
  hangs (w_heap w) root q i -> w_heap w root = Some c -> nd_parent c = None ->
  zlen x < 2 ^ 31 -> (forall j, byte (st [0; 0; 0; 0] j)) -> laid_image x (st [0; 0; 0; 0]) 0 props -> not_text (me_name e) ->
  tidy props -> simple_links props ->
  exists f0, forall f, (f0 <= f)%nat -> exists w1,
    w_parse st bl f w i i = (Ok tt, w1) /\ follows_links st bl f w1 (own_reader st x) i props (nd_name c :: q).
Proof.
  intros st bl w i p buf e x props root q c B H T X Hg C P Hs Hk L Nt Ty Sl.
  assert (Ne : x <> []) by (intros ->; destruct L as (q0 & e0 & ([|] & ? & E & _) & _); discriminate E).
  assert (Er : own_reader st x = fresh_reader st x [0; 0; 0; 0]) by (destruct x; [contradiction|reflexivity]).
  destruct (image_shows (own_reader st x) (me_name e) (wrap 64 (me_size e)) 0 props) as (f0 & kids & R); [rewrite Er; exact Hs|rewrite Er; exact Hk|rewrite Er; exact L|exact Nt|].
  exists f0. intros f Hf. destruct (R f Hf) as (S & us & Im).
  destruct (links_read st bl f w i KMsImage p (me_name e) (own_reader st x) 0 (wrap 64 (me_size e)) props kids us B H eq_refl) as (w1 & E & Re); [rewrite T; constructor; exact X|assumption..|].
  exists w1. split; [exact E|]. eapply resolved_follows; eassumption.
Qed.
Print Assumptions C252_linked_archive_image.

(** C253: an image file with links in it, opened with its key or with none given. *)
Theorem C253_linked_image_file : forall bl name buf r iv props,
  bytes buf -> zlen buf < 2 ^ 31 -> laid_image buf (iv_key (aes256 user_key) (region_iv r)) 0 props ->
  not_text name -> tidy props -> simple_links props -> iv = None \/ iv = Some (region_iv r) ->
  exists w0 f0, w_open_img (iv_key (aes256 user_key)) name buf iv = Ok w0 /\ forall f, (f0 <= f)%nat -> exists w,
    w_parse (iv_key (aes256 user_key)) bl f w0 0 0 = (Ok tt, w) /\
    exists rd, of_file buf (iv_key (aes256 user_key) (region_iv r)) rd /\ follows_links (iv_key (aes256 user_key)) bl f w rd 0 props [name].
Proof.
  intros bl name buf r iv props Hb Hs L Nt Ty Sl Iv. set (st := iv_key (aes256 user_key)) in *.
  assert (O : image_open st buf iv = Ok (region_iv r)) by (eapply image_opened; eassumption).
  unfold w_open_img. rewrite O. cbn [rmap rbind]. set (rd := fresh_reader st buf (region_iv r)).
  destruct (C251_linked_image st bl (fst (World.fresh (nowhere []) name (ThImage rd name 0 (zlen buf)) None)) 0 None name rd 0 (zlen buf) props 0 []
              (mkCell name (KImage false) None [])) as (f0 & R); try assumption; try reflexivity.
  - intros j d. unfold World.fresh, nowhere. cbn [fst w_heap w_next]. unfold Node.put. destruct (Z.eqb_spec j 0) as [->|_]; [intros _; reflexivity|discriminate].
  - econstructor. reflexivity.
  - intro j. destruct (region_bytes r). apply iv_key_byte; auto. apply user_key_cipher.
  - eexists _, f0. split; [reflexivity|]. intros f Hf. destruct (R f Hf) as (w1 & E & F). exists w1. split; [exact E|]. exists rd. split; [split; reflexivity|exact F].
Qed.
Print Assumptions C253_linked_image_file.

(** An image with links up, down, to itself, to nowhere and out of it. *)
Definition linky : list (list Z * prop) :=
  [(codes "a", PInt 300);
   (codes "s", PSub [(codes "x", PStr (codes "hi")); (codes "l", PUol (codes "../a")); (codes "b", PUol (codes ".."))]);
   (codes "m", PUol (codes "s/x")); (codes "t", PUol (codes "s")); (codes "d", PUol (codes "s/none")); (codes "o", PUol (codes "../a"))].
Definition linky_sub : prop := PSub [(codes "x", PStr (codes "hi")); (codes "l", PUol (codes "../a")); (codes "b", PUol (codes ".."))].
Lemma last_named_in {A} (l : list (list Z * A)) k x : last_named l k x -> In (k, x) l.
Proof. intros (a & b & -> & _). apply in_or_app. right. left. reflexivity. Qed.
Lemma linky_places P pl : leads (PlImage linky) P pl -> In (P, pl)
  [([], PlImage linky); ([codes "a"], PlProp (PInt 300)); ([codes "s"], PlProp linky_sub); ([codes "m"], PlProp (PUol (codes "s/x")));
   ([codes "t"], PlProp (PUol (codes "s"))); ([codes "d"], PlProp (PUol (codes "s/none"))); ([codes "o"], PlProp (PUol (codes "../a")));
   ([codes "s"; codes "x"], PlProp (PStr (codes "hi"))); ([codes "s"; codes "l"], PlProp (PUol (codes "../a"))); ([codes "s"; codes "b"], PlProp (PUol (codes "..")))].
Proof.
  intro L. inversion L as [|? n q rest ? I L1]; subst; [left; reflexivity|]. inversion I as [|? ? v La|]; subst. apply last_named_in in La.
  assert (Leaf : forall v rest z, leads (PlProp v) rest z -> below v [] -> rest = [] /\ z = PlProp v).
  { intros u r z Lz B. inversion Lz as [|? ? ? ? ? Iz _]; subst; [auto|]. inversion Iz as [| |? ks ? ? B' La']; subst. rewrite (below_fun _ _ _ B' B) in La'. apply last_named_in in La'. destruct La'. }
  destruct La as [[= <- <-]|[[= <- <-]|[[= <- <-]|[[= <- <-]|[[= <- <-]|[[= <- <-]|[]]]]]]]; try (apply Leaf in L1 as [-> ->]; [|constructor; exact Logic.I]; cbn [In]; tauto).
  inversion L1 as [|? n q rest' ? I2 L2]; subst; [cbn [In]; tauto|]. inversion I2 as [| |? ks ? u B La]; subst. inversion B; subst; [|contradiction]. apply last_named_in in La.
  destruct La as [[= <- <-]|[[= <- <-]|[[= <- <-]|[]]]]; apply Leaf in L2 as [-> ->]; try (constructor; exact Logic.I); cbn [In]; tauto.
Qed.
Ltac no_dup := repeat (constructor; [cbn [In]; intros H; repeat (destruct H as [H|H]; [discriminate H|]); contradiction|]); constructor.
Ltac good_names := repeat (constructor; [split; [discriminate|]; split; [cbn; intros H; repeat (destruct H as [H|H]; [discriminate H|]); contradiction|discriminate]|]); constructor.
Lemma linky_tidy : tidy linky.
Proof.
  intros P pl ns L Ls. apply linky_places in L. assert (Lf : forall v, below v [] -> lists (PlProp v) ns -> ns = []) by (intros v B X; inversion X as [|? ks B']; subst; rewrite (below_fun _ _ _ B' B); reflexivity).
  cbn [In] in L. repeat (destruct L as [L|L]; [injection L as <- <-; try (apply Lf in Ls; [|constructor; exact Logic.I]; subst ns; split; constructor)|]); [| |destruct L].
  - inversion Ls; subst. split; [no_dup|good_names].
  - inversion Ls as [|? ks B]; subst. inversion B; subst; [|contradiction]. split; [no_dup|good_names].
Qed.
Lemma linky_leads P pl : P = [codes "a"] /\ pl = PlProp (PInt 300) \/ P = [codes "s"] /\ pl = PlProp linky_sub \/ P = [codes "m"] /\ pl = PlProp (PUol (codes "s/x")) \/
  P = [codes "t"] /\ pl = PlProp (PUol (codes "s")) \/ P = [codes "d"] /\ pl = PlProp (PUol (codes "s/none")) -> leads (PlImage linky) P pl.
Proof.
  assert (G : forall k v, In (k, v) linky -> leads (PlImage linky) [k] (PlProp v)).
  { intros k v I. econstructor; [constructor|constructor]. apply nodup_last; [|exact I]. exact (proj1 (linky_tidy [] _ _ (leads_here _) (lists_image _))). }
  intros [[-> ->]|[[-> ->]|[[-> ->]|[[-> ->]|[-> ->]]]]]; apply G; cbn [linky In]; auto 9.
Qed.
Lemma linky_leads2 n v : In (n, v) [(codes "x", PStr (codes "hi")); (codes "l", PUol (codes "../a")); (codes "b", PUol (codes ".."))] -> leads (PlImage linky) [codes "s"; n] (PlProp v).
Proof.
  intro I. change [codes "s"; n] with ([codes "s"] ++ [n]). apply leads_snoc. exists (PlProp linky_sub). split; [apply linky_leads; auto|]. econstructor; [constructor|]. apply nodup_last; [no_dup|exact I].
Qed.
Lemma not_link v : (forall t, v <> PUol t) -> ~ link (PlProp v).
Proof. intros H (t & [= E]). exact (H t E). Qed.
Lemma linky_simple : simple_links linky.
Proof.
  intros P n us (Ne & Pl & L). apply linky_places in L. cbn [In] in L.
  assert (J : forall vs, vs <> [] -> Forall (fun u => ~ In 47 u) vs -> joined us = joined vs -> us = vs) by (intros vs Nv Pv E; apply joined_inj; assumption).
  assert (S1 : forall (a : list Z) P n, [a] = P ++ [n] -> P = [] /\ n = a) by (intros a [|b [|]] m E; try discriminate E; injection E as ->; auto).
  assert (S2 : forall (a b : list Z) P n, [a; b] = P ++ [n] -> P = [a] /\ n = b) by (intros a b [|c [|d [|]]] m E; try discriminate E; injection E as -> ->; auto).
  assert (Np : forall l : list (list Z), forallb (fun c => negb (existsb (Z.eqb 47) c)) l = true -> Forall (fun u => ~ In 47 u) l).
  { intros l H. rewrite forallb_forall in H. apply Forall_forall. intros x Hx I. specialize (H x Hx). assert (X : existsb (Z.eqb 47) x = true) by (apply existsb_exists; exists 47; auto). rewrite X in H. discriminate H. }
  assert (Sl : leads (PlImage linky) ([] ++ [codes "s"]) (PlProp linky_sub)) by (apply linky_leads; auto).
  repeat (destruct L as [L|L]; [injection L as EP E; try discriminate E|]); try contradiction.
  - apply S1 in EP as [-> ->]. apply eq_sym, (J [codes "s"; codes "x"]) in E as ->; [|discriminate|apply Np; reflexivity]. left. exists [codes "s"; codes "x"].
    eapply route_down; [discriminate|exact Sl|apply not_link; discriminate|]. eapply route_down; [discriminate|apply (linky_leads2 (codes "x") (PStr (codes "hi"))); left; reflexivity|apply not_link; discriminate|apply route_end].
  - apply S1 in EP as [-> ->]. apply eq_sym, (J [codes "s"]) in E as ->; [|discriminate|apply Np; reflexivity]. left. exists [codes "s"].
    eapply route_down; [discriminate|exact Sl|apply not_link; discriminate|apply route_end].
  - apply S1 in EP as [-> ->]. apply eq_sym, (J [codes "s"; codes "none"]) in E as ->; [|discriminate|apply Np; reflexivity]. right.
    eapply astray_down; [discriminate|exact Sl|apply not_link; discriminate|]. eapply astray_name; [discriminate|exact Sl|econstructor; [constructor|]].
    cbn [In map fst]. intros H; repeat (destruct H as [H|H]; [discriminate H|]); contradiction.
  - apply S1 in EP as [-> ->]. apply eq_sym, (J [codes ".."; codes "a"]) in E as ->; [|discriminate|apply Np; reflexivity]. right. apply astray_out.
  - apply S2 in EP as [-> ->]. apply eq_sym, (J [codes ".."; codes "a"]) in E as ->; [|discriminate|apply Np; reflexivity]. left. exists [codes "a"].
    apply (route_up linky []). eapply route_down; [discriminate|apply linky_leads; auto|apply not_link; discriminate|apply route_end].
  - apply S2 in EP as [-> ->]. apply eq_sym, (J [codes ".."]) in E as ->; [|discriminate|apply Np; reflexivity]. left. exists []. apply (route_up linky []). apply route_end.
Qed.
(** Where some paths lead. *)
Lemma linky_link P n us : us <> [] -> Forall (fun u => ~ In 47 u) us -> leads (PlImage linky) (P ++ [n]) (PlProp (PUol (joined us))) -> linked linky P n us.
Proof. intros A B C. split; [exact A|]. split; [exact B|exact C]. Qed.
Ltac plain_names := repeat (constructor; [cbn; intros H; repeat (destruct H as [H|H]; [discriminate H|]); contradiction|]); constructor.
Lemma linky_t us Q : follows linky [codes "s"] us Q -> follows linky [] (codes "t" :: us) Q.
Proof.
  intro F. eapply follows_link with (us := [codes "s"]); [apply linky_link; [discriminate|plain_names|apply linky_leads; auto 9]| |exact F].
  eapply route_down; [discriminate|apply linky_leads; auto|apply not_link; discriminate|apply route_end].
Qed.
Lemma linky_back : follows linky [] [codes "t"; codes "b"; codes "s"; codes "l"] [codes "a"].
Proof.
  apply linky_t. eapply follows_link with (us := [codes ".."]) (T := []); [apply linky_link; [discriminate|plain_names|apply linky_leads2; cbn [In]; auto]|apply (route_up linky []), route_end|].
  eapply follows_plain; [apply linky_leads; auto|apply not_link; discriminate|].
  eapply follows_link with (us := [codes ".."; codes "a"]) (T := [codes "a"]); [apply linky_link; [discriminate|plain_names|apply linky_leads2; cbn [In]; auto]| |constructor].
  apply (route_up linky []). eapply route_down; [discriminate|apply linky_leads; auto|apply not_link; discriminate|apply route_end].
Qed.
Lemma linky_dead : follows linky [] [codes "d"] [codes "d"] /\ missing linky [] [codes "d"; codes "x"].
Proof.
  assert (L : linked linky [] (codes "d") [codes "s"; codes "none"]) by (apply linky_link; [discriminate|plain_names|apply linky_leads; auto 9]).
  assert (A : astray linky [] [codes "s"; codes "none"]).
  { assert (Sl : leads (PlImage linky) ([] ++ [codes "s"]) (PlProp linky_sub)) by (apply linky_leads; auto).
    eapply astray_down; [discriminate|exact Sl|apply not_link; discriminate|]. eapply astray_name; [discriminate|exact Sl|econstructor; [constructor|]].
    cbn [In map fst]. intros H; repeat (destruct H as [H|H]; [discriminate H|]); contradiction. }
  split; [eapply (follows_dead linky []); eassumption|eapply missing_dead; eassumption].
Qed.
Lemma linky_good : good_kids linky.
Proof.
  repeat (constructor; try lia); try (apply good_of_ext; repeat (constructor; try lia)); try (apply lit_unicode; reflexivity).
Qed.

(** A directory "d" with that image in it, of the Global region or in an archive. *)
Definition linky_world (t : thing) : world :=
  mkWorld (fun j => if j =? 0 then Some (mkCell (codes "d") (KDir true) None [(codes "l.img", 1)])
                    else if j =? 1 then Some (mkCell (codes "l.img") (kind_of t) (Some 0) []) else None)
          (fun _ => t) 2 [].
Definition linky_looked (w0 : world) (i : id) (base : list Z) : Prop :=
  let st := iv_key (aes256 user_key) in
  let '(u, w) := w_parse st chacha_block 20 w0 i i in
  let look := fun p => match w_at_path_parsed st chacha_block 20 w i p with
                       | (Ok j, w1) => Some (match w_thing w1 j with ThProp _ (OInt v) => v | ThProp _ (OUol _) => -1 | ThProp _ OSub => -2 | ThImage _ _ _ _ => -3 | _ => -4 end,
                                             get_full_path 9 (w_heap w1) j)
                       | _ => None
                       end in
  u = Ok tt /\ look (codes "t/b/s/l") = Some (300, Ok (base ++ codes "/a")) /\ look (codes "t") = Some (-2, Ok (base ++ codes "/s")) /\
  look (codes "s/b") = Some (-3, Ok base) /\ look (codes "d") = Some (-1, Ok (base ++ codes "/d")) /\ look (codes "d/x") = None /\ look (codes "o") = Some (-1, Ok (base ++ codes "/o")).
Definition linky_img : list Z := Eval vm_compute in ser_image (key_of Global) linky.
Definition linky_thing : thing := ThImage (fresh_reader (iv_key (aes256 user_key)) linky_img (region_iv Global)) (codes "l.img") 0 (zlen linky_img).
Lemma linky_laid : laid_image linky_img (key_of Global) 0 linky.
Proof. apply (serialised_image _ _ _ (zlen linky_img)); [vm_compute; reflexivity|exact linky_good|exists [], []; repeat split; vm_compute; reflexivity]. Qed.
Lemma linky_hangs t : hangs (w_heap (linky_world t)) 0 [codes "l.img"] 1.
Proof.
  change [codes "l.img"] with ([] ++ [codes "l.img"]). econstructor; [econstructor; reflexivity|split; [discriminate|cbn; intros H; repeat (destruct H as [H|H]; [discriminate H|]); contradiction]| |].
  - split; eexists; split; try reflexivity. split; reflexivity.
  - eexists. split; [reflexivity|]. split; [no_dup|left; reflexivity].
Qed.
Example C251_example :
  (let w := linky_world linky_thing in
   (forall j d, w_heap w j = Some d -> j < w_next w) /\ w_heap w 1 = Some (mkCell (codes "l.img") (KImage false) (Some 0) []) /\
   hangs (w_heap w) 0 [codes "l.img"] 1) /\
  laid_image linky_img (key_of Global) 0 linky /\ tidy linky /\ simple_links linky /\
  follows linky [] [codes "t"; codes "b"; codes "s"; codes "l"] [codes "a"] /\ follows linky [] [codes "d"] [codes "d"] /\ missing linky [] [codes "d"; codes "x"] /\
  linky_looked (linky_world linky_thing) 1 (codes "d/l.img").
Proof.
  split; [|split; [exact linky_laid|split; [exact linky_tidy|split; [exact linky_simple|split; [exact linky_back|split; [exact (proj1 linky_dead)|split; [exact (proj2 linky_dead)|]]]]]]].
  - split; [|split; [reflexivity|apply linky_hangs]]. intros j d. cbn. destruct (Z.eqb_spec j 0); [lia|]. destruct (Z.eqb_spec j 1); [lia|discriminate].
  - vm_compute. repeat split.
Qed.
Definition linky_zero : list Z := Eval vm_compute in ser_image (fun _ => 0) linky.
Definition linky_meta : meta := Meta (codes "l.img") 5 6 0 (zlen linky_zero) (zlen linky_zero) 7 8 ex_key1 11 (-12).
Definition linky_store : list Z := Eval vm_compute in e2_store linky_meta linky_zero.
Definition linky_entry : ms_entry := mkEntry ex_salt (codes "l.img") 5 6 0 (zlen linky_zero) (zlen linky_zero) 7 8 ex_key1 11 (-12) 2 0 (zlen linky_zero).
Example C252_example :
  let w := linky_world (ThMsImage linky_store linky_entry) in
  w_heap w 1 = Some (mkCell (codes "l.img") KMsImage (Some 0) []) /\ to_wz_image chacha_block linky_store linky_entry = Ok linky_zero /\
  laid_image linky_zero (fun _ => 0) 0 linky /\ linky_looked w 1 (codes "d/l.img").
Proof.
  split; [reflexivity|]. split; [vm_compute; reflexivity|]. split; [|vm_compute; repeat split].
  apply (serialised_image _ _ _ (zlen linky_zero)); [vm_compute; reflexivity|exact linky_good|exists [], []; repeat split; vm_compute; reflexivity].
Qed.
Example C253_example :
  bytes linky_img /\ not_text (codes "l.img") /\
  match w_open_img (iv_key (aes256 user_key)) (codes "l.img") linky_img None with Ok w0 => linky_looked w0 0 (codes "l.img") | _ => False end.
Proof. split; [byte_list|]. split; [apply (not_text_img (codes "l"))|]. vm_compute. repeat split. Qed.
