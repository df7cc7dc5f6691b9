(** C242-C244: what is in image files, read by path. *)
From Coq Require Import ZArith List Bool Lia ZifyBool ZifyNat Permutation.
From Coq Require String Ascii.
From Verif.Model Require Import Base Utf Keys Reader WzStr Header Offset VersionPkg1 VersionPkg2 Directory Image Media Guess File Node Snow2 Ms World.
From Verif.Spec Require Import Wire Stream StrWire HeaderSpec Version Media PropWire PropView DirWire DirView DirWire2 Aes KeyFind PropEnc PathSpec Tree ChaCha Snow2 Ms MsFile MsFile2 Whole.
From Verif.Proofs Require Import OpenL BaseL KeysL FileL NodeL WorldL WalkWL GuessL Snow2L MsReadL MsFileL.
From Verif.Props Require Import P_Media P_Header P_Strict P_Version P_Directory P_Node P_Guess P_File P_Ms P_MsRead2 P_Ms2 P_Whole P_Tour P_Archive.
Import ListNotations. Import String.StringSyntax.
Open Scope Z_scope.

(** Properties are read from that file with that key. *)
Definition of_file (buf : list Z) (ks : nat -> Z) (r : rd) : Prop := rd_buf r = buf /\ forall j, rd_ks r j = ks j.

Section image.
  Variable st : list Z -> nat -> Z.
  Variable bl : list Z -> list Z -> Z -> list Z.
  Variable ok : rd -> Prop.
  Variable f : nat.
  Hypothesis F : (0 < f)%nat.
  Variable s : shared.
  Variable name : text.
  Variable props : list (list Z * prop).

  (** The image is at the top, read or not. *)
  Definition lies (w : world) : Prop := bounded w /\ at_place f st bl ok s w 0 (PlImage props) /\ exists k sl, w_heap w 0 = Some (mkCell name k None sl).
  Lemma lies_read w : lies w -> exists w1, w_parse st bl f w 0 0 = (Ok tt, w1) /\ opened_world st bl ok f s name (PlImage props) w1.
  Proof.
    intros (B & A & k & sl & H). destruct (parse_place f st bl ok s w 0 _ F B A) as (w1 & P & X & B1 & A1 & _ & _ & Rd). exists w1. split; [exact P|].
    split; [exact B1|]. split; [exact A1|]. destruct (Rd props eq_refl) as (n & p & sl' & H'). exists (KImage true), sl'. split; [|reflexivity].
    destruct X as [_ X]. destruct (X 0 (B 0 _ H)) as [[E _]|[(n' & q & sl2 & E & E' & _)|(n' & k' & q & r' & nm & off' & size' & ks & us & l' & E & U' & _ & _ & E' & _)]].
    - rewrite E in H'. rewrite E. rewrite H in H'. injection H' as <- -> <- ->. exact H.
    - rewrite E' in H'. discriminate H'.
    - rewrite H in E. injection E as <- _ <- _. rewrite E' in *. injection H' as _ _ ->. reflexivity.
  Qed.
  Lemma lies_walked w order d : (forall l, Permutation (order l) l) -> lies w -> shallow (PlImage props) d ->
    exists tr w', w_walk st bl f order d true w 0 = (Ok tr, w') /\ lies w' /\ toured st bl ok name (PlImage props) tr w' /\ let_go w' 0.
  Proof.
    intros Ord L D. pose proof L as (B & A & k & sl & H).
    destruct (walk_all f F st bl ok s order Ord d (PlImage props) D w 0 B A) as (tr & w' & E & R & B' & S & Fr & ps & V & Nd & Cm & Pf).
    exists tr, w'. split.
    { eapply (walk_locked f F st bl ok s order Ord d (PlImage props)) with (l := []); [exact D|exact B|exact A|eapply up_top; [exact H|reflexivity]|intros ? []|exact E]. }
    assert (Cell : forall w2, loose f st bl w w2 -> exists k2 sl2, w_heap w2 0 = Some (mkCell name k2 None sl2)).
    { intros w2 Lo. destruct (loose_cell f st bl w w2 0 _ B Lo H) as ([n' k' p' sl'] & C' & N' & P' & _). cbn in N', P'. subst n' p'. eauto. }
    assert (Hd0 : dhangs w 0 [] 0) by (econstructor; exact H).
    split; [split; [exact B'|]; split; [eapply loose_place; [exact R|exact A]|apply Cell, R]|].
    assert (Fst : exists w1 tr', tr = (0, w1) :: tr').
    { clear - E. destruct d as [|d]; [discriminate E|]. cbn [free_walk] in E. destruct (w_parse st bl f w 0 0) as [[u|e| |] w1]; try discriminate E;
        (destruct (w_heap w1 0); [|discriminate E]); destruct (w_loop _ _ _) as [[l| | |] w2]; try discriminate E; injection E as <- _; eauto. }
    destruct Fst as (w1 & tr' & Etr).
    assert (Go : forall e c, In e tr -> visit f st bl ok s (PlImage props) w 0 e c -> forall pl, (exists x, pl = PlImage x) -> leads (PlImage props) c pl -> at_place f st bl ok s (snd e) (fst e) pl -> let_go w' (fst e)).
    { intros e c I _ pl (x & ->) _ Ax. destruct Ax as (p & n & Rx). inversion Rx as [? ? ? ? ? ? ? ? k' l' Hc T ? ? ? ?|]; subst.
      destruct (Fr e _ I Hc ltac:(inversion T; reflexivity)) as (n' & p' & E'). eexists. split; [exact E'|]. split; reflexivity. }
    split.
    - exists ps. split; [|auto]. clear Nd Cm Pf Etr E. induction V as [|e c tr0 ps' Ve _ IHv]; constructor.
      + pose proof Ve as (z & Lz & Az & Lo & Be & Hg). exists z. split; [exact Lz|]. split; [apply (place_presents st bl ok f s), Az|]. split.
        * intros Nm j Hj. destruct (Cell _ Lo) as (k2 & sl2 & H2).
          assert (Rl : rootless (w_heap (snd e)) 0) by (exists (mkCell name k2 None sl2); split; [exact H2|discriminate]).
          rewrite (C25_full_path (w_heap (snd e)) 0 c (fst e) _ Rl (Hg Nm 0 [] Hd0) H2 j Hj). reflexivity.
        * destruct z as [cs'|x|v]; [exact I| |exact I]. eapply (Go e c); [left; reflexivity|exact Ve| |exact Lz|exact Az]. eauto.
      + apply IHv; [intros e' c' I'; apply Fr; right; exact I'|intros e' c' I'; apply Go; right; exact I'].
    - subst tr. inversion V as [|? c ? ps' Ve V']; subst. pose proof Ve as (z & Lz & Az & _). cbn [fst snd] in Az.
      assert (c = []) as ->.
      { destruct c as [|n c]; [reflexivity|]. exfalso. destruct (exists_last (l := n :: c) ltac:(discriminate)) as (p & m & Ec).
        apply (Pf [] p m ps'). rewrite Ec. reflexivity. }
      inversion Lz; subst. apply (Go (0, w1) []  (or_introl eq_refl) Ve (PlImage props)); [eauto|constructor|exact Az].
  Qed.
  Lemma lies_used w w1 : lies w -> used st bl f w w1 -> lies w1.
  Proof.
    intros O U. induction U as [|w1 path _ IH|w1 order d tr w2 _ IH Ord E]; [exact O| |].
    - pose proof IH as (B & A & k & sl & H). destruct (unread k) eqn:Un.
      + assert (X : snd (w_at_path_parsed st bl f w1 0 path) = w1); [|rewrite X; exact IH].
        unfold w_at_path_parsed. destruct (split_slash path) as [|c r]; [reflexivity|].
        assert (sl = []) as ->.
        { destruct A as (p & n & R). inversion R as [? ? ? ? ? ? ? ? k' l' Hc T ? ? ? Lk|]; subst. rewrite H in Hc. injection Hc as _ <- _ ->.
          inversion T; subst; [destruct b; [discriminate Un|]|]; rewrite Lk; reflexivity. }
        unfold node_at. rewrite H. reflexivity.
      + assert (Ow : opened_world st bl ok f s name (PlImage props) w1) by (split; [exact B|]; split; [exact A|]; eauto).
        destruct (looked_up st bl ok f F s name _ w1 path Ow) as [(B' & A' & k' & sl' & H' & _) _]. split; [exact B'|]. split; [exact A'|]. eauto.
    - destruct (content_shallow (CImage props)) as (d0 & D).
      destruct (lies_walked w1 order (Nat.max d d0) Ord IH) as (tr' & w' & E' & L & _); [intros c z Lz; eapply Nat.lt_le_trans; [exact (D c z Lz)|lia]|].
      apply locked_free in E'. rewrite (walk_more _ _ _ _ _ _ (Nat.max d d0) _ _ _ _ (Nat.le_max_l d d0) (locked_free _ _ _ _ _ _ _ _ _ _ _ E)) in E'. injection E' as <- <-. exact L.
  Qed.
End image.

Lemma image_opened buf r iv props : bytes buf -> zlen buf < 2 ^ 31 -> laid_image buf (iv_key (aes256 user_key) (region_iv r)) 0 props ->
  iv = None \/ iv = Some (region_iv r) -> image_open (iv_key (aes256 user_key)) buf iv = Ok (region_iv r).
Proof.
  intros Hb Hs L Iv. set (st := iv_key (aes256 user_key)) in *.
  destruct L as (q & e & H1 & H2 & _). destruct buf as [|b buf]; [destruct H1 as ([|] & ? & E & _); discriminate E|].
  assert (b = 115) as -> by (destruct H1 as (a & c & E & La & _); destruct a; [injection E as -> _; reflexivity|unfold zlen in La; cbn [length] in La; lia]).
  destruct (C143_image_opened buf (region_iv r) 115 Hb Hs) as [A B].
  destruct Iv as [->| ->].
  - apply A. split; [reflexivity|]. exists r, q, (enc_str (st (region_iv r)) (codes "Property")). split; [reflexivity|]. split; [apply says_ascii|exact H2].
  - apply B. split; [reflexivity|]. exists q, (enc_str (st (region_iv r)) (codes "Property")). split; [apply says_ascii|exact H2].
Qed.
Lemma image_opens bl name buf r iv props : bytes buf -> zlen buf < 2 ^ 31 -> laid_image buf (iv_key (aes256 user_key) (region_iv r)) 0 props ->
  not_text name -> Forall (fun e => linkless (snd e)) props -> iv = None \/ iv = Some (region_iv r) ->
  exists w0 f0, w_open_img (iv_key (aes256 user_key)) name buf iv = Ok w0 /\ forall f, (f0 <= f)%nat -> (0 < f)%nat /\
    lies (iv_key (aes256 user_key)) bl (of_file buf (iv_key (aes256 user_key) (region_iv r))) f no_shared name props w0.
Proof.
  intros Hb Hs L Nt Li Iv. set (st := iv_key (aes256 user_key)) in *.
  assert (O : image_open st buf iv = Ok (region_iv r)) by (eapply image_opened; eassumption).
  unfold w_open_img. rewrite O. cbn [rmap rbind].
  destruct (image_reads (fresh_reader st buf (region_iv r)) name (zlen buf) 0 props) as (f0 & kids & R); [exact Hs| |exact L|exact Nt|exact Li|].
  { intro j. destruct (region_bytes r). apply iv_key_byte; auto. apply user_key_cipher. }
  eexists _, (Nat.max f0 1). split; [reflexivity|]. intros f Hf. split; [lia|]. split; [|split].
  - intros j c. unfold World.fresh, nowhere. cbn [fst w_heap w_next]. unfold Node.put. destruct (Z.eqb_spec j 0) as [->|_]; [intros _; reflexivity|discriminate].
  - exists None, name. eapply rc_image with (k := KImage false) (l := []); [reflexivity|cbn; constructor|split; [reflexivity|intro; reflexivity]|cbn; lia|apply R; lia|reflexivity].
  - eexists _, _. reflexivity.
Qed.

(** C242: an image file opened with its key, or with none given, and read, is looked up like a package of that one image. *)
Theorem C242_image_file : forall bl name buf r iv props,
  bytes buf -> zlen buf < 2 ^ 31 -> laid_image buf (iv_key (aes256 user_key) (region_iv r)) 0 props ->
  not_text name -> Forall (fun e => linkless (snd e)) props -> iv = None \/ iv = Some (region_iv r) ->
  exists w0 f0, w_open_img (iv_key (aes256 user_key)) name buf iv = Ok w0 /\ forall f, (f0 <= f)%nat -> exists w,
    w_parse (iv_key (aes256 user_key)) bl f w0 0 0 = (Ok tt, w) /\
    serves (iv_key (aes256 user_key)) bl f w (of_file buf (iv_key (aes256 user_key) (region_iv r))) name (PlImage props) /\
    steady (iv_key (aes256 user_key)) bl f w.
Proof.
  intros bl name buf r iv props Hb Hs L Nt Li Iv. destruct (image_opens bl name buf r iv props Hb Hs L Nt Li Iv) as (w0 & f0 & O & P).
  exists w0, f0. split; [exact O|]. intros f Hf. destruct (P f Hf) as [F W]. destruct (lies_read _ _ _ f F _ _ _ _ W) as (w & E & Ow). exists w. split; [exact E|].
  split; [eapply world_serves; eassumption|eapply world_steady; eassumption].
Qed.
Print Assumptions C242_image_file.

(** C243: at any time a forced walk goes through all of it; in the end the image is let go, and reading it again makes the lookups work again. *)
Theorem C243_image_file_again : forall bl name buf r iv props,
  bytes buf -> zlen buf < 2 ^ 31 -> laid_image buf (iv_key (aes256 user_key) (region_iv r)) 0 props ->
  not_text name -> Forall (fun e => linkless (snd e)) props -> iv = None \/ iv = Some (region_iv r) ->
  exists w0 f0, w_open_img (iv_key (aes256 user_key)) name buf iv = Ok w0 /\ forall f, (f0 <= f)%nat ->
    tours (iv_key (aes256 user_key)) bl f w0 (of_file buf (iv_key (aes256 user_key) (region_iv r))) name (PlImage props) /\
    forall w1, used (iv_key (aes256 user_key)) bl f w0 w1 -> exists w,
      w_parse (iv_key (aes256 user_key)) bl f w1 0 0 = (Ok tt, w) /\
      serves (iv_key (aes256 user_key)) bl f w (of_file buf (iv_key (aes256 user_key) (region_iv r))) name (PlImage props).
Proof.
  intros bl name buf r iv props Hb Hs L Nt Li Iv. destruct (image_opens bl name buf r iv props Hb Hs L Nt Li Iv) as (w0 & f0 & O & P).
  exists w0, f0. split; [exact O|]. intros f Hf. destruct (P f Hf) as [F W]. split.
  - destruct (content_shallow (CImage props)) as (d0 & D). exists d0. intros w1 order d U Ord Hd.
    destruct (lies_walked _ _ _ f F _ _ _ w1 order d Ord (lies_used _ _ _ f F _ _ _ _ _ W U)) as (tr & w2 & E & _ & T & _);
      [intros c z Lz; eapply Nat.lt_le_trans; [exact (D c z Lz)|lia]|]. exists tr, w2. split; [exact E|exact T].
  - intros w1 U. destruct (lies_read _ _ _ f F _ _ _ w1 (lies_used _ _ _ f F _ _ _ _ _ W U)) as (w & E & Ow). exists w. split; [exact E|].
    eapply world_serves; eassumption.
Qed.
Print Assumptions C243_image_file_again.

(** An image file of the Global region. *)
Definition img_global : list Z := Eval vm_compute in ser_image (key_of Global) small_props.
Lemma img_laid : laid_image img_global (key_of Global) 0 small_props.
Proof. apply (serialised_image _ _ _ (zlen img_global)); [vm_compute; reflexivity|exact small_good|exists [], []; repeat split; vm_compute; reflexivity]. Qed.
Definition img_open : world := match w_open_img (iv_key (aes256 user_key)) (codes "j.img") img_global None with Ok w => w | _ => nowhere [] end.
Example C242_example :
  (bytes img_global /\ laid_image img_global (key_of Global) 0 small_props /\ not_text (codes "j.img") /\ Forall (fun e => linkless (snd e)) small_props) /\
  leads (PlImage small_props) [codes "s"; codes "v"] (PlProp (PVec 3 (-4))) /\
  match w_open_img (iv_key (aes256 user_key)) (codes "j.img") img_global None with Ok _ => True | _ => False end /\
  (let st := iv_key (aes256 user_key) in
   let '(u, w) := w_parse st chacha_block 20 img_open 0 0 in
   let '(x, w1) := w_at_path_parsed st chacha_block 20 w 0 (codes "s/v") in
   u = Ok tt /\
   match x with
   | Ok i => prop_at w1 i = Some (OVector 3 (-4)) /\ get_full_path 9 (w_heap w1) i = Ok (codes "j.img/s/v") /\
             fst (w_at_path_parsed st chacha_block 20 w1 0 (codes "s/y")) = Err ENotFound
   | _ => False
   end).
Proof.
  split; [split; [byte_list|]; split; [|split; [apply (not_text_img (codes "j"))|repeat constructor]]|split; [|split; [vm_compute; exact I|vm_compute; repeat split]]].
  - exact img_laid.
  - eapply leads_on; [constructor; exists [(codes "a", PInt 300)], [(codes "a", PShort 7)]; split; [reflexivity|intros [E|[]]; discriminate E]|].
    eapply leads_on; [econstructor; [constructor|exists [(codes "x", PStr (codes "hi"))], []; split; [reflexivity|intros []]]|constructor].
Qed.
(** Opened, walked without having been read, looked up (in vain), read again, looked up. *)
Example C243_example :
  let st := iv_key (aes256 user_key) in
  let x := w_walk st chacha_block 20 (fun l => l) 9 true img_open 0 in
  let w2 := snd (w_at_path_parsed st chacha_block 20 (snd x) 0 (codes "a")) in
  let '(u, w3) := w_parse st chacha_block 20 w2 0 0 in
  let '(y, w4) := w_at_path_parsed st chacha_block 20 w3 0 (codes "a") in
  seen x = [codes "j.img"; codes "j.img/a"; codes "j.img/s"; codes "j.img/s/x"; codes "j.img/s/v"] /\ u = Ok tt /\
  match y with Ok i => prop_at w4 i = Some (OShort 7) | _ => False end.
Proof. vm_compute. repeat split. Qed.

(** C244: without reading it again nothing is found after a forced walk, unlike in a package. *)
Theorem C244_image_file_walked_refuted : exists buf path,
  bytes buf /\ laid_image buf (key_of Global) 0 small_props /\
  match w_open_img (iv_key (aes256 user_key)) (codes "j.img") buf None with
  | Ok w0 =>
    let st := iv_key (aes256 user_key) in
    let '(u, w) := w_parse st chacha_block 20 w0 0 0 in
    let '(x, w1) := w_at_path_parsed st chacha_block 20 w 0 path in
    let '(y, w2) := w_walk st chacha_block 20 (fun l => l) 9 true w1 0 in
    u = Ok tt /\ match x with Ok _ => True | _ => False end /\ match y with Ok _ => True | _ => False end /\
    fst (w_at_path_parsed st chacha_block 20 w2 0 path) = Err ENotFound
  | _ => False
  end.
Proof.
  exists img_global, (codes "s/v"). split; [byte_list|]. split; [exact img_laid|]. vm_compute. repeat split.
Qed.
Print Assumptions C244_image_file_walked_refuted.
