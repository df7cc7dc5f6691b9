(** Lemmas on packages that are read as they are asked for. *)
From Coq Require Import ZArith List Bool Lia Arith ZifyBool ZifyNat.
From Verif.Model Require Import Base Utf Keys Reader Header Offset VersionPkg2 Directory Image Media Guess File Node Ms World.
From Verif.Spec Require Import Wire StrWire Version PropWire PropView DirWire DirView PathSpec Tree Whole.
From Verif.Proofs Require Import BaseL AtL ImageL NodeL UolL JsonPropL.
From Verif.Props Require Import P_Image.
From Verif.Proofs Require JsonStoredL Pkg1L.
From Coq Require String Ascii.
Import ListNotations. Import String.StringSyntax.
Open Scope Z_scope.

(** * Slots filled one after the other *)
Definition filled (l : list (text * id)) : list (text * id) := fold_left (fun s e => slot_insert s (fst e) (snd e)) l [].

Lemma insert_get s n j m : slot_get (slot_insert s n j) m = if text_eqb n m then Some j else slot_get s m.
Proof.
  induction s as [|[k x] s IH]; [reflexivity|]. cbn [slot_insert slot_get]. destruct (text_eqb k n) eqn:E; cbn [slot_get].
  - apply text_eqb_eq in E. subst. destruct (text_eqb n m); reflexivity.
  - rewrite IH. destruct (text_eqb k m) eqn:F; [|reflexivity]. destruct (text_eqb n m) eqn:G; [|reflexivity].
    apply text_eqb_eq in F, G. subst. rewrite text_eqb_refl in E. discriminate.
Qed.
Lemma fill_get l : forall s m, slot_get (fold_left (fun s e => slot_insert s (fst e) (snd e)) l s) m
  = match slot_get (rev l) m with Some j => Some j | None => slot_get s m end.
Proof.
  assert (A : forall a b m, slot_get (a ++ b) m = match slot_get a m with Some j => Some j | None => slot_get b m end).
  { intros a b m. induction a as [|[k x] a IH]; [reflexivity|]. cbn [app slot_get]. destruct (text_eqb k m); [reflexivity|exact IH]. }
  induction l as [|[k x] l IH]; intros s m; [reflexivity|]. cbn [fold_left rev fst snd]. rewrite IH, insert_get, A.
  destruct (slot_get (rev l) m); [reflexivity|]. cbn [slot_get]. destruct (text_eqb k m); reflexivity.
Qed.
Lemma filled_get l m : slot_get (filled l) m = slot_get (rev l) m.
Proof. unfold filled. rewrite fill_get. destruct (slot_get (rev l) m); reflexivity. Qed.
Lemma filled_nodup l : NoDup (map fst (filled l)).
Proof.
  unfold filled. assert (G : forall s, NoDup (map fst s) -> NoDup (map fst (fold_left (fun s e => slot_insert s (fst e) (snd e)) l s))).
  { induction l as [|[k x] l IH]; intros s H; [exact H|]. cbn [fold_left]. apply IH, insert_nodup, H. }
  apply G. constructor.
Qed.
Lemma filled_none l m : ~ In m (map fst l) -> slot_get (filled l) m = None.
Proof. intro H. rewrite filled_get. apply get_none. rewrite map_rev, <- in_rev. exact H. Qed.
Lemma filled_last {A} (P : text -> A -> id -> Prop) kids l :
  Forall2 (fun e d => fst e = fst d /\ P (fst e) (snd e) (snd d)) kids l ->
  forall name x, last_named kids name x -> exists j, slot_get (filled l) name = Some j /\ P name x j.
Proof.
  intros F name x (pre & post & -> & N). apply Forall2_app_inv_l in F as (l1 & l2 & F1 & F2 & ->).
  inversion F2 as [|? d ? l3 [E D] F3]; subst. cbn [fst snd] in *. destruct d as [k j]. cbn [fst snd] in *. subst k.
  exists j. split; [|exact D]. rewrite filled_get, rev_app_distr. cbn [rev].
  assert (M : map fst l3 = map fst post). { clear - F3. induction F3 as [|a b ? ? [E0 _] _ IH]; [reflexivity|]. cbn [map]. f_equal; [symmetry; exact E0|exact IH]. }
  assert (R : slot_get (rev l3) name = None) by (apply get_none; rewrite map_rev, <- in_rev, M; exact N).
  rewrite <- app_assoc. revert R. generalize (rev l3). intros q R. induction q as [|[k y] q IH].
  - cbn [app slot_get]. rewrite text_eqb_refl. reflexivity.
  - cbn [app slot_get] in R |- *. destruct (text_eqb k name); [discriminate|]. apply IH, R.
Qed.

(** * Planting *)
Definition done (d : dir) : Prop := di_size d = 0 \/ (di_status d = Verified /\ di_entries d = []).

(** Nothing that was there has changed. *)
Definition keeps (w w' : world) : Prop :=
  w_next w <= w_next w' /\ forall j, j < w_next w -> w_heap w' j = w_heap w j /\ w_thing w' j = w_thing w j.
Lemma keeps_refl w : keeps w w.
Proof. split; [lia|]. auto. Qed.
Lemma keeps_trans a b c : keeps a b -> keeps b c -> keeps a c.
Proof.
  intros [N1 K1] [N2 K2]. split; [lia|]. intros j J. destruct (K1 j J) as [A B]. destruct (K2 j ltac:(lia)) as [C D].
  split; [rewrite C; exact A|rewrite D; exact B].
Qed.
(** Every node has an address that has been handed out. *)
Definition bounded (w : world) : Prop := forall j c, w_heap w j = Some c -> j < w_next w.

Lemma fresh_ok w name t p w' i : fresh w name t p = (w', i) ->
  i = w_next w /\ w_next w' = i + 1 /\ keeps w w' /\ w_heap w' i = Some (mkCell name (kind_of t) p []) /\ w_thing w' i = t /\ (bounded w -> bounded w').
Proof.
  unfold fresh. intros [= <- <-]. cbn [w_heap w_thing w_next]. split; [reflexivity|]. split; [reflexivity|]. split; [|split; [|split]].
  - split; cbn [w_heap w_thing w_next]; [lia|]. intros j J. unfold put. replace (j =? w_next w) with false by lia. auto.
  - unfold put. rewrite Z.eqb_refl. reflexivity.
  - rewrite Z.eqb_refl. reflexivity.
  - intros B j c. cbn [w_heap w_next]. unfold put. destruct (j =? w_next w) eqn:E; [lia|]. intro H. apply B in H. lia.
Qed.

Lemma fill_ok w i l name k p s : w_heap w i = Some (mkCell name k p s) ->
  w_heap (fill w i l) i = Some (mkCell name k p (fold_left (fun s e => slot_insert s (fst e) (snd e)) l s)) /\
  (forall j, j <> i -> w_heap (fill w i l) j = w_heap w j) /\
  w_thing (fill w i l) = w_thing w /\ w_next (fill w i l) = w_next w.
Proof.
  unfold fill. cbn [w_heap w_thing w_next]. generalize (w_heap w). intros h H. split; [|split; [|split; reflexivity]].
  - revert h s H. induction l as [|[n x] l IH]; intros h s H; [exact H|]. cbn [fold_left fst snd]. apply IH.
    unfold insert_child. rewrite H. unfold put. rewrite Z.eqb_refl. reflexivity.
  - intros j J. clear H. revert h. induction l as [|[n x] l IH]; intro h; [reflexivity|]. cbn [fold_left fst snd]. rewrite IH.
    unfold insert_child. destruct (h i); [|reflexivity]. unfold put. replace (j =? i) with false by lia. reflexivity.
Qed.

Section reps.
  Variable f : nat.
  Variable stream : list Z -> nat -> Z.
  Variable block : list Z -> list Z -> Z -> list Z.
  (** The readers that images may have. *)
  Variable ok : rd -> Prop.

  (** The image a node stands for: itself, or what is hidden in an archive. *)
  Inductive src : kind -> thing -> rd -> text -> Z -> Z -> Prop :=
  | src_image b r nm off size : src (KImage b) (ThImage r nm off size) r nm off size
  | src_ms buf e x : to_wz_image block buf e = Ok x -> src KMsImage (ThMsImage buf e) (own_reader stream x) (me_name e) 0 (wrap 64 (me_size e)).
  Lemma src_fun k t r nm off size k' r' nm' off' size' : src k t r nm off size -> src k' t r' nm' off' size' -> r = r' /\ nm = nm' /\ off = off' /\ size = size'.
  Proof. intros A B. inversion A; subst; inversion B; subst; auto. replace x0 with x by congruence. auto. Qed.
  Lemma src_kind k t r nm off size : src k t r nm off size -> match k with KImage _ | KMsImage => True | _ => False end.
  Proof. intros []; exact I. Qed.

  (** Node [i], called [name] and below [p], is the planted tree [n]. *)
  Inductive rp (w : world) (r : rd) : node -> id -> id -> text -> Prop :=
  | rp_node o kids i p name l : w_heap w i = Some (mkCell name (kind_of (ThProp r o)) (Some p) (filled l)) ->
      w_thing w i = ThProp r o -> i < w_next w -> rpl w r i kids l -> rp w r (Node o kids) i p name
  with rpl (w : world) (r : rd) : id -> list (text * node) -> list (text * id) -> Prop :=
  | rpl_nil i : rpl w r i [] []
  | rpl_cons i name n j kids l : rp w r n j i name -> rpl w r i kids l -> rpl w r i ((name, n) :: kids) ((name, j) :: l).
  Scheme rp_mut1 := Minimality for rp Sort Prop
    with rp_mut2 := Minimality for rpl Sort Prop.
  Combined Scheme rp_mut from rp_mut1, rp_mut2.

  (** The image at this place can be read and shows these properties. *)
  Definition readable (r : rd) (name : text) (off size : Z) (props : list (list Z * prop)) (kids : list (text * node)) : Prop :=
    Forall (fun e => linkless (snd e)) props /\ shows_kids r kids props /\ exists us, image_children f r name off size = Ok (kids, us).

  (** Node [i], called [name] and below [p], holds the content. *)
  Inductive rc (w : world) (s : shared) : content -> id -> option id -> text -> Prop :=
  | rc_image props kids i p name r off size k l : w_heap w i = Some (mkCell name k p (filled l)) ->
      src k (w_thing w i) r name off size -> ok r -> i < w_next w -> readable r name off size props kids ->
      match k with KImage true => rpl w r i kids l | _ => l = [] end -> rc w s (CImage props) i p name
  | rc_dir d b kids i p name l : w_heap w i = Some (mkCell name (KDir b) p (filled l)) ->
      w_thing w i = ThDir s d -> i < w_next w -> done d -> rcl w s i kids l -> rc w s (CDir kids) i p name
  with rcl (w : world) (s : shared) : id -> list (text * content) -> list (text * id) -> Prop :=
  | rcl_nil i : rcl w s i [] []
  | rcl_cons i name n j kids l : rc w s n j (Some i) name -> rcl w s i kids l -> rcl w s i ((name, n) :: kids) ((name, j) :: l).
  Scheme rc_mut1 := Minimality for rc Sort Prop
    with rc_mut2 := Minimality for rcl Sort Prop.
  Combined Scheme rc_mut from rc_mut1, rc_mut2.

  (** Nothing but reading of directories and images has happened. *)
  Definition ext (w w' : world) : Prop :=
    w_next w <= w_next w' /\ forall j, j < w_next w ->
      (w_heap w' j = w_heap w j /\ w_thing w' j = w_thing w j) \/
      (exists n p sl, w_heap w j = Some (mkCell n (KDir false) p sl) /\ w_heap w' j = Some (mkCell n (KDir true) p sl) /\ w_thing w' j = w_thing w j) \/
      (exists n k p r nm off size kids us l, w_heap w j = Some (mkCell n k p []) /\ unread k = true /\ src k (w_thing w j) r nm off size /\
         image_children f r nm off size = Ok (kids, us) /\ w_heap w' j = Some (mkCell n (KImage true) p (filled l)) /\
         w_thing w' j = ThImage r nm off size /\ rpl w' r j kids l).
  Lemma keeps_ext w w' : keeps w w' -> ext w w'.
  Proof. intros [N K]. split; [exact N|]. intros j J. destruct (K j J) as [A B]. auto. Qed.

  Lemma ext_rps w w' r : ext w w' -> (forall n i p name, rp w r n i p name -> rp w' r n i p name) /\
    (forall i kids l, rpl w r i kids l -> rpl w' r i kids l).
  Proof.
    intros [N X]. apply rp_mut.
    - intros o kids i p name l H T I _ IH. destruct (X i I) as [[E T']|[(n & q & sl & E & _)|(n & k & q & r' & nm & off & size & ks & us & l' & E & _ & Sr & _)]].
      + econstructor; [rewrite E; exact H|rewrite T'; exact T|lia|exact IH].
      + rewrite H in E. exfalso. destruct o; discriminate E.
      + rewrite T in Sr. inversion Sr.
    - intros. constructor.
    - intros. constructor; assumption.
  Qed.
  Lemma ext_rcs w w' s : ext w w' -> (forall c i p name, rc w s c i p name -> rc w' s c i p name) /\
    (forall i kids l, rcl w s i kids l -> rcl w' s i kids l).
  Proof.
    intro X. pose proof (fun r => proj2 (ext_rps w w' r X)) as P. destruct X as [N X]. apply rc_mut.
    - intros props kids i p name r off size k l H T O I R L.
      destruct (X i I) as [[E T']|[(n & q & sl & E & _)|(n & k' & q & r' & nm & off' & size' & ks & us & l' & E & _ & T2 & D & E' & T' & L')]].
      + eapply rc_image with (k := k) (l := l); [rewrite E; exact H|rewrite T'; exact T|exact O|lia|exact R|]. destruct k as [| |[]| | | |]; try exact L; apply P, L.
      + rewrite H in E. injection E as -> -> _ _. apply src_kind in T. contradiction.
      + rewrite H in E. injection E as -> -> <- EL. destruct (src_fun _ _ _ _ _ _ _ _ _ _ _ T T2) as (<- & <- & <- & <-).
        eapply rc_image with (k := KImage true) (l := l'); [exact E'|rewrite T'; constructor|exact O|lia|exact R|].
        destruct R as (_ & _ & us' & R). rewrite R in D. injection D as <- _. exact L'.
    - intros d b kids i p name l H T I D _ IH.
      destruct (X i I) as [[E T']|[(n & q & sl & E & E' & T')|(n & k' & q & r' & nm & off' & size' & ks & us & l' & E & _ & T2 & _)]].
      + eapply rc_dir; [rewrite E; exact H|rewrite T'; exact T|lia|exact D|exact IH].
      + rewrite H in E. injection E as <- -> <- <-. eapply rc_dir; [exact E'|rewrite T'; exact T|lia|exact D|exact IH].
      + rewrite T in T2. inversion T2.
    - intros. constructor.
    - intros. constructor; assumption.
  Qed.
  Lemma ext_refl w : ext w w.
  Proof. apply keeps_ext, keeps_refl. Qed.
  Lemma ext_trans a b c : ext a b -> ext b c -> ext a c.
  Proof.
    intros X Y. pose proof (ext_rps b c) as P. destruct X as [N1 X]. pose proof Y as [N2 Y0]. split; [lia|]. intros j J.
    pose proof (X j J) as H. pose proof (Y0 j ltac:(lia)) as H'.
    destruct H as [[E T]|[(n & q & sl & E & E' & T)|(n & k & q & r & nm & off & size & ks & us & l & E & U & Th & D & E' & T & L)]].
    - rewrite E, T in H'. exact H'.
    - destruct H' as [[F T']|[(m & q' & sl' & F & F' & T')|(m & k & q' & r & nm & off & size & ks & us & l & F & U & _)]].
      + right. left. exists n, q, sl. split; [exact E|]. rewrite F. split; [exact E'|congruence].
      + rewrite F in E'. discriminate E'.
      + rewrite F in E'. injection E' as -> -> -> ->. discriminate U.
    - destruct H' as [[F T']|[(m & q' & sl' & F & F' & T')|(m & k' & q' & r' & nm' & off' & size' & ks' & us' & l' & F & U' & _)]].
      + right. right. exists n, k, q, r, nm, off, size, ks, us, l. split; [exact E|]. split; [exact U|]. split; [exact Th|]. split; [exact D|].
        split; [rewrite F; exact E'|]. split; [congruence|]. apply (P r Y), L.
      + rewrite F in E'. discriminate E'.
      + rewrite F in E'. injection E' as -> -> -> EL. discriminate U'.
  Qed.

  (** ** Planting properties *)
  Fixpoint node_ind' (P : node -> Prop) (H : forall o kids, Forall (fun e => P (snd e)) kids -> P (Node o kids)) (n : node) : P n :=
    match n with
    | Node o kids => H o kids ((fix go l : Forall (fun e => P (snd e)) l :=
        match l with [] => Forall_nil _ | (k, m) :: r => Forall_cons (k, m) (node_ind' P H m) (go r) end) kids)
    end.
  Fixpoint dnode_ind' (P : dnode -> Prop) (Hi : forall a b, P (NImage a b)) (He : P NEmpty)
      (H : forall d kids, Forall (fun e => P (snd e)) kids -> P (NDir d kids)) (n : dnode) : P n :=
    match n with
    | NImage a b => Hi a b
    | NEmpty => He
    | NDir d kids => H d kids ((fix go l : Forall (fun e => P (snd e)) l :=
        match l with [] => Forall_nil _ | (k, m) :: r => Forall_cons (k, m) (dnode_ind' P Hi He H m) (go r) end) kids)
    end.

  (** No UOL anywhere. *)
  Inductive no_uol : node -> Prop :=
  | no_uol_node o kids : (forall m, o <> OUol m) -> Forall (fun e => no_uol (snd e)) kids -> no_uol (Node o kids).

  (** [w''] has everything that was planted between [w] and [w']. *)
  Definition has (w w' w'' : world) : Prop :=
    w_next w' <= w_next w'' /\ forall j, w_next w <= j < w_next w' -> w_heap w'' j = w_heap w' j /\ w_thing w'' j = w_thing w' j.
  Lemma has_self w w' : has w w' w'.
  Proof. split; [lia|]. auto. Qed.

  Definition plants {A} (R : world -> A -> id -> text -> Prop) (U : A -> Prop) (w : world) (name : text) (n : A) (x : world * id * list id) : Prop :=
    let '(w', i, us) := x in
    keeps w w' /\ w_next w <= i < w_next w' /\ (forall w'', has w w' w'' -> R w'' n i name) /\ (bounded w -> bounded w') /\ (U n -> us = []).

  Lemma plant_list_cons {A} g w (k : text) (n : A) r : plant_list g w ((k, n) :: r)
    = let '(w1, i, us) := g w k n in let '(w2, l', us') := plant_list g w1 r in (w2, (k, i) :: l', us ++ us').
  Proof. reflexivity. Qed.
  Lemma plant_list_ok {A} (R : world -> A -> id -> text -> Prop) (U : A -> Prop) g kids :
    Forall (fun e => forall w, plants R U w (fst e) (snd e) (g w (fst e) (snd e))) kids ->
    forall w w' l us, plant_list g w kids = (w', l, us) ->
      keeps w w' /\ (forall w'', has w w' w'' -> Forall2 (fun e d => fst e = fst d /\ R w'' (snd e) (snd d) (fst e)) kids l) /\
      (bounded w -> bounded w') /\ (Forall (fun e => U (snd e)) kids -> us = []).
  Proof.
    induction kids as [|[k m] kids IHl]; intros Fa w w' l us.
    - cbn. intros [= <- <- <-]. split; [apply keeps_refl|]. split; [constructor|]. auto.
    - cbn [plant_list]. inversion_clear Fa as [|? ? Hm Hr]. cbn [fst snd] in Hm. specialize (Hm w).
      destruct (g w k m) as [[w3 i3] u3] eqn:E3. destruct Hm as (K3 & I3 & R3 & B3 & U3).
      fold (plant_list g w3 kids). destruct (plant_list g w3 kids) as [[w4 l4] u4] eqn:E4.
      apply IHl in E4 as (K4 & R4 & B4 & U4); [|exact Hr]. intros [= <- <- <-].
      destruct K3 as [N3 K3]. pose proof K4 as [N4 K4'].
      split; [eapply keeps_trans; [split|]; eassumption|]. split; [|split; [auto|]].
      + intros w'' [N H]. constructor.
        * split; [reflexivity|]. cbn [fst snd]. apply R3. split; [lia|]. intros j J.
          destruct (H j ltac:(lia)) as [-> ->]. apply K4'. lia.
        * apply R4. split; [lia|]. intros j J. apply H. lia.
      + intro Fa. inversion_clear Fa as [|? ? A0 B0]. cbn [snd] in A0. rewrite (U3 A0), (U4 B0). reflexivity.
  Qed.

  Lemma rpl_f2 w r i kids l : Forall2 (fun e d => fst e = fst d /\ rp w r (snd e) (snd d) i (fst e)) kids l <-> rpl w r i kids l.
  Proof.
    split.
    - induction 1 as [|[k n] [k' j] kids l [E H] _ IH]; [constructor|]. cbn [fst snd] in *. subst k'. constructor; assumption.
    - induction 1; constructor; auto.
  Qed.
  Lemma rcl_f2 w s i kids l : Forall2 (fun e d => fst e = fst d /\ rc w s (snd e) (snd d) (Some i) (fst e)) kids l <-> rcl w s i kids l.
  Proof.
    split.
    - induction 1 as [|[k n] [k' j] kids l [E H] _ IH]; [constructor|]. cbn [fst snd] in *. subst k'. constructor; assumption.
    - induction 1; constructor; auto.
  Qed.

  (** A new node, what is planted below it, and its slots. *)
  Lemma plant_step {A} (R : world -> A -> id -> text -> Prop) (U : A -> Prop) g kids w name t p w1 i w2 l us :
    fresh w name t (Some p) = (w1, i) -> plant_list g w1 kids = (w2, l, us) ->
    Forall (fun e => forall w, plants R U w (fst e) (snd e) (g w (fst e) (snd e))) kids ->
    keeps w (fill w2 i l) /\ w_next w <= i < w_next (fill w2 i l) /\
    (forall w'', has w (fill w2 i l) w'' -> i < w_next w'' /\ w_heap w'' i = Some (mkCell name (kind_of t) (Some p) (filled l)) /\ w_thing w'' i = t /\
      Forall2 (fun e d => fst e = fst d /\ R w'' (snd e) (snd d) (fst e)) kids l) /\
    (bounded w -> bounded (fill w2 i l)) /\ (Forall (fun e => U (snd e)) kids -> us = []).
  Proof.
    intros F E2 Fa. apply fresh_ok in F as (-> & N1 & K1 & C1 & T1 & B1).
    set (i1 := w_next w) in *. apply (plant_list_ok R U _ _ Fa) in E2 as (K2 & R2 & B2 & U2).
    destruct K2 as [N2 K2]. destruct (K2 i1 ltac:(lia)) as [C2 T2]. rewrite C1 in C2. rewrite T1 in T2.
    destruct (fill_ok w2 i1 l _ _ _ _ C2) as (Fi & Fo & Ft & Fn). destruct K1 as [_ K1].
    split; [|split; [lia|split; [|split]]].
    - split; [rewrite Fn; lia|]. intros j J. rewrite Ft, Fo by lia. destruct (K2 j ltac:(lia)) as [A0 B0]. rewrite A0, B0. apply K1, J.
    - intros w'' [N H]. destruct (H i1 ltac:(lia)) as [Hi Ti]. split; [lia|]. split; [rewrite Hi; exact Fi|]. split; [rewrite Ti, Ft; exact T2|].
      apply R2. split; [lia|]. intros j J. destruct (H j ltac:(lia)) as [-> ->]. rewrite Ft, Fo by lia. auto.
    - intros B j c H. rewrite Fn. destruct (Z.eq_dec j i1) as [->|J]; [lia|]. rewrite Fo in H by exact J. apply (B2 (B1 B)) in H. exact H.
    - exact U2.
  Qed.

  Lemma plant_ok r n : forall p w name, plants (fun w n i name => rp w r n i p name) no_uol w name n (plant r p w name n).
  Proof.
    induction n as [o kids IH] using node_ind'. intros p w name. cbn [plant].
    destruct (fresh w name (ThProp r o) (Some p)) as [w1 i] eqn:F.
    destruct (plant_list (plant r i) w1 kids) as [[w2 l] us] eqn:E.
    destruct (plant_step (fun w n j name => rp w r n j i name) no_uol _ _ _ _ _ _ _ _ _ _ _ F E) as (K & I & R & B & U).
    { revert IH. apply Forall_impl. intros e H w0. apply H. }
    split; [exact K|]. split; [exact I|]. split; [|split; [exact B|]].
    - intros w'' H. apply R in H as (N & C & T & L). econstructor; try eassumption. apply rpl_f2, L.
    - intro Nu. inversion_clear Nu as [? ? Ho Hk]. rewrite (U Hk). destruct o; try reflexivity. destruct (Ho m eq_refl).
  Qed.

  (** A directory tree whose images can all be read holds the content. *)
  Inductive dc (s : shared) : text -> dnode -> content -> Prop :=
  | dc_image name off size props kids : ok (sh_rd s) -> readable (sh_rd s) name off size props kids -> dc s name (NImage off size) (CImage props)
  | dc_dir name d kids cs : done d -> dcl s kids cs -> dc s name (NDir d kids) (CDir cs)
  with dcl (s : shared) : list (text * dnode) -> list (text * content) -> Prop :=
  | dcl_nil : dcl s [] []
  | dcl_cons name n c kids cs : dc s name n c -> dcl s kids cs -> dcl s ((name, n) :: kids) ((name, c) :: cs).

  (** For planting, nodes and contents go in pairs. *)
  Lemma plant_dir_ok s n : forall c p w name, dc s name n c -> plants (fun w c i name => rc w s c i (Some p) name) (fun _ => True) w name c (plant_dir s p w name n).
  Proof.
    induction n as [off size| |d kids IH] using dnode_ind'; intros c p w name D; inversion D as [? ? ? props kids0 Od Rd|? ? ? cs Dd Dl]; subst; cbn [plant_dir].
    - unfold plants. destruct (fresh w name _ (Some p)) as [w1 i] eqn:F. apply fresh_ok in F as (-> & N1 & K1 & C1 & T1 & B1).
      split; [exact K1|]. split; [lia|]. split; [|split; [exact B1|reflexivity]]. intros w'' [N H].
      destruct (H (w_next w) ltac:(lia)) as [Hi Ti]. eapply rc_image with (k := KImage false) (l := []); [rewrite Hi; exact C1|rewrite Ti, T1; constructor|exact Od|lia|exact Rd|reflexivity].
    - destruct (fresh w name (ThDir s d) (Some p)) as [w1 i] eqn:F.
      destruct (plant_list (plant_dir s i) w1 kids) as [[w2 l] us] eqn:E.
      (* the same list with the contents in place of the nodes *)
      assert (Z : exists zs : list (text * (dnode * content)), map (fun e => (fst e, fst (snd e))) zs = kids /\ map (fun e => (fst e, snd (snd e))) zs = cs /\
                 Forall (fun e => dc s (fst e) (fst (snd e)) (snd (snd e))) zs).
      { clear - Dl. induction Dl as [|name n c kids cs D _ (zs & <- & <- & Fa)]; [exists []; repeat split; constructor|].
        exists ((name, (n, c)) :: zs). cbn [map fst snd]. repeat split. constructor; assumption. }
      destruct Z as (zs & <- & <- & Fa).
      assert (E' : plant_list (fun w name (x : dnode * content) => plant_dir s i w name (fst x)) w1 zs = (w2, l, us)).
      { rewrite <- E. clear. revert w1. induction zs as [|[k [n c]] zs IH]; intro w; [reflexivity|]. cbn [map fst snd]. rewrite !plant_list_cons. cbn [fst snd].
        destruct (plant_dir s i w k n) as [[w3 i3] u3]. rewrite (IH w3). reflexivity. }
      destruct (plant_step (fun w x j name => rc w s (snd x) j (Some i) name) (fun _ => True) _ _ _ _ _ _ _ _ _ _ _ F E') as (K & I & R & B & U).
      { clear - IH Fa. induction zs as [|[k [n c]] zs IHz]; [constructor|]. cbn [map fst snd] in IH.
        inversion_clear IH as [|? ? IHn IHr]. inversion_clear Fa as [|? ? Dn Fr]. constructor; [|auto]. cbn [fst snd] in *.
        intro w. specialize (IHn c i w k Dn). exact IHn. }
      split; [exact K|]. split; [exact I|]. split; [|split; [exact B|]].
      + intros w'' H. apply R in H as (N & C & T & L). eapply rc_dir with (b := false); try eassumption. apply rcl_f2. clear - L.
        induction L as [|[k [n c]] d zs l [E H] _ IH]; cbn [map fst snd] in *; constructor; auto.
      + intros _. apply U. apply Forall_forall. auto.
  Qed.

  (** * Reading what is asked for *)
  Lemma shown_linkless r : (forall n v, shows r n v -> linkless v -> no_uol n) /\
    (forall kids ps, shows_kids r kids ps -> Forall (fun e => linkless (snd e)) ps -> Forall (fun e => no_uol (snd e)) kids) /\
    (forall i kids ps, shows_items r i kids ps -> Forall linkless ps -> Forall (fun e => no_uol (snd e)) kids).
  Proof.
    assert (FK : forall ps : list (list Z * prop), fold_right (fun e P => linkless (snd e) /\ P) True ps -> Forall (fun e => linkless (snd e)) ps).
    { induction ps as [|e ps IH]; [constructor|]. intros [A B]. constructor; auto. }
    assert (FI : forall ps, fold_right (fun e P => linkless e /\ P) True ps -> Forall linkless ps).
    { induction ps as [|e ps IH]; [constructor|]. intros [A B]. constructor; auto. }
    apply shows_mut; intros; cbn [linkless] in *; try (constructor; [discriminate|constructor]); try contradiction.
    all: try (constructor; [discriminate|]; auto).
    - constructor.
    - inversion_clear H3. constructor; auto.
    - constructor.
    - inversion_clear H4. constructor; auto.
  Qed.

  Lemma items_below r : forall vs i ks ps, shows_items r i ks vs -> numbered i vs ps -> shows_kids r ks ps.
  Proof.
    induction vs as [|v vs IH]; intros i ks ps S N.
    - inversion N; subst. inversion S; subst. constructor.
    - inversion N as [|? ds' ? ? l' D' N']; subst. inversion S as [|? ds ? ? ks' ? D Sv S']; subst.
      rewrite (JsonStoredL.decimal_fun _ _ _ D D'). constructor; [exact Sv|]. eapply IH; eassumption.
  Qed.
  Lemma shown_below r n v ps : shows r n v -> below v ps -> shows_kids r (nd_kids n) ps.
  Proof.
    intros S B. inversion B; subst; inversion S; subst; try contradiction; cbn [nd_kids]; try assumption; try constructor.
    eapply items_below; eassumption.
  Qed.

  Variable s : shared.

  (** A file that has been read. *)
  Definition top (k : kind) : Prop := k = KFile true \/ k = KMsFile true.
  (** Node [i] is this place. *)
  Definition at_place (w : world) (i : id) (pl : place) : Prop :=
    match pl with
    | PlDir cs => exists name k p l, w_heap w i = Some (mkCell name k p (filled l)) /\ i < w_next w /\
        (top k \/ exists b d, k = KDir b /\ w_thing w i = ThDir s d /\ done d) /\ rcl w s i cs l
    | PlImage props => exists p name, rc w s (CImage props) i p name
    | PlProp v => exists r n p name, ok r /\ rp w r n i p name /\ shows r n v
    end.
  Lemma rc_place w c i p name : rc w s c i p name -> at_place w i (place_of c).
  Proof.
    intro H. destruct c as [props|cs]; cbn [place_of at_place]; [eauto|]. inversion H; subst.
    exists name, (KDir b), p, l. split; [assumption|]. split; [assumption|]. split; [right; eauto|assumption].
  Qed.
  Lemma top_read k : top k -> unread k = false /\ (forall b, k <> KDir b) /\ forall t r nm off size, ~ src k t r nm off size.
  Proof. intros [->| ->]; (split; [reflexivity|]; split; [discriminate|]; intros t r nm off size H; inversion H). Qed.
  Lemma ext_place w w' i pl : ext w w' -> at_place w i pl -> at_place w' i pl.
  Proof.
    intro X. pose proof (ext_rcs w w' s X) as [C L]. pose proof (fun r => proj1 (ext_rps w w' r X)) as P.
    destruct pl as [cs|props|v]; cbn [at_place].
    - intros (name & k & p & l & H & I & K & R). destruct X as [N X].
      destruct (X i I) as [[E T']|[(n & q & sl & E & E' & T')|(n & k' & q & r' & nm & off' & size' & ks & us & l' & E & _ & Sr & _)]].
      + exists name, k, p, l. rewrite E, T'. split; [exact H|]. split; [lia|]. split; [exact K|apply L, R].
      + rewrite H in E. injection E as <- -> <- <-. destruct K as [K|(b & d & K & T & D)]; [destruct K; discriminate|].
        exists name, (KDir true), p, l. rewrite T'. split; [exact E'|]. split; [lia|]. split; [right; eauto|apply L, R].
      + rewrite H in E. injection E as <- -> <- _. exfalso. destruct K as [K|(b & d & K & T & D)]; [eapply (proj2 (proj2 (top_read _ K))), Sr|]. rewrite T in Sr. inversion Sr.
    - intros (p & name & R). exists p, name. apply C, R.
    - intros (r & n & p & name & O & R & S). exists r, n, p, name. split; [exact O|]. split; [apply P, R|exact S].
  Qed.

  (** The node has been read: its slots are those of the place. *)
  Definition shows_inside (w : world) (i : id) (pl : place) : Prop :=
    (forall name q, inside pl name q -> exists j, node_at (w_heap w) i name = Some j /\ at_place w j q /\
       slot (w_heap w) i name j /\ child_of (w_heap w) name j i) /\
    (forall name, nothing pl name -> node_at (w_heap w) i name = None).

  Lemma rp_child w r n j i name c : rp w r n j i name -> w_heap w i = Some c -> child_of (w_heap w) name j i.
  Proof. intros H C. inversion H; subst. split; [eexists; split; [eassumption|split; reflexivity]|eauto]. Qed.
  Lemma rc_child w x j i name c : rc w s x j (Some i) name -> w_heap w i = Some c -> child_of (w_heap w) name j i.
  Proof. intros H C. inversion H; subst; (split; [eexists; split; [eassumption|split; reflexivity]|eauto]). Qed.

  Lemma filled_slot w i name k p l n j : w_heap w i = Some (mkCell name k p (filled l)) -> slot_get (filled l) n = Some j ->
    node_at (w_heap w) i n = Some j /\ slot (w_heap w) i n j.
  Proof.
    intros H G. split; [unfold node_at; rewrite H; exact G|]. eexists. split; [exact H|]. split; [apply filled_nodup|]. apply get_in, G.
  Qed.

  Lemma dir_inside w i name k p l cs : w_heap w i = Some (mkCell name k p (filled l)) -> rcl w s i cs l -> shows_inside w i (PlDir cs).
  Proof.
    intros H R. apply rcl_f2 in R. split.
    - intros n q I. inversion I as [? ? c L| |]; subst.
      destruct (filled_last (fun n c j => rc w s c j (Some i) n) cs l R n c L) as (j & G & Rj). exists j.
      destruct (filled_slot _ _ _ _ _ _ _ _ H G) as [A B]. split; [exact A|]. split; [eapply rc_place, Rj|]. split; [exact B|]. eapply rc_child; eassumption.
    - intros n N. inversion N as [? ? NI| |]; subst. unfold node_at. rewrite H. cbn [nd_slots]. apply filled_none. intro M. apply NI. revert M. clear - R.
      induction R as [|a b ? ? [E _] _ IH]; [contradiction|]. cbn [map In]. intros [A|A]; [left|right; auto]. rewrite <- A. exact E.
  Qed.

  Lemma props_inside w i name k p l r kids ps : ok r -> w_heap w i = Some (mkCell name k p (filled l)) -> rpl w r i kids l -> shows_kids r kids ps ->
    (forall n v, last_named ps n v -> exists j, node_at (w_heap w) i n = Some j /\ at_place w j (PlProp v) /\ slot (w_heap w) i n j /\ child_of (w_heap w) n j i) /\
    (forall n, ~ In n (map fst ps) -> node_at (w_heap w) i n = None).
  Proof.
    intros O H R S.
    assert (F : Forall2 (fun e d => fst e = fst d /\ (fun n v j => exists m, rp w r m j i n /\ shows r m v) (fst e) (snd e) (snd d)) ps l).
    { clear H. revert l R. induction S as [|n m v kids ps Sm _ IH]; intros l R; inversion R; subst; constructor; cbn [fst snd]; eauto. }
    split.
    - intros n v L. destruct (filled_last _ ps l F n v L) as (j & G & m & Rm & Sm). exists j.
      destruct (filled_slot _ _ _ _ _ _ _ _ H G) as [A B]. split; [exact A|]. split; [exists r, m, i, n; auto|]. split; [exact B|]. eapply rp_child; eassumption.
    - intros n N. unfold node_at. rewrite H. cbn [nd_slots]. apply filled_none. intro M. apply N. revert M. clear - F.
      induction F as [|a b ? ? [E _] _ IH]; [contradiction|]. cbn [map In]. intros [A|A]; [left|right; auto]. rewrite <- A. exact E.
  Qed.

  Lemma place_read w i pl : at_place w i pl -> (forall props, pl = PlImage props -> exists n p sl, w_heap w i = Some (mkCell n (KImage true) p sl)) ->
    shows_inside w i pl.
  Proof.
    destruct pl as [cs|props|v]; cbn [at_place].
    - intros (name & k & p & l & H & I & K & R) _. eapply dir_inside; eassumption.
    - intros (p & name & R) Rd. destruct (Rd props eq_refl) as (n & p' & sl & E). inversion R as [? kids ? ? ? r off size k l H T O I Re L|]; subst.
      rewrite H in E. injection E as <- -> <- <-. destruct Re as (_ & S & _).
      destruct (props_inside _ _ _ _ _ _ _ _ _ O H L S) as [A B]. split.
      + intros n q In_. inversion In_; subst. auto.
      + intros n N. inversion N; subst. auto.
    - intros (r & n & p & name & O & R & S) _. inversion R as [o kids ? ? ? l H T I L]; subst. split.
      + intros m q In_. inversion In_ as [| |? ps ? u B La]; subst. pose proof (shown_below _ _ _ _ S B) as SK. cbn [nd_kids] in SK.
        destruct (props_inside _ _ _ _ _ _ _ _ _ O H L SK) as [A _]. auto.
      + intros m N. inversion N as [| |? ps ? B NI]; subst. pose proof (shown_below _ _ _ _ S B) as SK. cbn [nd_kids] in SK.
        destruct (props_inside _ _ _ _ _ _ _ _ _ O H L SK) as [_ A]. auto.
  Qed.

  Lemma done_children d : done d -> (0 < f)%nat -> resolve_children (sh_rd s) (sh_hd s) (sh_p2 s) (sh_scheme s) (sh_hash s) f d = (Ok [], d).
  Proof.
    intros D F. destruct f as [|k]; [lia|]. cbn [resolve_children]. destruct (di_size d =? 0) eqn:E; [reflexivity|].
    destruct D as [D|[D1 D2]]; [lia|]. unfold prepare. rewrite D1. cbv iota. rewrite D2. cbn. destruct d; cbn in *; subst. reflexivity.
  Qed.

  (** Planting what an image holds. *)
  Lemma image_read w w0 i name k p r off size props kids us0 : bounded w -> w_heap w i = Some (mkCell name k p []) -> i < w_next w -> unread k = true ->
    src k (w_thing w i) r name off size -> Forall (fun e => linkless (snd e)) props -> shows_kids r kids props -> image_children f r name off size = Ok (kids, us0) ->
    w_heap w0 = w_heap w -> w_next w0 = w_next w -> w_thing w0 i = ThImage r name off size -> (forall j, j <> i -> w_thing w0 j = w_thing w j) ->
    exists w1 l, plant_list (plant r i) w0 kids = (w1, l, []) /\ w_heap w1 i = w_heap w i /\
      let w' := mkWorld (put (w_heap w1) i (mkCell name (KImage true) p (filled l))) (w_thing w1) (w_next w1) (w_cache w1) in
      ext w w' /\ bounded w' /\ forall j, j < w_next w -> j <> i -> w_heap w' j = w_heap w j.
  Proof.
    intros B H I U T Li S Im H0 N0 T0 A0.
    assert (B0 : bounded w0) by (intros j c; rewrite H0, N0; apply B).
    destruct (plant_list (plant r i) w0 kids) as [[w1 l] us] eqn:E.
    destruct (plant_list_ok (fun w n j name => rp w r n j i name) no_uol (plant r i) kids ltac:(apply Forall_forall; intros e _ w2; apply plant_ok) _ _ _ _ E) as (K & R' & B' & Us).
    rewrite Us by (eapply (proj1 (proj2 (shown_linkless r))); eassumption).
    pose proof K as [N K0]. destruct (K0 i ltac:(lia)) as [Hi Ti]. exists w1, l. split; [reflexivity|]. split; [rewrite Hi, H0; reflexivity|]. intro w'.
    assert (Lw : rpl w' r i kids l).
    { apply rpl_f2, R'. split; cbn [w' w_next w_heap w_thing]; [lia|]. intros j J. split; [|reflexivity]. unfold put. replace (j =? i) with false by lia. reflexivity. }
    split; [|split].
    - split; cbn [w' w_next w_thing w_heap]; [lia|]. intros j J. destruct (K0 j ltac:(lia)) as [Hj Tj].
      unfold put. destruct (j =? i) eqn:E'; [|left; split; [rewrite Hj, H0; reflexivity|rewrite Tj; apply A0; lia]]. apply Z.eqb_eq in E'. subst j. right. right.
      exists name, k, p, r, name, off, size, kids, us0, l. split; [exact H|]. split; [exact U|]. split; [exact T|]. split; [exact Im|]. split; [reflexivity|]. split; [congruence|exact Lw].
    - intros j c. cbn [w' w_heap w_next]. unfold put. destruct (j =? i) eqn:E'; [lia|]. apply B', B0.
    - intros j J Ne. cbn [w' w_heap]. unfold put. replace (j =? i) with false by lia. rewrite <- H0. apply K0. lia.
  Qed.

  Lemma parse_place w i pl : (0 < f)%nat -> bounded w -> at_place w i pl ->
    exists w', w_parse stream block f w i i = (Ok tt, w') /\ ext w w' /\ bounded w' /\ at_place w' i pl /\ shows_inside w' i pl /\
      (forall j, j < w_next w -> j <> i -> w_heap w' j = w_heap w j) /\
      (forall props, pl = PlImage props -> exists n p sl, w_heap w' i = Some (mkCell n (KImage true) p sl)).
  Proof.
    intros F B A.
    assert (Same : forall c, w_heap w i = Some c -> unread (nd_kind c) = false -> (forall props, pl = PlImage props -> exists n p sl, w_heap w i = Some (mkCell n (KImage true) p sl)) ->
      exists w', w_parse stream block f w i i = (Ok tt, w') /\ ext w w' /\ bounded w' /\ at_place w' i pl /\ shows_inside w' i pl /\
      (forall j, j < w_next w -> j <> i -> w_heap w' j = w_heap w j) /\
      (forall props, pl = PlImage props -> exists n p sl, w_heap w' i = Some (mkCell n (KImage true) p sl))).
    { intros c C U R. exists w. split; [unfold w_parse; rewrite C, U; reflexivity|]. split; [apply ext_refl|]. split; [exact B|]. split; [exact A|]. split; [apply place_read; assumption|]. split; [intros; reflexivity|exact R]. }
    destruct pl as [cs|props|v]; cbn [at_place] in A.
    - destruct A as (name & k & p & l & H & I & K & R). destruct K as [K|(b & d & -> & T & D)]; [eapply Same; [exact H|apply (top_read _ K)|discriminate]|].
      destruct b; [eapply Same; [exact H|reflexivity|discriminate]|].
      unfold w_parse. rewrite H. cbn [unread nd_kind negb]. unfold w_load. rewrite T, (done_children d D F).
      cbn [plant_list]. unfold parse. rewrite H. cbn [nd_kind]. unfold parse_as. cbn [set_thing w_heap w_thing w_next w_cache]. rewrite H. cbn [fold_left nd_name nd_parent nd_slots].
      eexists. split; [reflexivity|].
      match goal with |- ext w ?W /\ _ => assert (X : ext w W) end.
      { split; cbn [w_next w_thing w_heap]; [lia|]. intros j J. unfold put. destruct (j =? i) eqn:E; [|left; split; reflexivity].
        apply Z.eqb_eq in E. subst j. right. left. exists name, p, (filled l). auto. }
      split; [exact X|]. split; [|].
      + intros j c. cbn [w_heap w_next]. unfold put. destruct (j =? i) eqn:E; [lia|]. apply B.
      + match goal with |- at_place ?W _ _ /\ _ => assert (P : at_place W i (PlDir cs)) end.
        { eapply ext_place; [exact X|]. exists name, (KDir false), p, l. split; [exact H|]. split; [exact I|]. split; [right; eauto|exact R]. }
        split; [exact P|]. split; [apply place_read; [exact P|discriminate]|]. split; [|discriminate]. intros j J Ne. cbn [w_heap]. unfold put. replace (j =? i) with false by lia. reflexivity.
    - destruct A as (p & name & R). inversion R as [? kids ? ? ? r off size k l H T O I Re L|]; subst.
      assert (Fin : forall w0, w_heap w0 = w_heap w -> w_next w0 = w_next w -> w_thing w0 i = ThImage r name off size -> (forall j, j <> i -> w_thing w0 j = w_thing w j) ->
        unread k = true -> exists w1 l, plant_list (plant r i) w0 kids = (w1, l, []) /\ w_heap w1 i = w_heap w i /\
          let w' := mkWorld (put (w_heap w1) i (mkCell name (KImage true) p (filled l))) (w_thing w1) (w_next w1) (w_cache w1) in
          ext w w' /\ bounded w' /\ at_place w' i (PlImage props) /\ shows_inside w' i (PlImage props) /\
          (forall j, j < w_next w -> j <> i -> w_heap w' j = w_heap w j) /\
          (forall props', PlImage props = PlImage props' -> exists n p sl, w_heap w' i = Some (mkCell n (KImage true) p sl))).
      { intros w0 H0 N0 T0 A0 U. pose proof Re as (Li & S & us0 & Im). assert (l = []) as -> by (destruct k as [| |[]| | | |]; try exact L; discriminate U).
        destruct (image_read w w0 i name k p r off size props kids us0 B H I U T Li S Im H0 N0 T0 A0) as (w1 & l1 & E & Hi & X & B1 & Al).
        exists w1, l1. split; [exact E|]. split; [exact Hi|]. intro w'. split; [exact X|]. split; [exact B1|].
        assert (P : at_place w' i (PlImage props)) by (eapply ext_place; [exact X|]; exists p, name; exact R).
        assert (Rd : forall props', PlImage props = PlImage props' -> exists n p sl, w_heap w' i = Some (mkCell n (KImage true) p sl)).
        { intros _ _. cbn [w' w_heap]. unfold put. rewrite Z.eqb_refl. eauto. }
        split; [exact P|]. split; [apply place_read; assumption|]. split; [exact Al|exact Rd]. }
      pose proof T as Sr. inversion Sr as [b ? ? ? ? Ek Et|buf e x Tx Ek Et]; subst.
      + destruct b; [eapply Same; [exact H|reflexivity|intros; eauto]|]. pose proof Re as (_ & _ & us0 & Im).
        destruct (Fin w eq_refl eq_refl (eq_sym Et) (fun _ _ => eq_refl) eq_refl) as (w1 & l1 & E & Hi & C).
        unfold w_parse. rewrite H. cbn [unread nd_kind negb]. unfold w_load. rewrite <- Et, Im, E.
        unfold parse. rewrite H. cbn [nd_kind]. unfold parse_as. rewrite Hi, H. cbn [fold_left nd_name nd_parent nd_slots].
        subst l. change (fold_left (fun l0 e => slot_insert l0 (fst e) (snd e)) l1 (filled [])) with (filled l1).
        eexists. split; [reflexivity|exact C].
      + pose proof Re as (_ & _ & us0 & Im).
        destruct (Fin (set_thing w i (ThImage (own_reader stream x) (me_name e) 0 (wrap 64 (me_size e)))) eq_refl eq_refl) as (w1 & l1 & E & Hi & C);
          [cbn; rewrite Z.eqb_refl; reflexivity|intros j J; cbn; replace (j =? i) with false by lia; reflexivity|reflexivity|].
        unfold w_parse. rewrite H. cbn [unread nd_kind negb]. unfold w_load. rewrite <- Et, Tx. cbn [rbind]. rewrite Im. unfold rmap; cbn [rbind fst]. rewrite E.
        unfold parse. rewrite H. cbn [nd_kind]. unfold parse_as. rewrite Hi, H. cbn [fold_left nd_name nd_parent nd_slots].
        subst l. change (fold_left (fun l0 e => slot_insert l0 (fst e) (snd e)) l1 (filled [])) with (filled l1).
        eexists. split; [reflexivity|exact C].
    - destruct A as (r & n & p & name & O & R & S). inversion R as [o kids ? ? ? l H T I L]; subst.
      eapply Same; [exact H|destruct o; reflexivity|discriminate].
  Qed.

  Lemma hangs_ext w w' root : bounded w -> ext w w' -> forall q i, hangs (w_heap w) root q i -> hangs (w_heap w') root q i.
  Proof.
    intros B [N X].
    assert (Al : forall i c, w_heap w i = Some c -> exists c', w_heap w' i = Some c' /\ nd_name c' = nd_name c /\ nd_parent c' = nd_parent c /\
                 (forall n j, NoDup (map fst (nd_slots c)) -> In (n, j) (nd_slots c) -> NoDup (map fst (nd_slots c')) /\ In (n, j) (nd_slots c'))).
    { intros i c C. destruct (X i (B i c C)) as [[E _]|[(m & q & sl & E & E' & _)|(m & k & q & r' & nm & off' & size' & ks & us & l' & E & _ & _ & _ & E' & _)]].
      - exists c. rewrite E. auto.
      - rewrite C in E. injection E as ->. eexists. split; [exact E'|]. auto.
      - rewrite C in E. injection E as ->. eexists. split; [exact E'|]. split; [reflexivity|]. split; [reflexivity|]. intros n j _ []. }
    induction 1 as [c C|q n i j _ IH Nn [(c & C & Cn & Cp) (cj & Cj)] (c2 & C2 & D & In_)].
    - destruct (Al _ _ C) as (c' & C' & _). exact (hangs_top _ _ c' C').
    - destruct (Al _ _ C) as (c' & C' & C'n & C'p & _). destruct (Al _ _ C2) as (c2' & C2' & _ & _ & Sl).
      destruct (Sl n i D In_) as [D' In']. econstructor; [exact IH|exact Nn| |].
      + split; [exists c'; split; [exact C'|split; congruence]|eauto].
      + exists c2'. auto.
  Qed.

  Lemma walk : (0 < f)%nat -> forall comps w i pl, bounded w -> at_place w i pl ->
    (forall z, leads pl comps z -> exists j w', w_fold stream block f w i comps = (Ok j, w') /\ ext w w' /\ bounded w' /\ at_place w' j z /\
       (Forall name_ok comps -> forall root q, hangs (w_heap w) root q i -> hangs (w_heap w') root (q ++ comps) j)) /\
    (fails pl comps -> exists w', w_fold stream block f w i comps = (Err ENotFound, w') /\ ext w w' /\ bounded w').
  Proof.
    intro F. induction comps as [|c comps IH]; intros w i pl B A.
    - split.
      + intros z L. inversion L; subst. exists i, w. split; [reflexivity|]. split; [apply ext_refl|]. split; [exact B|]. split; [exact A|].
        intros _ root q H. rewrite app_nil_r. exact H.
      + intro Fa. inversion Fa.
    - destruct (parse_place w i pl F B A) as (w1 & P & X & B1 & A1 & [In1 No1] & _ & _). cbn [w_fold]. rewrite P. split.
      + intros z L. inversion L as [|? ? q ? ? I L']; subst. destruct (In1 c q I) as (j & G & Aj & Sl & Ch). rewrite G.
        destruct (IH w1 j q B1 Aj) as [IHl _]. destruct (IHl z L') as (j' & w' & E & X' & B' & A' & Hg).
        exists j', w'. split; [exact E|]. split; [eapply ext_trans; eassumption|]. split; [exact B'|]. split; [exact A'|].
        intros Nm root q0 H. inversion_clear Nm as [|? ? N1 N2]. replace (q0 ++ c :: comps) with ((q0 ++ [c]) ++ comps) by (rewrite <- app_assoc; reflexivity).
        apply Hg; [exact N2|]. eapply hangs_child; [apply (hangs_ext w w1 root B X), H|exact N1|exact Ch|exact Sl].
      + intro Fa. inversion Fa as [? ? ? No|? ? q ? I Fa']; subst.
        * rewrite (No1 c No). exists w1. auto.
        * destruct (In1 c q I) as (j & G & Aj & _). rewrite G. destruct (IH w1 j q B1 Aj) as [_ IHf]. destruct (IHf Fa') as (w' & E & X' & B').
          exists w'. split; [exact E|]. split; [eapply ext_trans; eassumption|exact B'].
  Qed.
End reps.

(** * What a file leaves behind *)
Inductive settled_tree : dnode -> Prop :=
| settled_image off size : settled_tree (NImage off size)
| settled_empty : settled_tree NEmpty
| settled_dir d kids : done d -> Forall (fun e => settled_tree (snd e)) kids -> settled_tree (NDir d kids).
Definition settled_trees (l : list (text * dnode)) : Prop := Forall (fun e => settled_tree (snd e)) l.

Lemma entry_bare r h v hash es : forall l, entry_nodes r h v hash es = Ok l ->
  Forall (fun e => match snd e with NDir _ kids => kids = [] | _ => True end) l.
Proof.
  induction es as [|e es IH]; intro l; cbn [entry_nodes]; [intros [= <-]; constructor|].
  destruct (entry_node r h v hash e) as [[nm n]| | |] eqn:E; try discriminate. cbn [rbind].
  destruct (entry_nodes r h v hash es) as [t| | |]; try discriminate. intros [= <-]. constructor; [|apply IH; reflexivity].
  unfold entry_node in E. destruct (get_string r (en_name e)); try discriminate E. injection E as _ <-. cbn [snd]. destruct (en_type e); reflexivity || exact I.
Qed.
Lemma descend_settled g : (forall d sub d', g d = (Ok sub, d') -> settled_trees sub /\ done d') ->
  forall l l', Forall (fun e : text * dnode => match snd e with NDir _ kids => kids = [] | _ => True end) l -> descend g l = Ok l' -> settled_trees l'.
Proof.
  intros G. induction l as [|[nm n] l IH]; intros l' Fa; cbn [descend]; [intros [= <-]; constructor|].
  inversion_clear Fa as [|? ? Fn Fr]. cbn [snd] in Fn. destruct n as [off size|d kids|].
  - destruct (descend g l) as [t| | |] eqn:E; try discriminate. intros [= <-]. constructor; [constructor|apply IH; auto].
  - destruct (g d) as [[sub| | |] d'] eqn:Gd; try discriminate. destruct (descend g l) as [t| | |] eqn:E; try discriminate. intros [= <-].
    apply G in Gd as [S D]. constructor; [|apply IH; auto]. cbn [snd]. subst kids. constructor; assumption.
  - destruct (descend g l) as [t| | |] eqn:E; try discriminate. intros [= <-]. constructor; [constructor|apply IH; auto].
Qed.
Lemma resolve_settled r h p2 v hash : forall k d l d', resolve_children r h p2 v hash k d = (Ok l, d') -> settled_trees l /\ done d'.
Proof.
  induction k as [|k IH]; intros d l d'; cbn [resolve_children]; [discriminate|].
  destruct (di_size d =? 0) eqn:Z0; [intros [= <- <-]; split; [constructor|left; lia]|].
  destruct (prepare r h p2 v hash (S k) d) as [[u| | |] d1]; try discriminate.
  destruct (verify_all r h v hash (di_entries d1)); [|discriminate].
  destruct (entry_nodes r h v hash (di_entries d1)) as [es| | |] eqn:E; try discriminate. cbn [rbind].
  destruct (descend (resolve_children r h p2 v hash k) es) as [t| | |] eqn:Ds; try discriminate. intros [= <- <-].
  split; [|right; split; reflexivity]. eapply descend_settled; [|eapply entry_bare, E|exact Ds]. exact IH.
Qed.
Lemma decode_settled r h p2 v hash k b d l d' : try_decode r h p2 v hash k b d = (Ok l, d') -> settled_trees l.
Proof.
  unfold try_decode. destruct (_ || _); [discriminate|]. destruct (resolve_children r h p2 v hash k d) as [[t| | |] d1] eqn:E; try discriminate.
  apply resolve_settled in E as [S _]. match goal with |- context [if ?b then _ else _] => destruct b end; [|discriminate]. destruct b; [discriminate|]. intros [= <- _]. exact S.
Qed.
Lemma versions_settled r h p2 k ne cands : forall d x, try_versions r h p2 k ne cands d = Ok x -> settled_trees (snd x).
Proof.
  induction cands as [|[ver hash] t IH]; intros d x; cbn [try_versions]; [discriminate|].
  destruct (try_decode r h p2 OPkg1 hash k (ne && (ver =? 113)) d) as [[l|e| |] d'] eqn:E; try discriminate; [|apply IH].
  intros [= <-]. eapply decode_settled, E.
Qed.
Lemma pairs_settled st buf h k verified ps : forall s x s', try_pairs st buf h k verified ps s = Ok (Some x, s') -> settled_trees (snd (fst x)).
Proof.
  induction ps as [|[p hash] t IH]; intros [ky d] x s'; cbn [try_pairs]; [discriminate|].
  destruct (try_profile st buf h k verified p hash (ky, if prof_64 p then reset_dir d else d)) as [[l|e| |] [k' d']] eqn:E; try discriminate.
  - intros [= <- _]. cbn [fst snd]. unfold try_profile in E.
    assert (G : forall k0 d0, (let (x, d1) := try_decode (reader_of st buf k0) h (is_pkg2 k0) (prof_offset p) hash k false d0 in (x, (k0, d1))) = (Ok l, (k', d')) -> settled_trees l).
    { intros k0 d0. destruct (try_decode (reader_of st buf k0) h (is_pkg2 k0) (prof_offset p) hash k false d0) as [y d1] eqn:D. intros [= -> _ _]. eapply decode_settled, D. }
    destruct verified; [eapply G, E|]. destruct (prepare _ _ _ _ _ _ _) as [[u| | |] d1]; try discriminate E.
    destruct (verify_string _ d1); [eapply G, E|discriminate E].
  - apply IH.
Qed.
Lemma file_settled st k buf iv existing patch0 patch cache x : parse_file st k buf iv existing patch0 patch cache = Ok x -> settled_trees (pf_kids x).
Proof.
  unfold parse_file. destruct (open_file st buf iv existing) as [[verified ky]| | |]; try discriminate. cbn [rbind].
  destruct (header_of buf) as [h| | |]; try discriminate. cbn [rbind]. destruct (hd_ident h).
  - destruct (parse_pkg1 _ _ _ _ _ _) as [[[v hash] l]| | |] eqn:E; try discriminate. intros [= <-]. cbn [pf_kids]. unfold parse_pkg1 in E.
    destruct (_ =? -1); [apply versions_settled in E; exact E|].
    destruct (try_decode _ _ _ _ _ _ _ _) as [[t| | |] d'] eqn:D; try discriminate E. injection E as _ _ <-. eapply decode_settled, D.
  - destruct (parse_pkg2 _ _ _ _ _ _ _ _) as [[[[[p hash] l] k'] c]| | |] eqn:E; try discriminate. intros [= <-]. cbn [pf_kids]. unfold parse_pkg2 in E.
    match type of E with match ?a with _ => _ end = _ => destruct a as [[u| | |] d]; try discriminate E end.
    destruct (try_pairs st buf h k verified (cached h cache) (ky, d)) as [[[y|] s]| | |] eqn:P; try discriminate E; cbn [rbind] in E.
    + injection E as -> <-. apply pairs_settled in P. exact P.
    + destruct (try_pairs st buf h k verified (candidates h) s) as [[[y|] s']| | |] eqn:P2; try discriminate E; cbn [rbind] in E.
      injection E as -> <-. apply pairs_settled in P2. exact P2.
  - discriminate.
Qed.

(** An image block that is laid out can be read. *)
Lemma image_shows r name size off props : zlen (rd_buf r) < 2 ^ 31 -> (forall j, byte (rd_ks r j)) ->
  laid_image (rd_buf r) (rd_ks r) off props -> not_text name ->
  exists f0 kids, forall f, (f0 <= f)%nat -> shows_kids r kids props /\ exists us, image_children f r name off size = Ok (kids, us).
Proof.
  intros Hs Hk (q & e & H1 & H2 & L) Hn. destruct (laid_all r off Hs Hk) as (_ & _ & _ & _ & LL).
  destruct (LL _ _ _ L) as (f0 & kids' & us & A & B). exists f0, kids'. intros f Hf. split; [exact B|]. exists us.
  unfold image_children. destruct (at_u8 r Hs _ _ 0x73 ltac:(lia) H1) as [E _]. step E.
  assert (NT : ends_with name (txt ".txt") = false).
  { unfold ends_with. change (length (txt ".txt")) with 4%nat.
    destruct (Z.of_nat 4 <=? zlen name) eqn:Z4; [|reflexivity]. cbn [andb].
    destruct (text_eqb _ _) eqn:T; [|reflexivity]. apply text_eqb_eq in T. exfalso.
    apply (Hn (firstn (length name - 4) name)). change (codes ".txt") with (txt ".txt"). rewrite <- T.
    symmetry. apply firstn_skipn. }
  rewrite NT. change (0x73 =? 0x01) with false. change (0x73 =? 0x23) with false. change (0x73 =? 0x73) with true. cbv iota.
  assert (Q : q + 2 <= zlen (rd_buf r)).
  { inversion L as [? a ? ? [_ Li0] _]; subst. apply at_range in Li0 as (P1 & P2 & P3). pose proof (zlen_nonneg (enc_wzint 4 (Z.of_nat (length props)))). lia. }
  pose proof (image_head_ok r EWrongVersion _ _ Hs Hk H2 Q) as Hd. step Hd. rewrite (A f Hf). reflexivity.
Qed.
Lemma image_reads r name size off props : zlen (rd_buf r) < 2 ^ 31 -> (forall j, byte (rd_ks r j)) ->
  laid_image (rd_buf r) (rd_ks r) off props -> not_text name -> Forall (fun e => linkless (snd e)) props ->
  exists f0 kids, forall f, (f0 <= f)%nat -> readable f r name off size props kids.
Proof. intros Hs Hk L Hn Li. destruct (image_shows r name size off props Hs Hk L Hn) as (f0 & kids & H). exists f0, kids. intros f Hf. split; [exact Li|]. apply H, Hf. Qed.

Lemma filled_reads (ok : rd -> Prop) s ts cs : ok (sh_rd s) -> zlen (rd_buf (sh_rd s)) < 2 ^ 31 -> (forall j, byte (rd_ks (sh_rd s) j)) ->
  filled_with (rd_buf (sh_rd s)) (rd_ks (sh_rd s)) ts cs ->
  exists f0, forall f, (f0 <= f)%nat -> forall kids, shows_trees kids ts -> settled_trees kids -> dcl f ok s kids cs.
Proof.
  intros Ok_ Hs Hk. induction 1 as [|name off size props ts cs Nt L Li _ (f1 & IH)|name off size sub subc ts cs _ (f1 & IH1) _ (f2 & IH2)].
  - exists 0%nat. intros f _ kids S _. inversion S. constructor.
  - destruct (image_reads (sh_rd s) name size off props Hs Hk L Nt Li) as (f0 & ks & R). exists (Nat.max f0 f1).
    intros f Hf kids S St. inversion S as [|? n ? kids' ? Sn Sk]; subst. inversion_clear St as [|? ? St1 St2]. inversion Sn; subst.
    constructor; [|apply IH; [lia|exact Sk|exact St2]]. econstructor; [exact Ok_|]. apply R. lia.
  - exists (Nat.max f1 f2). intros f Hf kids S St. inversion S as [|? n ? kids' ? Sn Sk]; subst. inversion_clear St as [|? ? St1 St2]. inversion Sn; subst.
    cbn [snd] in St1. inversion_clear St1 as [| |? ? Dd Ds]. constructor; [|apply IH2; [lia|exact Sk|exact St2]]. constructor; [exact Dd|]. apply IH1; [lia|assumption|exact Ds].
Qed.

Lemma plant_dirs_ok f st bl ok s i kids cs : dcl f ok s kids cs -> forall w w' l us, plant_list (plant_dir s i) w kids = (w', l, us) ->
  keeps w w' /\ (forall w'', has w w' w'' -> rcl f st bl ok w'' s i cs l) /\ (bounded w -> bounded w').
Proof.
  induction 1 as [|name n c kids cs D _ IH]; intros w w' l us.
  - intros [= <- <- <-]. split; [apply keeps_refl|]. split; [constructor|auto].
  - rewrite plant_list_cons. pose proof (plant_dir_ok f st bl ok s n c i w name D) as P.
    destruct (plant_dir s i w name n) as [[w3 i3] u3]. destruct P as (K3 & I3 & R3 & B3 & _).
    destruct (plant_list (plant_dir s i) w3 kids) as [[w4 l4] u4] eqn:E4. destruct (IH _ _ _ _ E4) as (K4 & R4 & B4).
    intros [= <- <- <-]. pose proof K3 as [N3 K3']. pose proof K4 as [N4 K4'].
    split; [eapply keeps_trans; eassumption|]. split; [|auto].
    intros w'' [N H]. constructor.
    + apply R3. split; [lia|]. intros j J. destruct (H j ltac:(lia)) as [-> ->]. apply K4'. lia.
    + apply R4. split; [lia|]. intros j J. apply H. lia.
Qed.

(** The file node, once read. *)
Lemma file_read st bl ok f name buf iv existing patch cache h x cs : header_of buf = Ok h ->
  parse_file st f buf iv existing patch None cache = Ok x -> dcl f ok (shared_of st buf h x) (pf_kids x) cs ->
  exists w1 l, w_parse st bl f (w_open name buf iv existing patch cache) 0 0 = (Ok tt, w1) /\ bounded w1 /\
    w_heap w1 0 = Some (mkCell name (KFile true) None (filled l)) /\ 0 < w_next w1 /\ rcl f st bl ok w1 (shared_of st buf h x) 0 cs l.
Proof.
  intros Hh P D. set (s := shared_of st buf h x) in *. unfold w_open, fresh, nowhere. cbn [fst w_next w_heap w_thing w_cache kind_of].
  set (w0 := mkWorld _ _ _ _). assert (B0 : bounded w0).
  { intros j c. subst w0. cbn [w_heap w_next]. unfold put. destruct (j =? 0) eqn:E; [lia|discriminate]. }
  assert (C0 : w_heap w0 0 = Some (mkCell name (KFile false) None [])) by reflexivity.
  unfold w_parse. rewrite C0. cbn [nd_kind unread negb]. unfold w_load. change (w_thing w0 0) with (ThFile buf iv existing patch). cbv iota.
  change (w_cache w0) with cache. rewrite Hh. cbn [rbind]. rewrite P. unfold rmap; cbn [rbind]; cbv iota. fold s.
  destruct (plant_list (plant_dir s 0) (set_cache w0 (pf_cache x)) (pf_kids x)) as [[w1 l] us] eqn:E.
  destruct (plant_dirs_ok f st bl ok s 0 _ _ D _ _ _ _ E) as (K & R & B).
  destruct K as [N K]. change (w_next (set_cache w0 (pf_cache x))) with 1 in *. destruct (K 0 ltac:(lia)) as [H0 _]. change (w_heap (set_cache w0 (pf_cache x)) 0) with (w_heap w0 0) in H0.
  unfold parse. rewrite C0. cbn [nd_kind]. unfold parse_as. rewrite H0, C0. cbn [fold_left nd_name nd_parent nd_slots].
  change (fold_left (fun l0 e => slot_insert l0 (fst e) (snd e)) l []) with (filled l).
  eexists _, l. split; [reflexivity|]. cbn [w_heap w_next]. split; [|split; [|split; [lia|]]].
  - intros j c. cbn [w_heap w_next]. unfold put. destruct (j =? 0) eqn:J; [lia|]. apply B, B0.
  - unfold put. reflexivity.
  - apply R. split; cbn [w_next w_heap w_thing]; [lia|]. change (w_next (set_cache w0 (pf_cache x))) with 1. intros j J. split; [|reflexivity]. unfold put. replace (j =? 0) with false by lia. reflexivity.
Qed.

(** * Any number of lookups *)
Lemma place_total : forall comps pl, (exists z, leads pl comps z) \/ fails pl comps.
Proof.
  assert (Nb : forall vs i, 0 <= i -> exists l, numbered i vs l).
  { induction vs as [|v vs IH]; intros i Hi; [eexists; constructor|]. destruct (Pkg1L.decimal_exists i Hi) as [ds D]. destruct (IH (i + 1) ltac:(lia)) as [l L].
    eexists. econstructor; eassumption. }
  assert (Bl : forall v, exists l, below v l).
  { intros []; try (exists []; constructor; exact I); try (eexists; constructor; fail). destruct (Nb kids 0 ltac:(lia)) as [l L]. exists l. constructor. exact L. }
  assert (La : forall A (l : list (list Z * A)) name, (exists x, last_named l name x) \/ ~ In name (map fst l)).
  { intros A l name. induction l as [|[k x] l IH]; [right; intros []|]. destruct IH as [(y & pre & post & -> & N)|N].
    - left. exists y, ((k, x) :: pre), post. auto.
    - destruct (list_eq_dec Z.eq_dec k name) as [->|D]; [left; exists x, [], l; auto|right]. cbn [map fst In]. tauto. }
  induction comps as [|c comps IH]; intro pl; [left; eexists; constructor|].
  assert (St : (exists q, inside pl c q) \/ nothing pl c).
  { destruct pl as [cs|props|v].
    - destruct (La _ cs c) as [[x L]|N]; [left; eexists; constructor; exact L|right; constructor; exact N].
    - destruct (La _ props c) as [[x L]|N]; [left; eexists; constructor; exact L|right; constructor; exact N].
    - destruct (Bl v) as [l B]. destruct (La _ l c) as [[x L]|N]; [left; eexists; econstructor; eassumption|right; econstructor; eassumption]. }
  destruct St as [[q I]|N]; [|right; constructor; exact N].
  destruct (IH q) as [[z L]|Fa]; [left; eexists; econstructor; eassumption|right; eapply fails_on; eassumption].
Qed.

Section lookups.
  Variable st : list Z -> nat -> Z.
  Variable bl : list Z -> list Z -> Z -> list Z.
  Variable ok : rd -> Prop.
  Variable f : nat.
  Hypothesis F : (0 < f)%nat.
  Variable s : shared.
  Variable name : text.
  Variable pl : place.

  (** The world of an opened file that has been read. *)
  Definition opened_world (w : world) : Prop :=
    bounded w /\ at_place f st bl ok s w 0 pl /\ exists k sl, w_heap w 0 = Some (mkCell name k None sl) /\ unread k = false.
  Lemma opened_ext w w' : opened_world w -> ext f st bl w w' -> bounded w' -> opened_world w'.
  Proof using. clear F.
    intros (B & A & k & sl & H & U) X B'. split; [exact B'|]. split; [eapply ext_place; eassumption|]. exists k, sl. split; [|exact U].
    destruct X as [N' X]. destruct (X 0 (B 0 _ H)) as [[E _]|[(n & q & sl' & E & _)|(n & k' & q & r' & nm & off' & size' & ks & us & l' & E & U' & _)]].
    - rewrite E. exact H.
    - rewrite H in E. injection E as _ -> _ _. discriminate U.
    - rewrite H in E. injection E as _ -> _ _. congruence.
  Qed.
  Lemma opened_fold w path : opened_world w -> w_at_path_parsed st bl f w 0 path = w_fold st bl f w 0 (split_slash path).
  Proof using. clear F.
    intros (B & A & k & sl & H & U). unfold w_at_path_parsed. destruct (split_slash path) as [|c r] eqn:E.
    - exfalso. clear - E. destruct path as [|x p]; cbn [split_slash] in E; [discriminate|]. destruct (x =? 47); [discriminate|]. destruct (split_slash p); discriminate.
    - cbn [w_fold]. unfold w_parse. rewrite H. cbn [nd_kind]. rewrite U. reflexivity.
  Qed.
  Lemma looked_up w path : opened_world w -> opened_world (snd (w_at_path_parsed st bl f w 0 path)) /\ ext f st bl w (snd (w_at_path_parsed st bl f w 0 path)).
  Proof.
    intro O. rewrite (opened_fold w path O). pose proof O as (B & A & _).
    destruct (walk f st bl ok s F (split_slash path) w 0 _ B A) as [L Fa].
    destruct (place_total (split_slash path) pl) as [[z Z]|N].
    - destruct (L z Z) as (j & w' & E & X & B' & _). rewrite E. split; [|exact X]. eapply opened_ext; eassumption.
    - destruct (Fa N) as (w' & E & X & B'). rewrite E. split; [|exact X]. eapply opened_ext; eassumption.
  Qed.
  Lemma opened_root w : opened_world w -> rootless (w_heap w) 0 /\ hangs (w_heap w) 0 [] 0.
  Proof. intros (_ & _ & k & sl & H & _). split; [exists (mkCell name k None sl); split; [exact H|discriminate]|econstructor; exact H]. Qed.
End lookups.

(** An archive, once read. *)
Lemma plant_ms_ok f st bl (ok : rd -> Prop) s buf i es cs :
  Forall2 (fun e c => me_name e = fst c /\ exists x props kids, snd c = CImage props /\ to_wz_image bl buf e = Ok x /\ ok (own_reader st x) /\
     readable f (own_reader st x) (me_name e) 0 (wrap 64 (me_size e)) props kids) es cs ->
  forall w w' l us, plant_list (plant_ms buf i) w (map (fun e => (me_name e, e)) es) = (w', l, us) ->
  keeps w w' /\ (forall w'', has w w' w'' -> rcl f st bl ok w'' s i cs l) /\ (bounded w -> bounded w').
Proof.
  induction 1 as [|e [nm c] es cs (En & x & props & kids & Ec & Tx & Ox & Rx) _ IH]; intros w w' l us; cbn [map].
  - intros [= <- <- <-]. split; [apply keeps_refl|]. split; [constructor|auto].
  - cbn [fst snd] in *. subst nm c. rewrite plant_list_cons. unfold plant_ms at 1. destruct (fresh w (me_name e) (ThMsImage buf e) (Some i)) as [w3 i3] eqn:E3.
    apply fresh_ok in E3 as (-> & N3 & K3 & C3 & T3 & B3).
    destruct (plant_list (plant_ms buf i) w3 (map (fun e => (me_name e, e)) es)) as [[w4 l4] u4] eqn:E4. destruct (IH _ _ _ _ E4) as (K4 & R4 & B4).
    intros [= <- <- <-]. pose proof K3 as [M3 K3']. pose proof K4 as [N4 K4'].
    split; [eapply keeps_trans; eassumption|]. split; [|auto].
    intros w'' [N H]. constructor.
    + destruct (H (w_next w) ltac:(lia)) as [Hh Ht]. destruct (K4' (w_next w) ltac:(lia)) as [Kh Kt].
      eapply rc_image with (k := KMsImage) (l := []); [rewrite Hh, Kh; exact C3|rewrite Ht, Kt, T3; constructor; exact Tx|exact Ox|lia|exact Rx|reflexivity].
    + apply R4. split; [lia|]. intros j J. apply H. lia.
Qed.
Lemma archive_read st bl (ok : rd -> Prop) s f name buf h es cs : ms_parse bl h buf = Ok es ->
  Forall2 (fun e c => me_name e = fst c /\ exists x props kids, snd c = CImage props /\ to_wz_image bl buf e = Ok x /\ ok (own_reader st x) /\
     readable f (own_reader st x) (me_name e) 0 (wrap 64 (me_size e)) props kids) es cs ->
  exists w1, w_parse st bl f (fst (fresh (nowhere []) name (ThMsFile buf h) None)) 0 0 = (Ok tt, w1) /\ opened_world st bl ok f s name (PlDir cs) w1.
Proof.
  intros P D. unfold fresh, nowhere. cbn [fst w_next w_heap w_thing w_cache kind_of].
  set (w0 := mkWorld _ _ _ _). assert (B0 : bounded w0).
  { intros j c. subst w0. cbn [w_heap w_next]. unfold put. destruct (j =? 0) eqn:E; [lia|discriminate]. }
  assert (C0 : w_heap w0 0 = Some (mkCell name (KMsFile false) None [])) by reflexivity.
  unfold w_parse. rewrite C0. cbn [nd_kind unread negb]. unfold w_load. change (w_thing w0 0) with (ThMsFile buf h). cbv iota. rewrite P.
  destruct (plant_list (plant_ms buf 0) w0 _) as [[w1 l] us] eqn:E.
  destruct (plant_ms_ok f st bl ok s buf 0 _ _ D _ _ _ _ E) as (K & R & B).
  destruct K as [N K]. change (w_next w0) with 1 in *. destruct (K 0 ltac:(lia)) as [H0 _].
  unfold parse. rewrite C0. cbn [nd_kind]. unfold parse_as. rewrite H0, C0. cbn [fold_left nd_name nd_parent nd_slots].
  change (fold_left (fun l0 e => slot_insert l0 (fst e) (snd e)) l []) with (filled l).
  eexists _. split; [reflexivity|]. split; [|split].
  - intros j c. cbn [w_heap w_next]. unfold put. destruct (j =? 0) eqn:J; [lia|]. apply B, B0.
  - exists name, (KMsFile true), None, l. cbn [w_heap w_next]. split; [unfold put; reflexivity|]. split; [lia|]. split; [left; right; reflexivity|].
    apply R. split; cbn [w_next w_heap w_thing]; [lia|]. change (w_next w0) with 1. intros j J. split; [|reflexivity]. unfold put. replace (j =? 0) with false by lia. reflexivity.
  - eexists _, _. split; [cbn [w_heap]; unfold put; reflexivity|reflexivity].
Qed.

(** An image file, once read. *)
Lemma img_read st bl (ok : rd -> Prop) s f name r size props kids : (0 < f)%nat -> ok r -> readable f r name 0 size props kids ->
  exists w1, w_parse st bl f (fst (fresh (nowhere []) name (ThImage r name 0 size) None)) 0 0 = (Ok tt, w1) /\ opened_world st bl ok f s name (PlImage props) w1.
Proof.
  intros F Or Re. set (w0 := fst _). assert (B0 : bounded w0).
  { intros j c. subst w0. cbn [fresh nowhere fst w_heap w_next]. unfold put. destruct (j =? 0) eqn:E; [lia|discriminate]. }
  assert (A : at_place f st bl ok s w0 0 (PlImage props)).
  { exists None, name. eapply rc_image with (k := KImage false) (l := []); [reflexivity|cbn; constructor|exact Or|cbn; lia|exact Re|reflexivity]. }
  destruct (parse_place f st bl ok s w0 0 _ F B0 A) as (w1 & P & X & B1 & A1 & _ & _ & Rd). exists w1. split; [exact P|].
  split; [exact B1|]. split; [exact A1|]. destruct (Rd props eq_refl) as (n & p & sl & H). exists (KImage true), sl. split; [|reflexivity].
  destruct X as [_ X]. destruct (X 0 ltac:(cbn; lia)) as [[E _]|[(n' & q & sl' & E & _)|(n' & k' & q & r' & nm & off' & size' & ks & us & l' & E & U' & _ & _ & E' & _)]].
  - rewrite H in E. discriminate E.
  - discriminate E.
  - cbn in E. injection E as <- _ <-. rewrite E'. rewrite H in E'. injection E' as _ _ ->. reflexivity.
Qed.
