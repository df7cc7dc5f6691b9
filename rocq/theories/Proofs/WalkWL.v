(** Lemmas on walking through packages that are read as they are walked. *)
From Coq Require Import ZArith List Bool Lia Arith ZifyBool ZifyNat Permutation.
From Verif.Model Require Import Base Utf Keys Reader Header Offset VersionPkg2 Directory Image Media Guess File Node Ms World.
From Verif.Spec Require Import Wire StrWire Version PropWire PropView DirWire DirView PathSpec Tree Whole.
From Verif.Proofs Require Import BaseL AtL ImageL NodeL UolL WorldL.
From Verif.Proofs Require JsonStoredL.
Import ListNotations.
Open Scope Z_scope.

(** * One step leads to one place *)
Lemma last_unique {A} (l : list (list Z * A)) n x y : last_named l n x -> last_named l n y -> x = y.
Proof.
  intros (pre & post & -> & N) (pre' & post' & E & N'). revert pre' E. induction pre as [|e pre IH]; intros [|e' pre'] E; cbn [app] in E.
  - congruence.
  - exfalso. inversion E as [[E1 E2]]. apply N. rewrite E2, map_app. apply in_or_app. right. left. reflexivity.
  - exfalso. inversion E as [[E1 E2]]. apply N'. rewrite <- E2, map_app. apply in_or_app. right. left. reflexivity.
  - inversion E as [[E1 E2]]. apply (IH _ E2).
Qed.
Lemma numbered_unique i vs l : numbered i vs l -> forall l', numbered i vs l' -> l = l'.
Proof.
  induction 1 as [|i ds v vs l D _ IH]; intros l' H; inversion H as [|? ds' ? ? l1 D' H']; subst; [reflexivity|].
  f_equal; [|auto]. f_equal. f_equal. eapply JsonStoredL.decimal_fun; eassumption.
Qed.
Lemma below_unique v l l' : below v l -> below v l' -> l = l'.
Proof.
  intros H H'. inversion H; subst; inversion H'; subst; try reflexivity; try contradiction. eapply numbered_unique; eassumption.
Qed.
Lemma inside_unique pl n q q' : inside pl n q -> inside pl n q' -> q = q'.
Proof.
  intros H H'. inversion H; subst; inversion H'; subst.
  - f_equal. eapply last_unique; eassumption.
  - f_equal. eapply last_unique; eassumption.
  - f_equal. match goal with A : below v ?k, B : below v ?k' |- _ => assert (k = k') by (eapply below_unique; eassumption) end. subst. eapply last_unique; eassumption.
Qed.
Lemma inside_or pl n : (exists q, inside pl n q) \/ nothing pl n.
Proof.
  destruct (place_total [n] pl) as [[z L]|F]; [inversion L; subst; eauto|inversion F as [|? ? ? ? _ F']; subst; [auto|inversion F']].
Qed.

(** Every parent before its children. *)
Definition parents_first (ps : list (list text)) : Prop := forall a p n b, ps = a ++ (p ++ [n]) :: b -> In p a.


(** * Nesting ends *)
Lemma below_total v : exists kids, below v kids.
Proof. destruct (inside_or (PlProp v) []) as [[q I]|N]; [inversion I|inversion N]; subst; eauto. Qed.
Lemma prop_nest (P : prop -> Prop) : (forall v, (forall kids n u, below v kids -> In (n, u) kids -> P u) -> P v) -> forall v, P v.
Proof.
  intro H. fix IH 1. intro v.
  assert (K : match v with
    | PSub l | PCanvas _ _ _ _ _ _ _ _ l | PRaw _ _ l => Forall (fun e => P (snd e)) l
    | PConvex l => Forall P l
    | _ => True
    end).
  { destruct v; try exact I; match goal with |- Forall _ ?l => induction l as [|x l IHl]; constructor; [|exact IHl] end; try (destruct x as [a b]; cbn [snd]); apply IH. }
  apply H. clear H IH. intros kids n u B In_. inversion B; subst; cbn in K; try contradiction.
  - rewrite Forall_forall in K. exact (K _ In_).
  - rewrite Forall_forall in K. exact (K _ In_).
  - rewrite Forall_forall in K. exact (K _ In_).
  - match goal with N : numbered 0 ?vs kids |- _ => clear B; revert N In_ K; generalize 0; generalize dependent vs end.
    intros vs i N. induction N as [|i ds v vs l D _ IHn]; [contradiction|]. intros [E|In_] K; inversion_clear K; [injection E as _ <-; assumption|auto].
Qed.

(** Paths are of bounded length. *)
Definition shallow (pl : place) (d : nat) : Prop := forall c z, leads pl c z -> (length c < d)%nat.
Lemma all_shallow {A} (g : A -> place) (l : list (list Z * A)) : (forall n x, In (n, x) l -> exists d, shallow (g x) d) ->
  exists d, forall n x, In (n, x) l -> shallow (g x) d.
Proof.
  induction l as [|[m y] l IH]; intro H; [exists O; intros ? ? []|].
  destruct IH as (d & D); [intros n x I; apply (H n x); right; exact I|]. destruct (H m y (or_introl eq_refl)) as (e & E).
  exists (Nat.max d e). intros n x [I|I] c z L; [injection I as _ <-; specialize (E c z L)|specialize (D n x I c z L)]; lia.
Qed.
Lemma named_in {A} (l : list (list Z * A)) n x : last_named l n x -> In (n, x) l.
Proof. intros (pre & post & -> & _). apply in_or_app. right. left. reflexivity. Qed.
Lemma prop_shallow : forall v, exists d, shallow (PlProp v) d.
Proof.
  apply prop_nest. intros v IH. destruct (below_total v) as (kids & B).
  destruct (all_shallow PlProp kids (fun n u I => IH kids n u B I)) as (d & D). exists (S d). intros c z L.
  inversion L as [|? n q rest ? In_ L']; subst; [cbn; lia|]. inversion In_ as [| |? ks ? u B' La]; subst. rewrite (below_unique _ _ _ B' B) in La.
  specialize (D n u (named_in _ _ _ La) rest z L'). cbn [length]. lia.
Qed.
Lemma content_shallow : forall c, exists d, shallow (place_of c) d.
Proof.
  fix IH 1. intro c. destruct c as [props|kids].
  - clear IH. destruct (all_shallow PlProp props (fun _ u _ => prop_shallow u)) as (d & D). exists (S d). intros c z L.
    inversion L as [|? n q rest ? In_ L']; subst; [cbn; lia|]. inversion In_ as [|? ? u La|]; subst.
    specialize (D n u (named_in _ _ _ La) rest z L'). cbn [length]. lia.
  - assert (K : Forall (fun e => exists d, shallow (place_of (snd e)) d) kids) by (induction kids as [|[n x] kids IHk]; constructor; [apply IH|exact IHk]).
    clear IH. rewrite Forall_forall in K. destruct (all_shallow place_of kids (fun n x I => K (n, x) I)) as (d & D). exists (S d). intros c z L.
    inversion L as [|? n q rest ? In_ L']; subst; [cbn; lia|]. inversion In_ as [? ? u La| |]; subst.
    specialize (D n u (named_in _ _ _ La) rest z L'). cbn [length]. lia.
Qed.

(** A node for an image, also one of an archive. *)
Definition picture (c : cell) : bool := match nd_kind c with KImage _ | KMsImage => true | _ => false end.
Lemma not_picture c : picture c = false -> is_image c = false.
Proof. unfold picture, is_image. destruct (nd_kind c); (reflexivity || discriminate). Qed.

(** * Walking without locks *)
Fixpoint free_walk (st : list Z -> nat -> Z) (bl : list Z -> list Z -> Z -> list Z) (f : nat) (order : list (text * id) -> list (text * id))
    (depth : nat) (force : bool) (w : world) (i : id) : res (list (id * world)) * world :=
  match depth with
  | O => (OutOfFuel, w)
  | S d =>
    match (if force then w_parse st bl f w i i else (Ok tt, w)) with
    | (Panic, w1) => (Panic, w1)
    | (OutOfFuel, w1) => (OutOfFuel, w1)
    | (_, w1) =>
      match w_heap w1 i with
      | None => (Panic, w1)
      | Some c =>
        match w_loop (free_walk st bl f order d force) w1 (order (nd_slots c)) with
        | (Ok l, w2) =>
          (Ok ((i, w1) :: l),
           match w_heap w2 i with
           | Some c2 => if force && is_image c2 then mkWorld (unparse (w_heap w2) i) (w_thing w2) (w_next w2) (w_cache w2) else w2
           | None => w2
           end)
        | x => x
        end
      end
    end
  end.
Lemma loop_or (rec lrec : world -> id -> res (list (id * world)) * world) : (forall w j, lrec w j = rec w j \/ fst (lrec w j) = Panic) ->
  forall l w, w_loop lrec w l = w_loop rec w l \/ fst (w_loop lrec w l) = Panic.
Proof.
  intro H. induction l as [|[n j] l IH]; intro w; [left; reflexivity|]. cbn [w_loop]. destruct (H w j) as [E|E].
  - rewrite E. destruct (rec w j) as [[a| | |] w1]; try (left; reflexivity). destruct (IH w1) as [E1|E1]; [rewrite E1; left; reflexivity|].
    destruct (w_loop lrec w1 l) as [b w2]. cbn [fst] in E1. subst b. right. reflexivity.
  - destruct (lrec w j) as [a w1]. cbn [fst] in E. subst a. right. reflexivity.
Qed.
(** Locks make no difference, or stop the walk for good. *)
Lemma locked_or st bl f order force d : forall rd w i,
  w_walk_in st bl f order rd d force w i = free_walk st bl f order d force w i \/ fst (w_walk_in st bl f order rd d force w i) = Panic.
Proof.
  induction d as [|d IH]; intros rd w i; [left; reflexivity|]. cbn [w_walk_in free_walk]. destruct (force && held i rd); [right; reflexivity|].
  destruct (if force then w_parse st bl f w i i else (Ok tt, w)) as [[u|e| |] w1]; try (left; reflexivity); (destruct (w_heap w1 i) as [c|]; [|left; reflexivity]);
    (destruct (loop_or _ _ (IH (i :: rd)) (order (nd_slots c)) w1) as [E|E]; [rewrite E; left; reflexivity|]);
    destruct (w_loop _ w1 (order (nd_slots c))) as [b w2]; cbn [fst] in E; subst b; right; reflexivity.
Qed.
Lemma locked_free st bl f order force d rd w i tr w' : w_walk_in st bl f order rd d force w i = (Ok tr, w') -> free_walk st bl f order d force w i = (Ok tr, w').
Proof. intro E. destruct (locked_or st bl f order force d rd w i) as [H|H]; rewrite E in H; [symmetry; exact H|discriminate H]. Qed.
Lemma loop_same (Inv : world -> Prop) (rec lrec : world -> id -> res (list (id * world)) * world) l :
  (forall n j w tr w', In (n, j) l -> Inv w -> rec w j = (Ok tr, w') -> lrec w j = (Ok tr, w') /\ Inv w') ->
  forall w tr w', Inv w -> w_loop rec w l = (Ok tr, w') -> w_loop lrec w l = (Ok tr, w').
Proof.
  induction l as [|[n j] l IH]; intros H w tr w' I E; [exact E|]. cbn [w_loop] in *. destruct (rec w j) as [[a| | |] w1] eqn:E1; try discriminate E.
  destruct (H n j w a w1 (or_introl eq_refl) I E1) as [E2 I2]. rewrite E2. destruct (w_loop rec w1 l) as [[b| | |] w2] eqn:E3; try discriminate E.
  rewrite (IH (fun n j w tr w' K => H n j w tr w' (or_intror K)) w1 b w2 I2 E3). exact E.
Qed.

(** The nodes above a node, up to one without a parent. *)
Inductive up (h : heap) : id -> list id -> Prop :=
| up_top i c : h i = Some c -> nd_parent c = None -> up h i []
| up_on i c p l : h i = Some c -> nd_parent c = Some p -> up h p l -> up h i (p :: l).
Lemma up_det h i l : up h i l -> forall l', up h i l' -> l' = l.
Proof.
  induction 1 as [i c H P|i c p l H P _ IH]; intros l' U; inversion U as [? c' H' P'|? c' p' l2 H' P' U']; subst; rewrite H in H'; injection H' as <-; try congruence.
  rewrite P in P'. injection P' as <-. f_equal. apply IH, U'.
Qed.
Lemma up_in h i l m : up h i l -> In m l -> exists l', up h m l' /\ (length l' < length l)%nat.
Proof.
  induction 1 as [|i c p l H P U IH]; intro I; [destruct I|]. destruct I as [<-|I]; [exists l; split; [exact U|cbn [length]; lia]|].
  destruct (IH I) as (l' & U' & L). exists l'. split; [exact U'|cbn [length]; lia].
Qed.
Lemma up_out h i l : up h i l -> ~ In i l.
Proof. intros U I. destruct (up_in h i l i U I) as (l' & U' & L). rewrite (up_det h i l U l' U') in L. lia. Qed.
Lemma up_kept h h' i l : (forall k c, h k = Some c -> exists c', h' k = Some c' /\ nd_parent c' = nd_parent c) -> up h i l -> up h' i l.
Proof. intro K. induction 1 as [i c H P|i c p l H P _ IH]; destruct (K _ _ H) as (c' & H' & P'); [eapply up_top|eapply up_on]; eauto; congruence. Qed.
Lemma held_not i rd : ~ In i rd -> held i rd = false.
Proof. unfold held. intro N. destruct (existsb (Z.eqb i) rd) eqn:E; [|reflexivity]. apply existsb_exists in E as (x & I & E). apply Z.eqb_eq in E. subst x. contradiction. Qed.

Section walks.
  Variable f : nat.
  Hypothesis F : (0 < f)%nat.
  Variable stream : list Z -> nat -> Z.
  Variable block : list Z -> list Z -> Z -> list Z.
  Variable ok : rd -> Prop.
  Variable s : shared.
  Variable order : list (text * id) -> list (text * id).
  Hypothesis Ord : forall l, Permutation (order l) l.

  (** Directories and images have been read, images have been released. *)
  Definition loose (w w' : world) : Prop :=
    w_next w <= w_next w' /\ forall j, j < w_next w ->
      (w_heap w' j = w_heap w j /\ w_thing w' j = w_thing w j) \/
      (exists n p sl, w_heap w j = Some (mkCell n (KDir false) p sl) /\ w_heap w' j = Some (mkCell n (KDir true) p sl) /\ w_thing w' j = w_thing w j) \/
      (exists n k p sl r nm off size b' l, w_heap w j = Some (mkCell n k p sl) /\ src stream block k (w_thing w j) r nm off size /\
         w_heap w' j = Some (mkCell n (KImage b') p (filled l)) /\ w_thing w' j = ThImage r nm off size /\
         if b' : bool then exists kids us, image_children f r nm off size = Ok (kids, us) /\ rpl w' r j kids l else l = []).
  Lemma ext_loose w w' : ext f stream block w w' -> loose w w'.
  Proof using. clear F ok s order Ord.
    intros [N X]. split; [exact N|]. intros j J. destruct (X j J) as [E|[E|(n & k & p & r & nm & off & size & ks & us & l & E & _ & T' & D & E' & Tw & L)]]; [auto|auto|].
    right. right. exists n, k, p, [], r, nm, off, size, true, l. split; [exact E|]. split; [exact T'|]. split; [exact E'|]. split; [exact Tw|]. eauto.
  Qed.
  Lemma loose_rps w w' r : loose w w' -> (forall n i p name, rp w r n i p name -> rp w' r n i p name) /\
    (forall i kids l, rpl w r i kids l -> rpl w' r i kids l).
  Proof using. clear F ok s order Ord.
    intros [N X]. apply rp_mut.
    - intros o kids i p name l H T I _ IH. destruct (X i I) as [[E T']|[(n & q & sl & E & _)|(n & k & q & sl & r' & nm & off & size & b' & l' & E & Sr & _)]].
      + econstructor; [rewrite E; exact H|rewrite T'; exact T|lia|exact IH].
      + rewrite H in E. exfalso. destruct o; discriminate E.
      + rewrite T in Sr. inversion Sr.
    - intros. constructor.
    - intros. constructor; assumption.
  Qed.
  Lemma loose_refl w : loose w w.
  Proof using. clear F ok s order Ord. split; [lia|]. auto. Qed.
  Lemma loose_trans a b c : loose a b -> loose b c -> loose a c.
  Proof using. clear F ok s order Ord.
    intros X Y. pose proof (fun r => proj2 (loose_rps b c r Y)) as Rp. destruct X as [N X], Y as [M Y]. split; [lia|]. intros j J.
    pose proof (X j J) as EX. pose proof (Y j ltac:(lia)) as EY.
    destruct EX as [[E T]|[(n & p & sl & E & E' & T)|(n & k & p & sl & r & nm & off & size & b' & l & E & Th & E' & T & L)]].
    - rewrite E, T in EY. exact EY.
    - destruct EY as [[E2 T2]|[(n2 & p2 & sl2 & E2 & E2' & T2)|(n2 & k2 & p2 & sl2 & r2 & nm2 & off2 & size2 & b2' & l2 & E2 & S2 & _)]].
      + right. left. exists n, p, sl. repeat split; congruence.
      + rewrite E' in E2. discriminate E2.
      + rewrite E' in E2. injection E2 as -> <- -> ->. apply src_kind in S2. contradiction.
    - right. right. destruct EY as [[E2 T2]|[(n2 & p2 & sl2 & E2 & E2' & T2)|(n2 & k2 & p2 & sl2 & r2 & nm2 & off2 & size2 & b2' & l2 & E2 & Th2 & E2' & T2 & L2)]].
      + exists n, k, p, sl, r, nm, off, size, b', l. split; [exact E|]. split; [exact Th|]. split; [congruence|]. split; [congruence|].
        destruct b'; [|exact L]. destruct L as (ks & us & D & L). exists ks, us. split; [exact D|]. apply Rp, L.
      + congruence.
      + rewrite E' in E2. injection E2 as <- <- <- <-. rewrite T in Th2. inversion Th2; subst. exists n, k, p, sl, r2, nm2, off2, size2, b2', l2.
        split; [exact E|]. split; [exact Th|]. split; [exact E2'|]. split; [exact T2|exact L2].
  Qed.
  Lemma loose_rcs w w' : loose w w' -> (forall c i p name, rc f stream block ok w s c i p name -> rc f stream block ok w' s c i p name) /\
    (forall i kids l, rcl f stream block ok w s i kids l -> rcl f stream block ok w' s i kids l).
  Proof using. clear F order Ord.
    intro X. pose proof (fun r => proj2 (loose_rps w w' r X)) as P. destruct X as [N X]. apply rc_mut.
    - intros props kids i p name r off size k l H T O I R L.
      destruct (X i I) as [[E T']|[(n & q & sl & E & _)|(n & k' & q & sl & r' & nm & off' & size' & b' & l' & E & T2 & E' & T' & L')]].
      + eapply rc_image with (k := k) (l := l); [rewrite E; exact H|rewrite T'; exact T|exact O|lia|exact R|]. destruct k as [| |[]| | | |]; try exact L; apply P, L.
      + rewrite H in E. injection E as -> -> _ _. apply src_kind in T. contradiction.
      + rewrite H in E. injection E as <- -> <- _. destruct (src_fun _ _ _ _ _ _ _ _ _ _ _ _ _ T T2) as (<- & <- & <- & <-).
        eapply rc_image with (k := KImage b') (l := l'); [exact E'|rewrite T'; constructor|exact O|lia|exact R|].
        destruct b'; [|exact L']. destruct L' as (ks & us & D & L'). destruct R as (_ & _ & us' & R). rewrite R in D. injection D as <- _. exact L'.
    - intros d b kids i p name l H T I D _ IH.
      destruct (X i I) as [[E T']|[(n & q & sl & E & E' & T')|(n & k' & q & sl & r' & nm & off' & size' & b' & l' & E & T2 & _)]].
      + eapply rc_dir; [rewrite E; exact H|rewrite T'; exact T|lia|exact D|exact IH].
      + rewrite H in E. injection E as <- -> <- <-. eapply rc_dir; [exact E'|rewrite T'; exact T|lia|exact D|exact IH].
      + rewrite T in T2. inversion T2.
    - intros. constructor.
    - intros. constructor; assumption.
  Qed.
  Lemma loose_place w w' i pl : loose w w' -> at_place f stream block ok s w i pl -> at_place f stream block ok s w' i pl.
  Proof using. clear F order Ord.
    intro X. pose proof (loose_rcs w w' X) as [C L]. pose proof (fun r => proj1 (loose_rps w w' r X)) as P.
    destruct pl as [cs|props|v]; cbn [at_place].
    - intros (name & k & p & l & H & I & K & R). destruct X as [N X].
      destruct (X i I) as [[E T']|[(n & q & sl & E & E' & T')|(n & k' & q & sl & r' & nm & off' & size' & b' & l' & E & Sr & _)]].
      + exists name, k, p, l. rewrite E, T'. split; [exact H|]. split; [lia|]. split; [exact K|apply L, R].
      + rewrite H in E. injection E as <- -> <- <-. destruct K as [K|(b & d & K & T & D)]; [destruct K; discriminate|].
        exists name, (KDir true), p, l. rewrite T'. split; [exact E'|]. split; [lia|]. split; [right; eauto|apply L, R].
      + rewrite H in E. injection E as <- -> <- _. exfalso. destruct K as [K|(b & d & K & T & D)]; [eapply (proj2 (proj2 (top_read stream block _ K))), Sr|]. rewrite T in Sr. inversion Sr.
    - intros (p & name & R). exists p, name. apply C, R.
    - intros (r & n & p & name & O & R & S). exists r, n, p, name. split; [exact O|]. split; [apply P, R|exact S].
  Qed.

  (** A place below directories only. *)
  Inductive dhangs (w : world) (root : id) : list text -> id -> Prop :=
  | dh_top c : w_heap w root = Some c -> dhangs w root [] root
  | dh_child p n i j c : dhangs w root p j -> w_heap w j = Some c -> picture c = false -> name_ok n -> child_of (w_heap w) n i j ->
      slot (w_heap w) j n i -> dhangs w root (p ++ [n]) i.
  Lemma dhangs_hangs w root q i : dhangs w root q i -> hangs (w_heap w) root q i.
  Proof using. clear F ok s order Ord. induction 1; [econstructor; eassumption|eapply hangs_child; eassumption]. Qed.
  Lemma loose_cell w w' i c : bounded w -> loose w w' -> w_heap w i = Some c ->
    exists c', w_heap w' i = Some c' /\ nd_name c' = nd_name c /\ nd_parent c' = nd_parent c /\ picture c' = picture c /\ (picture c = false -> nd_slots c' = nd_slots c).
  Proof using. clear F ok s order Ord.
    intros B [N X] C. destruct (X i (B i c C)) as [[E _]|[(m & q & sl & E & E' & _)|(m & k & q & sl & r' & nm & off' & size' & b' & l' & E & Sr & E' & _)]].
    - exists c. rewrite E. auto.
    - rewrite C in E. injection E as ->. eexists. split; [exact E'|]. auto.
    - rewrite C in E. injection E as ->. eexists. split; [exact E'|]. cbn. repeat split; inversion Sr; subst; (reflexivity || discriminate).
  Qed.
  Lemma dhangs_loose w w' root : bounded w -> loose w w' -> forall q i, dhangs w root q i -> dhangs w' root q i.
  Proof using. clear F ok s order Ord.
    intros B X. pose proof (loose_cell w w') as Al.
    induction 1 as [c C|q n i j c0 _ IH C0 Im Nn [(c & C & Cn & Cp) (cj & Cj)] (c2 & C2 & D & In_)].
    - destruct (Al _ _ B X C) as (c' & C' & _). exact (dh_top _ _ c' C').
    - destruct (Al _ _ B X C) as (c' & C' & C'n & C'p & _). destruct (Al _ _ B X C0) as (c0' & C0' & _ & _ & Im' & Sl).
      rewrite C0 in C2. injection C2 as <-. rewrite Im in Im'. specialize (Sl Im).
      eapply dh_child; [exact IH|exact C0'|exact Im'|exact Nn| |].
      + split; [exists c'; split; [exact C'|split; congruence]|eauto].
      + exists c0'. rewrite Sl. auto.
  Qed.

  (** How the world may change while walking below a place, and what is known of the way to it. *)
  Definition rel (pl : place) : world -> world -> Prop := match pl with PlProp _ => eq | _ => loose end.
  Definition anc (pl : place) (w : world) (root : id) (q : list text) (i : id) : Prop :=
    match pl with PlProp _ => hangs (w_heap w) root q i | _ => dhangs w root q i end.
  Definition visit (pl : place) (w : world) (i : id) (e : id * world) (c : list text) : Prop :=
    exists z, leads pl c z /\ at_place f stream block ok s (snd e) (fst e) z /\ loose w (snd e) /\ bounded (snd e) /\
      (Forall name_ok c -> forall root q, anc pl w root q i -> hangs (w_heap (snd e)) root (q ++ c) (fst e)).
  Definition walked (pl : place) (w : world) (i : id) (tr : list (id * world)) : Prop :=
    exists ps, Forall2 (visit pl w i) tr ps /\ NoDup ps /\ (forall c z, leads pl c z -> In c ps) /\ parents_first ps.

  (** The image holds no children. *)
  Definition released (w : world) (i : id) : Prop := exists n p, w_heap w i = Some (mkCell n (KImage false) p []).
  (** No image has been read that was not. *)
  Definition settles (w w' : world) : Prop := forall j c, w_heap w j = Some c -> picture c = true -> w_heap w' j = Some c \/ released w' j.
  Lemma settles_refl w : settles w w.
  Proof using. clear F ok s order Ord. intros j c C _. auto. Qed.
  Lemma settles_keep w w' j : settles w w' -> released w j -> released w' j.
  Proof using. clear F ok s order Ord. intros H (n & p & E). destruct (H j _ E eq_refl) as [E'|R]; [exists n, p; exact E'|exact R]. Qed.
  Lemma settles_trans a b c : settles a b -> settles b c -> settles a c.
  Proof using. clear F ok s order Ord. intros X Y j d D Im. destruct (X j d D Im) as [E|R]; [apply (Y j d E Im)|right; eapply settles_keep; eassumption]. Qed.
  (** Every image met is released in the end. *)
  Definition frees (tr : list (id * world)) (w' : world) : Prop := forall e c, In e tr -> w_heap (snd e) (fst e) = Some c -> picture c = true -> released w' (fst e).

  (** The loop over the children. *)
  Lemma loop_ok (R : world -> world -> Prop) rec : (forall w, R w w) -> (forall a b c, R a b -> R b c -> R a c) ->
    forall l (qs : text -> place -> Prop), NoDup (map fst l) -> (forall n q q', qs n q -> qs n q' -> q = q') ->
      (forall w w' n j q, R w w' -> In (n, j) l -> qs n q -> at_place f stream block ok s w j q -> at_place f stream block ok s w' j q) ->
      (forall n j q w, In (n, j) l -> qs n q -> bounded w -> at_place f stream block ok s w j q -> exists tr w', rec w j = (Ok tr, w') /\ R w w' /\ bounded w' /\ settles w w' /\ frees tr w' /\ walked q w j tr) ->
    forall w, bounded w -> (forall n j, In (n, j) l -> exists q, qs n q /\ at_place f stream block ok s w j q) ->
    exists tr w' ps, w_loop rec w l = (Ok tr, w') /\ R w w' /\ bounded w' /\ settles w w' /\ frees tr w' /\
      Forall2 (fun e c => exists n j q c' wk, c = n :: c' /\ In (n, j) l /\ qs n q /\ R w wk /\ bounded wk /\ visit q wk j e c') tr ps /\
      NoDup ps /\ (forall n j q c z, In (n, j) l -> qs n q -> leads q c z -> In (n :: c) ps) /\
      (forall a n p m b, ps = a ++ (n :: p ++ [m]) :: b -> In (n :: p) a).
  Proof.
    intros Rr Rt. induction l as [|[n j] l IH]; intros qs Nd Qu Pr Rc w B Al.
    - exists [], w, []. split; [reflexivity|]. split; [apply Rr|]. split; [exact B|]. split; [apply settles_refl|]. split; [intros ? ? []|]. split; [constructor|]. split; [constructor|]. split; [intros ? ? ? ? ? []|].
      intros [|? a] ? ? ? ? E; discriminate.
    - cbn [map fst] in Nd. inversion_clear Nd as [|? ? Nn Nd'].
      destruct (Al n j (or_introl eq_refl)) as (q & Q & A). destruct (Rc n j q w (or_introl eq_refl) Q B A) as (tr1 & w1 & E1 & R1 & B1 & S1 & F1 & ps1 & V1 & D1 & C1 & P1).
      destruct (IH qs Nd' Qu) with (w := w1) as (tr2 & w2 & ps2 & E2 & R2 & B2 & S2 & F2 & V2 & D2 & C2 & P2).
      { intros wa wb n0 j0 q0 Rab I0. apply Pr; [exact Rab|right; exact I0]. }
      { intros n0 j0 q0 w0 I0. apply Rc. right. exact I0. }
      { exact B1. }
      { intros n0 j0 I0. destruct (Al n0 j0 (or_intror I0)) as (q0 & Q0 & A0). exists q0. split; [exact Q0|]. apply (Pr w w1 n0 j0 q0 R1 (or_intror I0) Q0 A0). }
      exists (tr1 ++ tr2), w2, (map (cons n) ps1 ++ ps2). cbn [w_loop]. rewrite E1, E2. split; [reflexivity|]. split; [eapply Rt; eassumption|]. split; [exact B2|].
      split; [eapply settles_trans; eassumption|].
      split; [intros e c I C Im; apply in_app_iff in I as [I|I]; [eapply settles_keep; [exact S2|eapply F1; eassumption]|eapply F2; eassumption]|].
      split; [|split; [|split]].
      + apply Forall2_app.
        * clear - V1 Q Rr B. induction V1 as [|e c tr ps V _ IHv]; constructor; [|exact IHv]. exists n, j, q, c, w. split; [reflexivity|]. split; [left; reflexivity|]. auto.
        * clear - V2 R1 Rt. induction V2 as [|e c tr ps (n0 & j0 & q0 & c' & wk & -> & I0 & Q0 & Rk & Bk & V) _ IHv]; constructor; [|exact IHv].
          exists n0, j0, q0, c', wk. split; [reflexivity|]. split; [right; exact I0|]. split; [exact Q0|]. split; [eapply Rt; eassumption|]. auto.
      + assert (H2 : forall c, In c ps2 -> exists n0 c', c = n0 :: c' /\ In n0 (map fst l)).
        { clear - V2. induction V2 as [|e c tr ps (n0 & j0 & q0 & c' & wk & -> & I0 & _) _ IHv]; [intros ? []|]. intros c [<-|I]; [|auto].
          exists n0, c'. split; [reflexivity|]. apply (in_map fst) in I0. exact I0. }
        clear - D1 D2 H2 Nn. induction ps1 as [|p ps1 IHp]; [exact D2|]. cbn [map app]. inversion_clear D1 as [|? ? Np D1']. constructor; [|apply IHp, D1'].
        rewrite in_app_iff, in_map_iff. intros [(x & E & I)|I]; [injection E as ->; contradiction|]. destruct (H2 _ I) as (n0 & c' & E & I'). injection E as <- _. contradiction.
      + intros n0 j0 q0 c z [E|I0] Q0 L; apply in_or_app.
        * injection E as <- <-. left. apply in_map. rewrite (Qu n q0 q Q0 Q) in L. eapply C1, L.
        * right. eapply C2; eassumption.
      + intros a n0 p m b E.
        assert (Sp : (exists b', map (cons n) ps1 = a ++ (n0 :: p ++ [m]) :: b') \/ exists a', a = map (cons n) ps1 ++ a' /\ ps2 = a' ++ (n0 :: p ++ [m]) :: b).
        { clear - E. revert a E. induction (map (cons n) ps1) as [|x xs IHx]; intros a E; [right; exists a; auto|].
          destruct a as [|y a]; cbn [app] in E; injection E as -> E; [left; eexists; reflexivity|].
          destruct (IHx a E) as [[b' ->]|(a' & -> & ->)]; [left; eexists; reflexivity|right; eexists; split; reflexivity]. }
        destruct Sp as [[b' Eb]|(a' & -> & Eb)].
        * assert (exists a1 b1, ps1 = a1 ++ (p ++ [m]) :: b1 /\ a = map (cons n) a1 /\ n0 = n) as (a1 & b1 & E' & -> & ->).
          { clear - Eb. revert a Eb. induction ps1 as [|x xs IHx]; intros a E; [destruct a; discriminate|].
            destruct a as [|y a]; cbn [map app] in E; [injection E as <- <- _; exists [], xs; auto|injection E as <- E].
            destruct (IHx a E) as (a1 & b1 & -> & -> & ->). exists (x :: a1), b1. auto. }
          apply in_map. eapply P1, E'.
        * apply in_or_app. right. eapply P2, Eb.
  Qed.

  Lemma rel_refl pl w : rel pl w w.
  Proof. destruct pl; [apply loose_refl|apply loose_refl|reflexivity]. Qed.
  Lemma rel_trans pl a b c : rel pl a b -> rel pl b c -> rel pl a c.
  Proof. destruct pl; cbn [rel]; [apply loose_trans|apply loose_trans|congruence]. Qed.
  (** How the children of a place are walked. *)
  Definition krel (pl : place) : world -> world -> Prop := match pl with PlDir _ => loose | _ => eq end.
  Lemma krel_rel pl n q : inside pl n q -> rel q = krel pl.
  Proof. intro I. inversion I as [? ? c L| |]; subst; [destruct c; reflexivity|reflexivity|reflexivity]. Qed.
  Lemma krel_loose pl w w' : krel pl w w' -> loose w w'.
  Proof. destruct pl; cbn [krel]; [auto|intros ->; apply loose_refl|intros ->; apply loose_refl]. Qed.
  Lemma krel_refl pl w : krel pl w w.
  Proof. destruct pl; [apply loose_refl|reflexivity|reflexivity]. Qed.
  Lemma krel_trans pl a b c : krel pl a b -> krel pl b c -> krel pl a c.
  Proof. destruct pl; cbn [krel]; [apply loose_trans|congruence|congruence]. Qed.

  Lemma place_cell w i pl : at_place f stream block ok s w i pl -> exists c, w_heap w i = Some c /\ NoDup (map fst (nd_slots c)) /\ i < w_next w /\
    picture c = match pl with PlImage _ => true | _ => false end /\
    match pl with PlImage _ => is_image c = true -> exists r nm off size, w_thing w i = ThImage r nm off size | PlProp _ => unread (nd_kind c) = false | PlDir _ => True end.
  Proof.
    destruct pl as [cs|props|v]; cbn [at_place].
    - intros (name & k & p & l & H & I & K & R). eexists. split; [exact H|]. split; [apply filled_nodup|]. split; [exact I|]. split; [|exact Logic.I].
      destruct K as [[->| ->]|(b & d & -> & _)]; reflexivity.
    - intros (p & name & R). inversion R as [? kids ? ? ? r off size k l H T O I Re L|]; subst. eexists. split; [exact H|]. split; [apply filled_nodup|]. split; [exact I|].
      inversion T; subst; (split; [reflexivity|]); [eauto|discriminate].
    - intros (r & n & p & name & O & R & S). inversion R; subst. eexists. split; [eassumption|]. split; [apply filled_nodup|]. split; [assumption|].
      split; destruct o; reflexivity.
  Qed.
  Lemma unparse_loose w i c : bounded w -> w_heap w i = Some c -> is_image c = true -> (exists r nm off size, w_thing w i = ThImage r nm off size) ->
    let w' := mkWorld (unparse (w_heap w) i) (w_thing w) (w_next w) (w_cache w) in loose w w' /\ bounded w' /\ released w' i /\ forall j, j <> i -> w_heap w' j = w_heap w j.
  Proof using. clear F ok s order Ord.
    intros B C Im (r & nm & off & size & T) w'. unfold is_image in Im. destruct c as [n k p sl]. cbn [nd_kind] in Im. destruct k; try discriminate.
    assert (U : unparse (w_heap w) i = put (w_heap w) i (mkCell n (KImage false) p [])) by (unfold unparse; rewrite C; reflexivity).
    split; [|split; [|split]].
    - split; [cbn; lia|]. intros j J. cbn [w' w_heap w_thing]. rewrite U. unfold put. destruct (Z.eqb_spec j i) as [->|Ne]; [|left; split; reflexivity].
      right. right. exists n, (KImage is_parsed), p, sl, r, nm, off, size, false, []. split; [exact C|]. split; [rewrite T; constructor|]. split; [reflexivity|]. split; [exact T|reflexivity].
    - intros j c' E. cbn [w' w_heap w_next] in *. rewrite U in E. unfold put in E. destruct (Z.eqb_spec j i) as [->|Ne]; [apply (B i _ C)|apply (B j c' E)].
    - exists n, p. cbn [w' w_heap]. rewrite U. unfold put. rewrite Z.eqb_refl. reflexivity.
    - intros j Ne. cbn [w' w_heap]. rewrite U. unfold put. replace (j =? i) with false by lia. reflexivity.
  Qed.
  Lemma get_some (l : list (text * id)) n j : NoDup (map fst l) -> In (n, j) l -> slot_get l n = Some j.
  Proof.
    intros Nd I. induction l as [|[m k] l IH]; [contradiction|]. cbn [map fst] in Nd. inversion_clear Nd as [|? ? Nn Nd']. cbn [slot_get].
    destruct (text_eqb m n) eqn:E.
    - apply text_eqb_eq in E. subst. destruct I as [I|I]; [congruence|]. exfalso. apply Nn. apply (in_map fst) in I. exact I.
    - destruct I as [I|I]; [|auto]. injection I as -> ->. exfalso. assert (T : text_eqb n n = true) by apply text_eqb_refl. congruence.
  Qed.

  Theorem walk_all : forall d pl, (forall c z, leads pl c z -> (length c < d)%nat) -> forall w i, bounded w -> at_place f stream block ok s w i pl ->
    exists tr w', free_walk stream block f order d true w i = (Ok tr, w') /\ rel pl w w' /\ bounded w' /\ settles w w' /\ frees tr w' /\ walked pl w i tr.
  Proof.
    induction d as [|d IH]; intros pl Dp w i B A; [specialize (Dp [] pl (leads_here pl)); lia|].
    destruct (parse_place f stream block ok s w i pl F B A) as (w1 & P & X & B1 & A1 & (In1 & No1) & Al & Rd).
    destruct (place_cell w1 i pl A1) as (c & C & Nd & Ii & Im & Th).
    assert (Kids : forall n j, In (n, j) (order (nd_slots c)) -> exists q, inside pl n q /\ at_place f stream block ok s w1 j q /\ slot (w_heap w1) i n j /\ child_of (w_heap w1) n j i).
    { intros n j I. apply (Permutation_in _ (Ord _)) in I. pose proof (get_some _ _ _ Nd I) as G.
      destruct (inside_or pl n) as [[q Q]|N].
      - destruct (In1 n q Q) as (j' & G' & Aj & Sl & Ch). unfold node_at in G'. rewrite C in G'. assert (j' = j) as -> by congruence. eauto.
      - specialize (No1 n N). unfold node_at in No1. rewrite C in No1. congruence. }
    destruct (loop_ok (krel pl) (free_walk stream block f order d true) (krel_refl pl) (krel_trans pl) (order (nd_slots c)) (inside pl)) with (w := w1)
      as (tr & w2 & ps & E & R2 & B2 & S2 & F2 & V & D & Cm & Pf).
    { eapply Permutation_NoDup; [apply Permutation_map, Permutation_sym, Ord|exact Nd]. }
    { intros n q q' Q Q'. eapply inside_unique; eassumption. }
    { intros wa wb n j q R I Q. apply loose_place, (krel_loose pl), R. }
    { intros n j q w0 I Q B0 A0. rewrite <- (krel_rel pl n q Q). apply IH; [|exact B0|exact A0]. intros cc z L. specialize (Dp (n :: cc) z (leads_on _ _ _ _ _ Q L)). cbn [length] in Dp. lia. }
    { exact B1. }
    { intros n j I. destruct (Kids n j I) as (q & Q & Aj & _). eauto. }
    assert (Up : forall e cc, (exists n j q c' wk, cc = n :: c' /\ In (n, j) (order (nd_slots c)) /\ inside pl n q /\ krel pl w1 wk /\ bounded wk /\ visit q wk j e c') -> visit pl w i e cc).
    { intros e cc (n & j & q & c' & wk & -> & I & Q & Rk & Bk & z & L & Az & Lo & Be & H). exists z. split; [econstructor; eassumption|]. split; [exact Az|].
      split; [eapply loose_trans; [apply ext_loose, X|]; eapply loose_trans; [eapply krel_loose, Rk|exact Lo]|]. split; [exact Be|].
      intros Nm root q0 An. inversion_clear Nm as [|? ? Nn Nm']. replace (q0 ++ n :: c') with ((q0 ++ [n]) ++ c') by (rewrite <- app_assoc; reflexivity).
      apply (H Nm'). destruct (Kids n j I) as (q' & Q' & _ & Sl & Ch). destruct pl as [cs|props|v].
      - pose proof (dhangs_loose _ _ root B (ext_loose _ _ X) _ _ An) as D1.
        assert (D2 : dhangs w1 root (q0 ++ [n]) j) by (eapply dh_child; eassumption).
        assert (D3 := dhangs_loose _ _ root B1 Rk _ _ D2). inversion Q as [? ? ct Lt| |]; subst. destruct ct; exact D3.
      - cbn [krel] in Rk. subst wk. inversion Q; subst. cbn [anc]. eapply hangs_child; [|exact Nn|exact Ch|exact Sl].
        apply (hangs_ext f stream block w w1 root B X). apply dhangs_hangs, An.
      - cbn [krel] in Rk. subst wk. inversion Q; subst. cbn [anc] in An |- *. eapply hangs_child; [|exact Nn|exact Ch|exact Sl].
        apply (hangs_ext f stream block w w1 root B X), An. }
    assert (Wk : walked pl w i ((i, w1) :: tr)).
    { exists ([] :: ps). assert (Ne : ~ In [] ps).
      { clear - V. induction V as [|e cc tr ps (n & j & q & c' & wk & -> & _) _ IHv]; [intros []|]. intros [H|H]; [discriminate|auto]. }
      split; [|split; [|split]].
      - constructor; [|clear - V Up; induction V as [|e cc tr ps V1 _ IHv]; constructor; [apply Up, V1|exact IHv]].
        exists pl. split; [constructor|]. split; [exact A1|]. split; [apply ext_loose, X|]. split; [exact B1|]. intros _ root q An. rewrite app_nil_r. cbn [fst snd]. apply (hangs_ext f stream block w w1 root B X).
        destruct pl; [apply dhangs_hangs, An|apply dhangs_hangs, An|exact An].
      - constructor; assumption.
      - intros cc z L. inversion L as [|? n q rest ? Q L']; subst; [left; reflexivity|]. right.
        destruct (In1 n q Q) as (j & G & _). unfold node_at in G. rewrite C in G. apply get_in in G.
        eapply Cm; [eapply Permutation_in; [apply Permutation_sym, Ord|exact G]|exact Q|exact L'].
      - intros [|x a] p n b Eq; cbn [app] in Eq; [destruct p; discriminate|]. injection Eq as <- Eq. destruct p as [|m p]; [left; reflexivity|].
        right. cbn [app] in Eq. eapply Pf, Eq. }
    cbn [free_walk]. rewrite P, C, E.
    destruct (place_cell w2 i pl) as (c2 & C2 & _ & _ & Im2 & Th2); [eapply loose_place; [eapply krel_loose, R2|exact A1]|]. rewrite C2.
    assert (S1 : picture c = false -> settles w w1).
    { intros Ic j cj Cj Imj. left. destruct (Z.eq_dec j i) as [->|Ne]; [|rewrite (Al j (B j cj Cj) Ne); exact Cj].
      exfalso. destruct (loose_cell w w1 i cj B (ext_loose _ _ X) Cj) as (c' & C' & _ & _ & I' & _). rewrite C in C'. injection C' as <-. congruence. }
    assert (F1 : forall w', picture c = false -> frees tr w' -> frees ((i, w1) :: tr) w').
    { intros w' Ic Fr e ce [<-|I]; [|apply Fr, I]. cbn [fst snd]. rewrite C. intro H. injection H as <-. congruence. }
    destruct pl as [cs|props|v].
    - rewrite (not_picture _ Im2). cbn [andb]. eexists _, w2. split; [reflexivity|]. split; [eapply loose_trans; [apply ext_loose, X|exact R2]|]. split; [exact B2|].
      split; [eapply settles_trans; [apply S1, Im|exact S2]|]. split; [apply F1; [exact Im|exact F2]|exact Wk].
    - assert (Ic2 : is_image c2 = true).
      { cbn [krel] in R2. subst w2. destruct (Rd props eq_refl) as (n & p & sl & E2). rewrite C2 in E2. injection E2 as ->. reflexivity. }
      rewrite Ic2. cbn [andb]. destruct (unparse_loose w2 i c2 B2 C2 Ic2 (Th2 Ic2)) as (L3 & B3 & Rl & Al3). eexists _, _. split; [reflexivity|].
      split; [eapply loose_trans; [apply ext_loose, X|]; eapply loose_trans; [eapply krel_loose, R2|exact L3]|]. split; [exact B3|].
      assert (S3 : settles w2 (mkWorld (unparse (w_heap w2) i) (w_thing w2) (w_next w2) (w_cache w2))).
      { intros j cj Cj _. destruct (Z.eq_dec j i) as [->|Ne]; [right; exact Rl|left; rewrite (Al3 j Ne); exact Cj]. }
      split; [|split; [|exact Wk]].
      + intros j cj Cj Imj. destruct (Z.eq_dec j i) as [->|Ne]; [right; exact Rl|]. eapply settles_trans; [exact S2|exact S3|rewrite (Al j (B j cj Cj) Ne); exact Cj|exact Imj].
      + intros e ce [<-|I] Ce Ie; [exact Rl|]. eapply settles_keep; [exact S3|]. eapply F2; eassumption.
    - rewrite (not_picture _ Im2). cbn [andb]. assert (w1 = w) as ->.
      { destruct (place_cell w i _ A) as (c0 & C0 & _ & _ & _ & U). unfold w_parse in P. rewrite C0, U in P. congruence. }
      cbn [krel] in R2. subst w2. eexists _, w. split; [reflexivity|]. split; [reflexivity|]. split; [exact B|].
      split; [apply settles_refl|]. split; [apply F1; [exact Im|exact F2]|exact Wk].
  Qed.

  (** No lock is in the way. *)
  Theorem walk_locked : forall d pl, (forall c z, leads pl c z -> (length c < d)%nat) -> forall w i rd l tr w', bounded w -> at_place f stream block ok s w i pl ->
    up (w_heap w) i l -> incl rd l -> free_walk stream block f order d true w i = (Ok tr, w') -> w_walk_in stream block f order rd d true w i = (Ok tr, w').
  Proof.
    induction d as [|d IH]; intros pl Dp w i rd l tr w' B A U In_ E; [discriminate|]. cbn [free_walk w_walk_in] in *.
    rewrite held_not by (intro I; exact (up_out _ _ _ U (In_ _ I))). cbn [andb].
    destruct (parse_place f stream block ok s w i pl F B A) as (w1 & P & X & B1 & A1 & (In1 & No1) & Al & Rd). rewrite P in *.
    destruct (place_cell w1 i pl A1) as (c & C & Nd & Ii & Im & Th). rewrite C in *.
    destruct (w_loop (free_walk stream block f order d true) w1 (order (nd_slots c))) as [[a| | |] w2] eqn:L; try discriminate E.
    assert (Up : forall wk, loose w wk -> up (w_heap wk) i l).
    { intros wk Lo. eapply up_kept; [|exact U]. intros k ck Ck. destruct (loose_cell w wk k ck B Lo Ck) as (c' & C' & _ & P' & _). eauto. }
    rewrite (loop_same (fun wk => bounded wk /\ krel pl w1 wk) (free_walk stream block f order d true) (w_walk_in stream block f order (i :: rd) d true) (order (nd_slots c))) with (tr := a) (w' := w2);
      [exact E| |split; [exact B1|apply krel_refl]|exact L].
    intros n j wk tk wk' I [Bk Rk] Ek. apply (Permutation_in _ (Ord _)) in I. pose proof (get_some _ _ _ Nd I) as G.
    destruct (inside_or pl n) as [[q Q]|N]; [|specialize (No1 n N); unfold node_at in No1; rewrite C in No1; congruence].
    destruct (In1 n q Q) as (j' & G' & Aj & _ & (cj & Cj & _ & Pj) & _). unfold node_at in G'. rewrite C in G'. assert (j' = j) as -> by congruence.
    assert (Dq : forall cc z, leads q cc z -> (length cc < d)%nat) by (intros cc z Lq; specialize (Dp (n :: cc) z (leads_on _ _ _ _ _ Q Lq)); cbn [length] in Dp; lia).
    pose proof (loose_place w1 wk j q (krel_loose pl _ _ Rk) Aj) as Ak. split.
    - apply (IH q Dq wk j (i :: rd) (i :: l) tk wk' Bk Ak).
      + destruct (loose_cell w1 wk j cj B1 (krel_loose pl _ _ Rk) Cj) as (c' & C' & _ & P' & _). eapply up_on; [exact C'|congruence|].
        apply Up. eapply loose_trans; [apply ext_loose, X|eapply krel_loose, Rk].
      + intros x [<-|Ix]; [left; reflexivity|right; apply In_, Ix].
      + exact Ek.
    - destruct (walk_all d q Dq wk j Bk Ak) as (t2 & w3 & E3 & R3 & B3 & _). rewrite Ek in E3. injection E3 as _ <-. split; [exact B3|].
      eapply krel_trans; [exact Rk|]. rewrite <- (krel_rel pl n q Q). exact R3.
  Qed.

  (** Directories and images are found below directories. *)
  Lemma props_stay v c z : leads (PlProp v) c z -> exists u, z = PlProp u.
  Proof using.
    clear F ok s order Ord. intro L. remember (PlProp v) as pl eqn:E. revert v E. induction L as [pl|pl n q rest z I _ IH]; intros v ->; [eauto|]. inversion I; subst. eapply IH. reflexivity.
  Qed.
  Lemma fold_dirs : forall comps w i pl z, bounded w -> at_place f stream block ok s w i pl -> leads pl comps z -> (forall v, z <> PlProp v) ->
    exists j w', w_fold stream block f w i comps = (Ok j, w') /\ loose w w' /\ bounded w' /\
      (Forall name_ok comps -> forall root q, dhangs w root q i -> dhangs w' root (q ++ comps) j).
  Proof.
    induction comps as [|c comps IH]; intros w i pl z B A L Nz.
    - exists i, w. split; [reflexivity|]. split; [apply loose_refl|]. split; [exact B|]. intros _ root q H. rewrite app_nil_r. exact H.
    - destruct (parse_place f stream block ok s w i pl F B A) as (w1 & P & X & B1 & A1 & (In1 & No1) & Al & Rd). cbn [w_fold]. rewrite P.
      inversion L as [|? ? q ? ? I L']; subst. destruct (In1 c q I) as (j & G & Aj & Sl & Ch). rewrite G.
      destruct (IH w1 j q z B1 Aj L' Nz) as (j' & w' & E & X' & B' & Hg). exists j', w'. split; [exact E|].
      split; [eapply loose_trans; [apply ext_loose, X|exact X']|]. split; [exact B'|].
      intros Nm root q0 H. inversion_clear Nm as [|? ? N1 N2]. replace (q0 ++ c :: comps) with ((q0 ++ [c]) ++ comps) by (rewrite <- app_assoc; reflexivity).
      apply Hg; [exact N2|]. destruct (place_cell w1 i pl A1) as (ci & Ci & _ & _ & Im & _).
      eapply dh_child; [apply (dhangs_loose _ _ root B (ext_loose _ _ X)), H|exact Ci| |exact N1|exact Ch|exact Sl].
      rewrite Im. destruct pl; [reflexivity| |reflexivity]. inversion I; subst. destruct (props_stay _ _ _ L') as (u & ->). exfalso. apply (Nz u). reflexivity.
  Qed.
End walks.

(** * Walks of the whole package *)
Lemma loop_more rec rec' l : (forall w i tr w', rec w i = (Ok tr, w') -> rec' w i = (Ok tr, w')) ->
  forall w tr w', w_loop rec w l = (Ok tr, w') -> w_loop rec' w l = (Ok tr, w').
Proof.
  intro H. induction l as [|[n j] l IH]; intros w tr w' E; [exact E|]. cbn [w_loop] in *.
  destruct (rec w j) as [[a| | |] w1] eqn:R; try discriminate. rewrite (H _ _ _ _ R).
  destruct (w_loop rec w1 l) as [[b| | |] w2] eqn:L; try discriminate. rewrite (IH _ _ _ L). exact E.
Qed.
Lemma walk_more st bl f order force d : forall d' w i tr w', (d <= d')%nat -> free_walk st bl f order d force w i = (Ok tr, w') -> free_walk st bl f order d' force w i = (Ok tr, w').
Proof.
  induction d as [|d IH]; intros [|d'] w i tr w' Hd E; try discriminate; [lia|]. cbn [free_walk] in *.
  destruct (if force then w_parse st bl f w i i else (Ok tt, w)) as [[a|e| |] w1]; try discriminate.
  - destruct (w_heap w1 i) as [c|]; [|discriminate].
    destruct (w_loop (free_walk st bl f order d force) w1 (order (nd_slots c))) as [[l| | |] w2] eqn:L; try discriminate.
    rewrite (loop_more _ (free_walk st bl f order d' force) _ (fun w i tr w' => IH d' w i tr w' ltac:(lia)) _ _ _ L). exact E.
  - destruct (w_heap w1 i) as [c|]; [|discriminate].
    destruct (w_loop (free_walk st bl f order d force) w1 (order (nd_slots c))) as [[l| | |] w2] eqn:L; try discriminate.
    rewrite (loop_more _ (free_walk st bl f order d' force) _ (fun w i tr w' => IH d' w i tr w' ltac:(lia)) _ _ _ L). exact E.
Qed.
Lemma opened_loose st bl ok f s name cs w w' : opened_world st bl ok f s name (PlDir cs) w -> loose f st bl w w' -> bounded w' -> opened_world st bl ok f s name (PlDir cs) w'.
Proof.
  intros (B & A & k & sl & H & U) X B'. split; [exact B'|]. split; [eapply loose_place; eassumption|]. exists k, sl. split; [|exact U].
  destruct A as (name' & k' & p & l & H' & _ & K & _). rewrite H in H'. injection H' as <- <- <- ->.
  destruct X as [N' X]. destruct (X 0 (B 0 _ H)) as [[E _]|[(n & q & sl' & E & _)|(n & k' & q & sl' & r' & nm & off' & size' & b' & l' & E & Sr & _)]].
  - rewrite E. exact H.
  - rewrite H in E. injection E as _ -> _ _. discriminate U.
  - exfalso. rewrite H in E. injection E as _ -> _ _. destruct K as [K|(b & d & -> & _)]; [eapply (proj2 (proj2 (top_read st bl _ K))), Sr|inversion Sr].
Qed.
