(** Lemmas on walking through packages whose images have links. *)
From Coq Require Import ZArith List Bool Lia Arith ZifyBool ZifyNat Permutation.
From Verif.Model Require Import Base Utf Keys Reader Header Offset VersionPkg2 Directory Image Media Guess File Node Ms World.
From Verif.Spec Require Import Wire StrWire Version PropWire PropView DirWire DirView PathSpec Tree Whole Linked WholeLinks.
From Verif.Proofs Require Import BaseL AtL ImageL NodeL UolL WorldL WalkWL LinkedL LinkWorldL.
Import ListNotations.
Open Scope Z_scope.

(** * The children of a node have different names *)
Definition one_each (h : heap) : Prop := forall j c, h j = Some c -> NoDup (map fst (nd_slots c)).
Lemma insert_in l n j x : In x (map fst (slot_insert l n j)) -> x = n \/ In x (map fst l).
Proof.
  induction l as [|[k y] l IH]; cbn [slot_insert map fst In]; [intuition congruence|].
  destruct (text_eqb k n); cbn [map fst In]; [tauto|]. intros [H|H]; [tauto|]. apply IH in H. tauto.
Qed.
Lemma insert_names l n j : NoDup (map fst l) -> NoDup (map fst (slot_insert l n j)).
Proof.
  induction l as [|[k y] l IH]; cbn [slot_insert map fst]; [intros _; constructor; [intros []|constructor]|].
  intro H. inversion_clear H as [|? ? N D]. destruct (text_eqb k n) eqn:E; cbn [map fst]; constructor; auto.
  intro I. apply insert_in in I as [->|I]; [|auto]. rewrite text_eqb_refl in E. discriminate.
Qed.
Lemma inserts_names kids : forall l, NoDup (map fst l) -> NoDup (map fst (fold_left (fun l e => slot_insert l (fst e) (snd e)) kids l)).
Proof. induction kids as [|e kids IH]; intros l H; [exact H|]. cbn [fold_left]. apply IH, insert_names, H. Qed.
Lemma one_put h i c : one_each h -> NoDup (map fst (nd_slots c)) -> one_each (put h i c).
Proof. intros O N j d. unfold put. destruct (j =? i); [intros [= <-]; exact N|apply O]. Qed.
Lemma one_insert h i n j : one_each h -> one_each (insert_child h i n j).
Proof. intro O. unfold insert_child. destruct (h i) as [c|] eqn:E; [|exact O]. apply one_put; [exact O|]. cbn [nd_slots]. apply insert_names, (O i c E). Qed.
Lemma one_fill w i l : one_each (w_heap w) -> one_each (w_heap (fill w i l)).
Proof. unfold fill. cbn [w_heap]. generalize (w_heap w). induction l as [|e l IH]; intros h O; [exact O|]. cbn [fold_left]. apply IH, one_insert, O. Qed.
Lemma one_list {A} (f : world -> text -> A -> world * id * list id) l :
  Forall (fun e => forall w, one_each (w_heap w) -> one_each (w_heap (fst (fst (f w (fst e) (snd e)))))) l ->
  forall w, one_each (w_heap w) -> one_each (w_heap (fst (fst (plant_list f w l)))).
Proof.
  induction 1 as [|[n x] l H _ IH]; intros w O; [exact O|]. rewrite plant_list_cons. cbn [fst snd] in H. specialize (H w O).
  destruct (f w n x) as [[w1 i] us]. specialize (IH w1 H). destruct (plant_list f w1 l) as [[w2 l'] us']. exact IH.
Qed.
Lemma one_fresh w n t p : one_each (w_heap w) -> one_each (w_heap (fst (fresh w n t p))).
Proof. intro O. cbn [fresh fst w_heap]. apply one_put; [exact O|constructor]. Qed.
Lemma one_plant r : forall n p w name, one_each (w_heap w) -> one_each (w_heap (fst (fst (plant r p w name n)))).
Proof.
  fix IH 1. intros [o kids] p w name O. cbn [plant]. destruct (fresh w name (ThProp r o) (Some p)) as [w1 i] eqn:E.
  assert (O1 : one_each (w_heap w1)) by (replace w1 with (fst (fresh w name (ThProp r o) (Some p))) by (rewrite E; reflexivity); apply one_fresh, O).
  assert (K : Forall (fun e => forall w, one_each (w_heap w) -> one_each (w_heap (fst (fst (plant r i w (fst e) (snd e)))))) kids).
  { clear E O1. induction kids as [|[n x] kids IHk]; constructor; [|exact IHk]. intros w2 O2. cbn [fst snd]. apply IH, O2. }
  pose proof (one_list (plant r i) kids K w1 O1) as L. destruct (plant_list (plant r i) w1 kids) as [[w2 l] us]. cbn [fst] in *. apply one_fill, L.
Qed.
Lemma one_plant_dir s : forall n p w name, one_each (w_heap w) -> one_each (w_heap (fst (fst (plant_dir s p w name n)))).
Proof.
  fix IH 1. intros [off size|d kids|] p w name O; cbn [plant_dir fst].
  - apply one_fresh, O.
  - destruct (fresh w name (ThDir s d) (Some p)) as [w1 i] eqn:E.
    assert (O1 : one_each (w_heap w1)) by (replace w1 with (fst (fresh w name (ThDir s d) (Some p))) by (rewrite E; reflexivity); apply one_fresh, O).
    assert (K : Forall (fun e => forall w, one_each (w_heap w) -> one_each (w_heap (fst (fst (plant_dir s i w (fst e) (snd e)))))) kids).
    { clear E O1. induction kids as [|[n x] kids IHk]; constructor; [|exact IHk]. intros w2 O2. cbn [fst snd]. apply IH, O2. }
    pose proof (one_list (plant_dir s i) kids K w1 O1) as L. destruct (plant_list (plant_dir s i) w1 kids) as [[w2 l] us]. cbn [fst] in *. apply one_fill, L.
  - apply one_fresh, O.
Qed.
Lemma one_load st bl f w p i : one_each (w_heap w) -> one_each (w_heap (snd (w_load st bl f w p i))).
Proof.
  intro O. unfold w_load.
  assert (D : forall s w kids, one_each (w_heap w) -> one_each (w_heap (fst (fst (plant_list (plant_dir s p) w kids))))).
  { intros s w0 kids O0. apply one_list; [|exact O0]. apply Forall_forall. intros e _ w2. apply one_plant_dir. }
  assert (P : forall r w kids, one_each (w_heap w) -> one_each (w_heap (fst (fst (plant_list (plant r p) w kids))))).
  { intros r w0 kids O0. apply one_list; [|exact O0]. apply Forall_forall. intros e _ w2. apply one_plant. }
  assert (M : forall buf w kids, one_each (w_heap w) -> one_each (w_heap (fst (fst (plant_list (plant_ms buf p) w kids))))).
  { intros b w0 kids O0. apply one_list; [|exact O0]. apply Forall_forall. intros e _ w2 O2. unfold plant_ms. cbn [fst]. apply one_fresh, O2. }
  destruct (w_thing w i) as [buf iv ex patch|s d|r nm off size|buf h|buf e|r o].
  - destruct (rbind _ _) as [[h x]| | |]; try exact O. specialize (D (shared_of st buf h x) (set_cache w (pf_cache x)) (pf_kids x) O). destruct (plant_list _ _ _) as [[w1 l] us]. exact D.
  - destruct (resolve_children _ _ _ _ _ _ _) as [[kids| | |] d']; try exact O. specialize (D s (set_thing w i (ThDir s d')) kids O). destruct (plant_list _ _ _) as [[w1 l] us]. exact D.
  - destruct (image_children _ _ _ _ _) as [[kids us0]| | |]; try exact O. specialize (P r w kids O). destruct (plant_list _ _ _) as [[w1 l] us]. exact P.
  - destruct (ms_parse _ _ _) as [es| | |]; try exact O. specialize (M buf w (map (fun e => (me_name e, e)) es) O). destruct (plant_list _ _ _) as [[w1 l] us]. exact M.
  - destruct (rbind _ _) as [[r kids]| | |]; try exact O. specialize (P r (set_thing w i (ThImage r (me_name e) 0 (wrap 64 (me_size e)))) kids O). destruct (plant_list _ _ _) as [[w1 l] us]. exact P.
  - exact O.
Qed.
Lemma one_uol h lk im u h' : one_each h -> resolve_uol h lk im u = Ok h' -> one_each h'.
Proof.
  intro O. unfold resolve_uol. destruct (held u lk); [discriminate|]. destruct (h u) as [c|]; [|discriminate]. destruct (upgrade h (nd_parent c)) as [p|]; [|discriminate].
  assert (X : forall i n t, one_each (replace_child h i n t)) by (intros i n t; unfold replace_child; destruct (node_at h i n); [apply one_insert|]; exact O).
  destruct (nd_kind c) as [| | | | |[tg|]|]; try (intros [= <-]; exact O). destruct (try_fold _ p (split_slash tg)) as [t|]; [|intros [= <-]; exact O].
  destruct (held p lk); [destruct im|]; intros [= <-]; try apply X. exact O.
Qed.
Lemma one_parse st bl f w i p : one_each (w_heap w) -> one_each (w_heap (snd (w_parse st bl f w i p))).
Proof.
  intro O. unfold w_parse. destruct (w_heap w i) as [c|] eqn:E; [|exact O]. destruct (unread (nd_kind c)); [|exact O].
  pose proof (one_load st bl f w p i O) as O1. destruct (w_load st bl f w p i) as [[[kids us]| | |] w1]; cbn [snd] in *; try exact O1.
  destruct (parse _ (w_heap w) [] i p) as [h| | |] eqn:P; cbn [snd w_heap]; try exact O1.
  assert (X : forall k, parse_as (fun _ _ _ => Some (w_heap w1, kids, us)) (w_heap w) [] i p k = Ok h -> one_each h).
  { intro k. unfold parse_as. destruct (w_heap w1 i) as [c1|] eqn:E1; [|discriminate].
    assert (O2 : one_each (put (w_heap w1) i (mkCell (nd_name c1) k (nd_parent c1) (fold_left (fun l e => slot_insert l (fst e) (snd e)) kids (nd_slots c1))))).
    { apply one_put; [exact O1|]. cbn [nd_slots]. apply inserts_names, (O1 i c1 E1). }
    revert O2. generalize (put (w_heap w1) i (mkCell (nd_name c1) k (nd_parent c1) (fold_left (fun l e => slot_insert l (fst e) (snd e)) kids (nd_slots c1)))). clear.
    intros h0 O2 R. change (resolve_all i us (Ok h0) = Ok h) in R. revert h0 O2 R.
    induction us as [|u us IH]; intros h0 O2 R; [injection R as <-; exact O2|].
    cbn [resolve_all fold_left rbind] in R. destruct (resolve_all_bad _ _ _ _ R) as [a A]. rewrite A in R. eapply IH; [|exact R]. eapply one_uol; eassumption. }
  unfold parse in P. rewrite E in P. destruct (nd_kind c) as [[]|[]|[]| |[]| |]; try (injection P as <-; exact O); eapply X, P.
Qed.
Lemma one_fold st bl f comps : forall w i, one_each (w_heap w) -> one_each (w_heap (snd (w_fold st bl f w i comps))).
Proof.
  induction comps as [|n rest IH]; intros w i O; [exact O|]. cbn [w_fold]. pose proof (one_parse st bl f w i i O) as P.
  destruct (w_parse st bl f w i i) as [[| | |] w1]; cbn [snd] in *; try exact P. destruct (node_at (w_heap w1) i n); [apply IH, P|exact P].
Qed.
Lemma one_unparse h i : one_each h -> one_each (unparse h i).
Proof. intro O. unfold unparse. destruct (h i) as [c|] eqn:E; [|exact O]. pose proof (O i c E) as N. destruct (nd_kind c); try exact O; apply one_put; try exact O; try constructor; exact N. Qed.

(** * The loop over the children *)
Section loop.
  Variable R : world -> world -> Prop.
  Hypothesis Rr : forall w, R w w.
  Hypothesis Rt : forall a b c, R a b -> R b c -> R a c.
  Variable St : world -> Prop.
  Variable A : world -> id -> text -> Prop.
  Variable G : id -> text -> list text -> Prop.
  Variable V : world -> id -> text -> id * world -> list text -> Prop.
  Variable Fr : list (id * world) -> world -> Prop.
  Hypothesis Fk : forall w w' tr, R w w' -> Fr tr w -> Fr tr w'.
  Hypothesis F0 : forall w, Fr [] w.
  Hypothesis Fa : forall a b w, Fr a w -> Fr b w -> Fr (a ++ b) w.
  Variable L : id -> text -> Prop.
  Variable d : nat.
  Variable rec : world -> id -> res (list (id * world)) * world.

  Lemma loop_gen l : NoDup (map fst l) -> (forall w w' n j, R w w' -> In (n, j) l -> A w j n -> A w' j n) ->
    (forall n j w, In (n, j) l -> St w -> A w j n ->
      (exists tr w' ps, rec w j = (Ok tr, w') /\ R w w' /\ St w' /\ Fr tr w' /\ Forall2 (V w j n) tr ps /\ NoDup ps /\ (forall c, G j n c -> In c ps) /\
         parents_first ps /\ Forall (fun c => (length c < d)%nat) ps) \/
      (exists w', rec w j = (OutOfFuel, w') /\ L j n)) ->
    forall w, St w -> (forall n j, In (n, j) l -> A w j n) ->
    (exists tr w' ps, w_loop rec w l = (Ok tr, w') /\ R w w' /\ St w' /\ Fr tr w' /\
      Forall2 (fun e c => exists n j c' wk, c = n :: c' /\ In (n, j) l /\ R w wk /\ V wk j n e c') tr ps /\
      NoDup ps /\ (forall n j c, In (n, j) l -> G j n c -> In (n :: c) ps) /\
      (forall a n p m b, ps = a ++ (n :: p ++ [m]) :: b -> In (n :: p) a) /\ Forall (fun c => (length c < S d)%nat) ps) \/
    (exists w', w_loop rec w l = (OutOfFuel, w') /\ exists n j, In (n, j) l /\ L j n).
  Proof.
    induction l as [|[n j] l IH]; intros Nd Pr Rc w S0 Al.
    - left. exists [], w, []. split; [reflexivity|]. split; [apply Rr|]. split; [exact S0|]. split; [apply F0|]. split; [constructor|]. split; [constructor|]. split; [intros ? ? ? []|].
      split; [intros [|? a] ? ? ? ? E; discriminate|constructor].
    - cbn [map fst] in Nd. inversion_clear Nd as [|? ? Nn Nd']. cbn [w_loop].
      destruct (Rc n j w (or_introl eq_refl) S0 (Al n j (or_introl eq_refl))) as [(tr1 & w1 & ps1 & E1 & R1 & S1 & F1 & V1 & D1 & C1 & P1 & L1)|(w1 & E1 & Lo)].
      2: { right. exists w1. rewrite E1. split; [reflexivity|]. exists n, j. split; [left; reflexivity|exact Lo]. }
      rewrite E1.
      destruct (IH Nd') with (w := w1) as [(tr2 & w2 & ps2 & E2 & R2 & S2 & F2 & V2 & D2 & C2 & P2 & L2)|(w2 & E2 & n0 & j0 & I0 & Lo)].
      { intros wa wb n0 j0 Rab I0. apply Pr; [exact Rab|right; exact I0]. }
      { intros n0 j0 w0 I0. apply Rc. right. exact I0. }
      { exact S1. }
      { intros n0 j0 I0. apply (Pr w w1 n0 j0 R1 (or_intror I0)), Al. right. exact I0. }
      2: { right. exists w2. rewrite E2. split; [reflexivity|]. exists n0, j0. split; [right; exact I0|exact Lo]. }
      left. exists (tr1 ++ tr2), w2, (map (cons n) ps1 ++ ps2). rewrite E2. split; [reflexivity|]. split; [eapply Rt; eassumption|]. split; [exact S2|].
      split; [apply Fa; [eapply Fk; eassumption|exact F2]|].
      split; [|split; [|split; [|split]]].
      + apply Forall2_app.
        * clear - V1 Rr. induction V1 as [|e c tr ps V1 _ IHv]; constructor; [|exact IHv]. exists n, j, c, w. split; [reflexivity|]. split; [left; reflexivity|]. auto.
        * clear - V2 R1 Rt. induction V2 as [|e c tr ps (n0 & j0 & c' & wk & -> & I0 & Rk & V0) _ IHv]; constructor; [|exact IHv].
          exists n0, j0, c', wk. split; [reflexivity|]. split; [right; exact I0|]. split; [eapply Rt; eassumption|]. auto.
      + assert (H2 : forall c, In c ps2 -> exists n0 c', c = n0 :: c' /\ In n0 (map fst l)).
        { clear - V2. induction V2 as [|e c tr ps (n0 & j0 & c' & wk & -> & I0 & _) _ IHv]; [intros ? []|]. intros c [<-|I]; [|auto].
          exists n0, c'. split; [reflexivity|]. apply (in_map fst) in I0. exact I0. }
        clear - D1 D2 H2 Nn. induction ps1 as [|p ps1 IHp]; [exact D2|]. cbn [map app]. inversion_clear D1 as [|? ? Np D1']. constructor; [|apply IHp, D1'].
        rewrite in_app_iff, in_map_iff. intros [(x & E & I)|I]; [injection E as ->; contradiction|]. destruct (H2 _ I) as (n0 & c' & E & I'). injection E as <- _. contradiction.
      + intros n0 j0 c [E|I0] G0; apply in_or_app.
        * injection E as <- <-. left. apply in_map, C1, G0.
        * right. eapply C2; eassumption.
      + intros a n0 p m b E.
        assert (Sp : (exists b', map (cons n) ps1 = a ++ (n0 :: p ++ [m]) :: b') \/ exists a', a = map (cons n) ps1 ++ a' /\ ps2 = a' ++ (n0 :: p ++ [m]) :: b).
        { clear - E. revert a E. induction (map (cons n) ps1) as [|x xs IHx]; intros a E; [right; exists a; auto|].
          destruct a as [|y a]; cbn [app] in E; injection E as -> E; [left; eexists; reflexivity|].
          destruct (IHx a E) as [[b' ->]|(a' & -> & ->)]; [left; eexists; reflexivity|right; eexists; split; reflexivity]. }
        destruct Sp as [[b' Eb]|(a' & -> & Eb)].
        * assert (exists a1 b1, ps1 = a1 ++ (p ++ [m]) :: b1 /\ a = map (cons n) a1 /\ n0 = n) as (a1 & b1 & E' & -> & ->).
          { clear - Eb. revert a Eb. induction ps1 as [|x xs IHx]; intros a E; [destruct a; discriminate|].
            destruct a as [|y a]; cbn [map app] in E; [injection E as <- <- _; exists [], xs; auto|injection E as <- E].
            destruct (IHx a E) as (a1 & b1 & -> & -> & ->). exists (x :: a1), b1. auto. }
          apply in_map. eapply P1, E'.
        * apply in_or_app. right. eapply P2, Eb.
      + apply Forall_app. split; [|exact L2]. clear - L1. induction L1; constructor; [cbn [length]; lia|assumption].
  Qed.
End loop.

(** * Going along what has been read *)
Lemma passes_app w i a j b o : passes w i a (Some j) -> passes w j b o -> passes w i (a ++ b) o.
Proof.
  intro P. remember (Some j) as x eqn:E. induction P as [i|i c n k rest o' H U N _ IH|]; intro Q; [injection E as ->; exact Q| |discriminate].
  cbn [app]. eapply passes_on; [exact H|exact U|exact N|auto].
Qed.
Lemma passes_same w w' i c o : passes w i c o -> (forall a m, passes w i a (Some m) -> w_heap w' m = w_heap w m) -> passes w' i c o.
Proof.
  intro P. induction P as [i|i c n j rest o H U N _ IH|i c n rest H U N]; intro S; [constructor| |]; pose proof (S [] i (passes_end w i)) as E.
  - eapply passes_on; [rewrite E; exact H|exact U|unfold node_at in *; rewrite E; exact N|]. apply IH. intros a m Pa. apply (S (n :: a) m). eapply passes_on; eassumption.
  - eapply passes_not; [rewrite E; exact H|exact U|unfold node_at in *; rewrite E; exact N].
Qed.
Lemma above_kept h h' i P j : (forall k c, h k = Some c -> exists c', h' k = Some c' /\ nd_name c' = nd_name c /\ nd_parent c' = nd_parent c) -> above h i P j -> above h' i P j.
Proof.
  intro K. induction 1 as [c E|P n j k _ IH [(c & E & N & Q) (d & D)]].
  - destruct (K _ _ E) as (c' & E' & _). econstructor. exact E'.
  - econstructor; [exact IH|]. destruct (K _ _ E) as (c' & E' & N' & P'). destruct (K _ _ D) as (d' & D' & _). split; [exists c'; split; [exact E'|split; congruence]|eauto].
Qed.

(** Everything below is read, no image, and ends within [d] steps. *)
Fixpoint calm (w : world) (d : nat) (j : id) : Prop :=
  match d with
  | O => False
  | S d' => exists c, w_heap w j = Some c /\ unread (nd_kind c) = false /\ is_image c = false /\ NoDup (map fst (nd_slots c)) /\ forall n k, In (n, k) (nd_slots c) -> calm w d' k
  end.
Lemma calm_passes w : forall c d j m, calm w d j -> passes w j c (Some m) -> (length c < d)%nat /\ exists d', calm w d' m.
Proof.
  induction c as [|n c IH]; intros [|d] j m C P; [destruct C| |destruct C|].
  - inversion P; subst. split; [cbn [length]; lia|]. exists (S d). exact C.
  - destruct C as (x & H & U & I & N & K). inversion P as [|? y ? k ? ? H' U' N' P'|]; subst. unfold node_at in N'. rewrite H in N'. apply get_in in N'.
    destruct (IH d k m (K _ _ N') P') as [Lt X]. split; [cbn [length]; lia|exact X].
Qed.
Lemma node_in w j c n k : w_heap w j = Some c -> NoDup (map fst (nd_slots c)) -> In (n, k) (nd_slots c) -> node_at (w_heap w) j n = Some k.
Proof. intros H N I. unfold node_at. rewrite H. apply get_some; assumption. Qed.
(** Paths, the empty one first, then those that start with a name. *)
Lemma tops (e0 : id * world) (X : id * world -> list text -> Prop) tr ps (Y : id * world -> list text -> Prop) (d : nat) : X e0 [] ->
  Forall2 Y tr ps -> (forall e c, Y e c -> X e c /\ c <> []) -> NoDup ps -> (forall a n p m b, ps = a ++ (n :: p ++ [m]) :: b -> In (n :: p) a) -> Forall (fun c => (length c < S d)%nat) ps ->
  Forall2 X (e0 :: tr) ([] :: ps) /\ NoDup ([] :: ps) /\ parents_first ([] :: ps) /\ Forall (fun c => (length c < S d)%nat) ([] :: ps).
Proof.
  intros X0 V Up D Pf Ln. split; [|split; [|split]].
  - constructor; [exact X0|]. clear - V Up. induction V as [|e c tr ps Y1 _ IH]; constructor; [apply Up, Y1|exact IH].
  - constructor; [|exact D]. clear - V Up. induction V as [|e c tr ps Y1 _ IH]; [intros []|]. intros [E|I]; [|auto]. subst c. apply Up in Y1 as [_ Y1]. apply Y1. reflexivity.
  - intros [|x a] p n b Eq; cbn [app] in Eq; [destruct p; discriminate|]. injection Eq as <- Eq. destruct p as [|m p]; [left; reflexivity|].
    right. cbn [app] in Eq. eapply Pf, Eq.
  - constructor; [cbn [length]; lia|exact Ln].
Qed.

Lemma Forall2_in_l {A B} (P : A -> B -> Prop) l l' : Forall2 P l l' -> forall a, In a l -> exists b, In b l' /\ P a b.
Proof. induction 1 as [|x y l l' H _ IH]; intros a I; [destruct I|]. destruct I as [<-|I]; [exists y; split; [left; reflexivity|exact H]|]. destruct (IH a I) as (b & Ib & Pb). exists b. split; [right; exact Ib|exact Pb]. Qed.

Section tour.
  Variable f : nat.
  Variable st : list Z -> nat -> Z.
  Variable bl : list Z -> list Z -> Z -> list Z.
  Variable ok : rd -> Prop.
  Variable s : shared.
  Hypothesis F : (0 < f)%nat.
  Variable order : list (text * id) -> list (text * id).
  Hypothesis Ord : forall l, Permutation (order l) l.
  Local Notation waits := (waits f st bl ok).
  Local Notation good := (good f ok).
  Local Notation grows := (grows f st bl ok).
  Local Notation lc := (lc f st bl ok s).
  Local Notation lcl := (lcl f st bl ok s).
  Local Notation dir_at := (dir_at f st bl ok s).
  Local Notation walk := (free_walk st bl f order).

  Lemma order_names l : NoDup (map fst l) -> NoDup (map fst (order l)).
  Proof using Ord. clear F. intro N. eapply Permutation_NoDup; [apply Permutation_map, Permutation_sym, Ord|exact N]. Qed.
  Lemma order_in l e : In e (order l) <-> In e l.
  Proof using Ord. clear F. split; apply Permutation_in; [|apply Permutation_sym]; apply Ord. Qed.

  Lemma calm_walk w : forall d j, calm w d j -> exists tr ps, walk d true w j = (Ok tr, w) /\ Forall2 (fun e c => snd e = w /\ passes w j c (Some (fst e))) tr ps /\
    NoDup ps /\ (forall c m, passes w j c (Some m) -> In c ps) /\ parents_first ps /\ Forall (fun c => (length c < d)%nat) ps.
  Proof using Ord.
    clear F. induction d as [|d IH]; intros j C; [destruct C|]. destruct C as (c & H & U & I & N & K).
    destruct (loop_gen eq (@eq_refl _) (@eq_trans _) (eq w) (fun _ j' _ => calm w d j') (fun j' _ c => exists m, passes w j' c (Some m))
      (fun _ j' _ e c => snd e = w /\ passes w j' c (Some (fst e))) (fun _ _ => True)) with (L := fun (_ : id) (_ : text) => False) (d := d) (rec := walk d true) (l := order (nd_slots c)) (w := w)
      as [(tr & w' & ps & E & <- & _ & _ & V & D & Cm & Pf & Ln)|(w' & _ & n & k & _ & [])]; auto.
    { apply order_names, N. }
    { intros n k w0 _ <- Ck. destruct (IH k Ck) as (tr & ps & E & V & D & Cm & Pf & Ln). left. exists tr, w, ps. repeat (split; auto). intros c0 (m & P). eapply Cm, P. }
    { intros n k Ik. apply (proj1 (order_in _ _)) in Ik. eapply K, Ik. }
    destruct (tops (j, w) (fun e c => snd e = w /\ passes w j c (Some (fst e))) tr ps _ d (conj eq_refl (passes_end w j)) V) as (V' & D' & Pf' & Ln'); [|exact D|exact Pf|exact Ln|].
    { intros e c0 (n & k & c' & wk & -> & Ik & <- & Se & P). split; [|discriminate]. split; [exact Se|]. apply (proj1 (order_in _ _)) in Ik. eapply passes_on; [exact H|exact U|eapply node_in; eassumption|exact P]. }
    exists ((j, w) :: tr), ([] :: ps). split.
    { cbn [free_walk]. unfold w_parse. rewrite H, U. rewrite H, E, H, I. reflexivity. }
    split; [exact V'|]. split; [exact D'|]. split; [|auto]. intros c0 m P. inversion P as [|? y n k rest ? H' U' N' P'|]; subst; [left; reflexivity|]. right.
    eapply Cm; [|eauto]. apply order_in. unfold node_at in N'. rewrite H in N'. apply get_in, N'.
  Qed.

  (** * An image that has been read *)
  Lemma good_nodes w i props a m : good w i props -> passes w i a (Some m) -> exists r Q z, (exists nm off size, w_thing w i = ThImage r nm off size) /\ follows props [] a Q /\ leads (PlImage props) Q z /\ above (w_heap w) i Q m /\
    match z with PlProp v => exists o sub cj, w_thing w m = ThProp r o /\ shows r (Node o sub) v /\ w_heap w m = Some cj /\ unread (nd_kind cj) = false /\ is_image cj = false | _ => m = i end.
  Proof using.
    intros (r & nm & off & size & c & O & T & H & K & (Nm & kids & us & Sh & Im & Ne) & _ & R) P. destruct (neat_total props Ne a) as [[Q Fo]|Mi].
    - destruct (proj1 (R a) Q Fo) as (j & z & Lz & Pj & Ab & Z). pose proof (passes_det _ _ _ _ _ P Pj) as [= <-]. exists r, Q, z. split; [eauto|]. auto.
    - pose proof (passes_det _ _ _ _ _ P (proj2 (R a) Mi)). discriminate.
  Qed.
  (** A walk below it ends where no path is too long, and only there. *)
  Lemma inner w i props : good w i props -> one_each (w_heap w) -> forall d a k, passes w i a (Some k) -> a <> [] ->
    calm w d k \/ ((exists w', walk d true w k = (OutOfFuel, w')) /\ exists y m, passes w k y (Some m) /\ (d <= length y)%nat).
  Proof using Ord.
    clear F. intros Go O. induction d as [|d IH]; intros a k P Na.
    { right. split; [eexists; reflexivity|]. exists [], k. split; [constructor|lia]. }
    assert (C : exists c, w_heap w k = Some c /\ unread (nd_kind c) = false /\ (k <> i -> is_image c = false)).
    { destruct (good_nodes w i props a k Go P) as (r & Q & z & _ & _ & _ & _ & Z). destruct z as [cs|ps|v].
      - subst k. destruct Go as (r' & nm & off & size & c & _ & _ & H & K & _). exists c. split; [exact H|]. rewrite K. split; [reflexivity|]. intro X. destruct (X eq_refl).
      - subst k. destruct Go as (r' & nm & off & size & c & _ & _ & H & K & _). exists c. split; [exact H|]. rewrite K. split; [reflexivity|]. intro X. destruct (X eq_refl).
      - destruct Z as (o & sub & cj & _ & _ & H & U & I). exists cj. auto. }
    destruct C as (c & H & U & I). pose proof (O _ _ H) as N.
    assert (Kid : forall n m, In (n, m) (nd_slots c) -> passes w k [n] (Some m)).
    { intros n m In_. eapply passes_on; [exact H|exact U|eapply node_in; eassumption|constructor]. }
    destruct (loop_gen eq (@eq_refl _) (@eq_trans _) (eq w) (fun _ j' n => passes w k [n] (Some j')) (fun _ _ _ => False)
      (fun _ _ _ _ _ => True) (fun _ _ => True)) with (L := fun (j : id) (_ : text) => exists y m, passes w j y (Some m) /\ (d <= length y)%nat) (d := d) (rec := walk d true) (l := order (nd_slots c)) (w := w)
      as [(tr & w' & ps & E & <- & _)|(w' & E & n & j & Ij & y & m & Py & Ly)]; auto.
    { apply order_names, N. }
    { intros n j w0 _ <- Pj. destruct (IH (a ++ [n]) j (passes_app _ _ _ _ _ _ P Pj) ltac:(destruct a; discriminate)) as [Cj|[(w' & E') Lo]]; [left|right; eauto].
      destruct (calm_walk w d j Cj) as (tr & ps & E & V & D & Cm & Pf & Ln). exists tr, w, ps. repeat (split; auto); [|intros ? []]. clear - V. induction V; constructor; auto. }
    { intros n j Ij. apply (proj1 (order_in _ _)) in Ij. apply Kid, Ij. }
    - (* every child came to its end *)
      left.
      assert (Al : forall n j, In (n, j) (nd_slots c) -> calm w d j).
      { intros n j Ij. destruct (IH (a ++ [n]) j (passes_app _ _ _ _ _ _ P (Kid n j Ij)) ltac:(destruct a; discriminate)) as [Cj|[(w' & E') _]]; [exact Cj|exfalso].
        apply (proj2 (order_in _ _)) in Ij. assert (X : forall l w0 tr0 w2, w_loop (walk d true) w0 l = (Ok tr0, w2) -> (forall n j, In (n, j) l -> (exists w', walk d true w j = (OutOfFuel, w')) \/ exists tr, walk d true w j = (Ok tr, w)) -> w0 = w -> In (n, j) l -> False).
        { clear - E'. induction l as [|[n0 j0] l IHl]; intros w0 tr0 w2 El Al -> I; [destruct I|]. cbn [w_loop] in El.
          destruct (Al n0 j0 (or_introl eq_refl)) as [(w3 & E3)|(tr3 & E3)]; rewrite E3 in El; [discriminate|].
          destruct I as [I|I]; [injection I as <- <-; congruence|]. destruct (w_loop (walk d true) w l) as [b w4] eqn:E4. destruct b as [b| | |]; try discriminate El.
          eapply IHl; [exact E4| |reflexivity|exact I]. intros n1 j1 I1. apply (Al n1 j1). right. exact I1. }
        eapply (X (order (nd_slots c)) w tr w E); [|reflexivity|exact Ij]. intros n1 j1 I1. apply (proj1 (order_in _ _)) in I1.
        destruct (IH (a ++ [n1]) j1 (passes_app _ _ _ _ _ _ P (Kid n1 j1 I1)) ltac:(destruct a; discriminate)) as [C1|[X1 _]]; [right|left; exact X1].
        destruct (calm_walk w d j1 C1) as (tr1 & ps1 & E1 & _). eauto. }
      exists c. split; [exact H|]. split; [exact U|]. split; [|split; [exact N|exact Al]]. apply I. intros ->.
      destruct a as [|n a]; [destruct (Na eq_refl)|]. inversion P as [|? y ? j ? ? H' U' N' P'|]; subst. unfold node_at in N'. rewrite H in N'. apply get_in in N'.
      destruct (calm_passes w _ _ _ _ (Al _ _ N') P') as [_ [d' C']]. destruct d'; [destruct C'|]. destruct C' as (c' & Hc & _ & Ic & _).
      destruct Go as (r & nm & off & size & c0 & _ & _ & H0 & K0 & _). rewrite H0 in Hc. injection Hc as <-. unfold is_image in Ic. rewrite K0 in Ic. discriminate.
    - right. apply (proj1 (order_in _ _)) in Ij. split.
      + exists w'. cbn [free_walk]. unfold w_parse. rewrite H, U. rewrite H, E. reflexivity.
      + exists (n :: y), m. split; [exact (passes_app _ _ _ _ _ _ (Kid n j Ij) Py)|cbn [length]; lia].
  Qed.

  (** * What a walk changes *)
  Definition state (w : world) (j : id) (props : list (list Z * prop)) : Prop := waits w j props \/ good w j props.
  Definition drift (w w' : world) : Prop :=
    w_next w <= w_next w' /\ (forall j, j < w_next w ->
      (w_heap w' j = w_heap w j /\ w_thing w' j = w_thing w j) \/
      (exists n p sl, w_heap w j = Some (mkCell n (KDir false) p sl) /\ w_heap w' j = Some (mkCell n (KDir true) p sl) /\ w_thing w' j = w_thing w j) \/
      (exists n k p sl k' sl', w_heap w j = Some (mkCell n k p sl) /\ w_heap w' j = Some (mkCell n k' p sl') /\ (forall b, k <> KDir b) /\ ~ top k /\ exists b, k' = KImage b)) /\
    forall j props, state w j props -> state w' j props.
  Lemma drift_refl w : drift w w.
  Proof using. clear F Ord order. split; [lia|]. auto. Qed.
  Lemma drift_trans a b c : drift a b -> drift b c -> drift a c.
  Proof using.
    clear F Ord order. intros (N1 & D1 & S1) (N2 & D2 & S2). split; [lia|]. split; [|auto]. intros j J. specialize (D1 j J). specialize (D2 j ltac:(lia)).
    destruct D1 as [[E T]|[(n & p & sl & E & E' & T)|(n & k & p & sl & k' & sl' & E & E' & Nd & Nt & bk & Kk)]].
    - rewrite E, T in D2. exact D2.
    - right. left. destruct D2 as [[E2 T2]|[(n2 & p2 & sl2 & E2 & _)|(n2 & k2 & p2 & sl2 & k2' & sl2' & E2 & _ & Nd & _)]].
      + exists n, p, sl. split; [exact E|]. split; congruence.
      + congruence.
      + rewrite E' in E2. injection E2 as _ <- _ _. destruct (Nd true eq_refl).
    - right. right. destruct D2 as [[E2 T2]|[(n2 & p2 & sl2 & E2 & _)|(n2 & k2 & p2 & sl2 & k2' & sl2' & E2 & E2' & _ & _ & Bk)]].
      + exists n, k, p, sl, k', sl'. split; [exact E|]. split; [congruence|]. eauto.
      + congruence.
      + rewrite E' in E2. injection E2 as <- <- <- <-. exists n, k, p, sl, k2', sl2'. auto.
  Qed.
  Lemma drift_cell w w' j c : bounded w -> drift w w' -> w_heap w j = Some c -> exists c', w_heap w' j = Some c' /\ nd_name c' = nd_name c /\ nd_parent c' = nd_parent c.
  Proof using.
    clear F Ord order. intros B (_ & D & _) H. destruct (D j (B _ _ H)) as [[E _]|[(n & p & sl & E & E' & _)|(n & k & p & sl & k' & sl' & E & E' & _)]].
    - exists c. rewrite E. auto.
    - rewrite H in E. injection E as ->. eexists. split; [exact E'|auto].
    - rewrite H in E. injection E as ->. eexists. split; [exact E'|auto].
  Qed.
  Lemma drift_above w w' i P j : bounded w -> drift w w' -> above (w_heap w) i P j -> above (w_heap w') i P j.
  Proof using. intros B D. apply above_kept. intros k c H. eapply drift_cell; eassumption. Qed.
  Lemma drift_child w w' n j k : bounded w -> drift w w' -> child_of (w_heap w) n j k -> child_of (w_heap w') n j k.
  Proof using.
    clear F Ord order. intros B D [(c & H & N & P) (e & E)]. destruct (drift_cell w w' j c B D H) as (c' & H' & N' & P'). destruct (drift_cell w w' k e B D E) as (e' & E' & _).
    split; [exists c'; split; [exact H'|split; congruence]|eauto].
  Qed.
  Lemma drift_lc w w' : bounded w -> drift w w' -> (forall c i p name, lc w c i p name -> lc w' c i p name) /\ (forall i kids l, lcl w i kids l -> lcl w' i kids l).
  Proof using.
    clear F Ord order. intros B D. apply lc_mut.
    - intros props i p name (c & H & Nc & Pc) I W. destruct (drift_cell w w' i c B D H) as (c' & H' & N' & P'). destruct D as (N & _ & S).
      constructor; [exists c'; split; [exact H'|split; congruence]|lia|]. apply S, W.
    - intros d b kids i p name l H T I Dn _ IH. destruct D as (N & D & _). destruct (D i I) as [[E T']|[(n & q & sl & E & E' & T')|(n & k & q & sl & k' & sl' & E & _ & Nd & _)]].
      + eapply lc_dir; [rewrite E; exact H|rewrite T'; exact T|lia|exact Dn|exact IH].
      + rewrite H in E. injection E as -> -> -> <-. eapply lc_dir; [exact E'|rewrite T'; exact T|lia|exact Dn|exact IH].
      + rewrite H in E. injection E as _ <- _ _. destruct (Nd b eq_refl).
    - constructor.
    - intros. constructor; assumption.
  Qed.
  Lemma drift_dir w w' i cs : bounded w -> drift w w' -> dir_at w i cs -> dir_at w' i cs.
  Proof using.
    clear F Ord order. intros B Dr (name & k & p & l & H & I & K & L). pose proof (proj2 (drift_lc w w' B Dr) _ _ _ L) as L'. destruct Dr as (N & D & _).
    destruct (D i I) as [[E T']|[(n & q & sl & E & E' & T')|(n & k1 & q & sl & k' & sl' & E & _ & Nd & Nt & _)]].
    - exists name, k, p, l. rewrite E, T'. split; [exact H|]. split; [lia|]. auto.
    - rewrite H in E. injection E as -> -> -> <-. destruct K as [[K|K]|(b & d & K & T & Dn)]; [discriminate..|]. exists n, (KDir true), q, l. rewrite T'. split; [exact E'|]. split; [lia|]. split; [right; eauto|exact L'].
    - rewrite H in E. injection E as _ <- _ _. destruct K as [K|(b & d & -> & _)]; [destruct (Nt K)|destruct (Nd b eq_refl)].
  Qed.
  Lemma grows_drift w w' : bounded w -> grows w w' -> drift w w'.
  Proof using.
    clear F Ord order. intros B G. pose proof G as [N X]. split; [exact N|]. split.
    - intros j J. destruct (X j J) as [E|[E|(n & k & p & sl & E & U & Nd & E' & _)]]; [auto|auto|right; right]. exists n, k, p, [], (KImage true), sl. split; [exact E|]. split; [exact E'|]. split; [exact Nd|]. split; [|eauto].
      intros [->| ->]; discriminate U.
    - intros j props [W|W]; [|right; eapply grows_good; eassumption].
      pose proof W as (name' & k' & p' & r & off & size & kids & us & Hw & U & T & _).
      destruct (X j (B _ _ Hw)) as [[E T']|[(n & q & sl & E & _)|(n & k & q & sl & _ & _ & _ & _ & Y)]].
      + left. eapply same_waits; eassumption.
      + rewrite Hw in E. injection E as _ -> _ _. inversion T.
      + right. auto.
  Qed.
  (** An image lets go of its children. *)
  Lemma release w i props0 : bounded w -> good w i props0 ->
    let w' := mkWorld (unparse (w_heap w) i) (w_thing w) (w_next w) (w_cache w) in drift w w' /\ bounded w' /\ released w' i /\ forall j, j <> i -> w_heap w' j = w_heap w j.
  Proof using.
    clear F Ord order. intros B Go w'. pose proof Go as (r & nm & off & size & c & O & T & H & K & _). destruct c as [n k p sl]. cbn [nd_kind] in K. subst k.
    assert (U : unparse (w_heap w) i = put (w_heap w) i (mkCell n (KImage false) p [])) by (unfold unparse; rewrite H; reflexivity).
    assert (Hi : w_heap w' i = Some (mkCell n (KImage false) p [])) by (cbn [w' w_heap]; rewrite U; unfold put; rewrite Z.eqb_refl; reflexivity).
    assert (Al : forall j, j <> i -> w_heap w' j = w_heap w j) by (intros j Ne; cbn [w' w_heap]; rewrite U; unfold put; replace (j =? i) with false by lia; reflexivity).
    split; [|split; [|split; [exists n, p; exact Hi|exact Al]]].
    - split; [cbn; lia|]. split.
      + intros j J. destruct (Z.eq_dec j i) as [->|Ne]; [|left; split; [apply Al, Ne|reflexivity]]. right. right. exists n, (KImage true), p, sl, (KImage false), [].
        split; [exact H|]. split; [exact Hi|]. split; [discriminate|]. split; [intros [X|X]; discriminate|eauto].
      + intros j props S. destruct (Z.eq_dec j i) as [->|Ne].
        * left. destruct S as [(n1 & k1 & p1 & r1 & off1 & size1 & kids & us & H1 & U1 & _)|(r1 & nm1 & off1 & size1 & c1 & O1 & T1 & H1 & K1 & (N1 & kids & us & Sh & Im & Nt) & _)].
          { rewrite H in H1. injection H1 as _ <- _ _. discriminate U1. }
          rewrite H in H1. injection H1 as <-. cbn [nd_name] in N1. subst nm1. exists n, (KImage false), p, r1, off1, size1, kids, us. split; [exact Hi|]. split; [reflexivity|].
          split; [cbn [w' w_thing]; rewrite T1; constructor|]. auto.
        * destruct S as [W|Gj]; [left; eapply same_waits; [apply Al, Ne|reflexivity|exact W]|right].
          assert (Sm : forall a m, passes w j a (Some m) -> w_heap w' m = w_heap w m).
          { intros a m P. apply Al. intros ->. destruct (good_nodes w j props a i Gj P) as (r1 & Q & z & _ & _ & _ & _ & Z). destruct z as [cs|ps|v]; [congruence|congruence|].
            destruct Z as (o & sub & cj & Tj & _). congruence. }
          destruct Gj as (r1 & nm1 & off1 & size1 & c1 & O1 & T1 & H1 & K1 & Ag & So & R). exists r1, nm1, off1, size1, c1. split; [exact O1|]. split; [exact T1|]. split; [rewrite Al by exact Ne; exact H1|].
          split; [exact K1|]. split; [exact Ag|]. split.
          { destruct So as [So Ro]. split.
            2: { intros comps Q v m Fo Lv Pm. destruct (proj1 (R comps) Q Fo) as (m' & _ & _ & Qm & _). pose proof (passes_det _ _ _ _ _ Pm (passes_same _ _ _ _ _ Qm Sm)) as [= ->].
                 assert (Ce : forall k ck, w_heap w k = Some ck -> exists ck', w_heap w' k = Some ck' /\ nd_name ck' = nd_name ck /\ nd_parent ck' = nd_parent ck).
                 { intros k ck Hk. destruct (Z.eq_dec k i) as [->|Nk]; [|exists ck; rewrite Al by exact Nk; auto]. rewrite H in Hk. injection Hk as <-. eexists. split; [exact Hi|auto]. }
                 assert (Ch : forall n x y, child_of (w_heap w) n x y -> child_of (w_heap w') n x y).
                 { intros n0 x y [(cx & Ex & Nx & Px) (cy & Ey)]. destruct (Ce _ _ Ex) as (cx' & Ex' & Nx' & Px'). destruct (Ce _ _ Ey) as (cy' & Ey' & _).
                   split; [exists cx'; split; [exact Ex'|split; congruence]|eauto]. }
                 pose proof (Ro comps Q v m' Fo Lv Qm) as Wi. clear - Wi Ch Al H. induction Wi as [n0 x C|n0 x k c C E Uk Nk _ IH]; [eapply within_first, Ch, C|].
                 eapply within_more; [apply Ch, C| |exact Uk|exact Nk|exact IH]. rewrite Al; [exact E|]. intros ->. rewrite H in E. injection E as <-. destruct (Nk true) as [X _]. destruct (X eq_refl). }
            intros a b Q j1 j2 Fa Fb Pa Pb. destruct (proj1 (R a) Q Fa) as (ja & _ & _ & Qa & _). destruct (proj1 (R b) Q Fb) as (jb & _ & _ & Qb & _).
            pose proof (passes_det _ _ _ _ _ Pa (passes_same _ _ _ _ _ Qa Sm)) as [= ->]. pose proof (passes_det _ _ _ _ _ Pb (passes_same _ _ _ _ _ Qb Sm)) as [= ->]. exact (So a b Q _ _ Fa Fb Qa Qb). }
          intro comps. destruct (R comps) as [R1 R2]. split; [|intro M; eapply passes_same; [apply R2, M|exact Sm]].
          intros Q Fo. destruct (R1 Q Fo) as (m & z & Lz & Pm & Ab & Z). exists m, z. split; [exact Lz|]. split; [eapply passes_same; eassumption|]. split.
          -- eapply above_kept; [|exact Ab]. intros k ck Hk. destruct (Z.eq_dec k i) as [->|Nk]; [|exists ck; rewrite Al by exact Nk; auto]. rewrite H in Hk. injection Hk as <-. eexists. split; [exact Hi|auto].
          -- destruct z as [cs|ps|v]; try exact Z. destruct Z as (o & sub & cj & Tj & Shj & Hj & Uj & Ij). exists o, sub, cj. split; [exact Tj|]. split; [exact Shj|]. split; [rewrite (Sm _ _ Pm); exact Hj|]. auto.
    - intros j c' E. cbn [w' w_next]. destruct (Z.eq_dec j i) as [->|Ne]; [apply (B i _ H)|]. rewrite Al in E by exact Ne. apply (B j c' E).
  Qed.

  (** * Directories and images *)
  (** The places that names lead to from a directory or an image. *)
  Definition reach (c : content) (comps Q : list (list Z)) (z : place) : Prop :=
    match c with CDir kids => gets kids comps Q z | CImage props => follows props [] comps Q /\ leads (PlImage props) Q z end.
  Definition at_content (w : world) (c : content) (i : id) : Prop :=
    match c with CDir kids => dir_at w i kids | CImage props => state w i props end.
  Lemma lc_content w c i p name : lc w c i p name -> at_content w c i /\ exists x, w_heap w i = Some x /\ nd_name x = name /\ nd_parent x = p.
  Proof using.
    intro L. inversion L as [props ? ? ? C I W|d b kids ? ? ? l H T I D R]; subst; cbn [at_content]; [auto|]. split; [|eexists; split; [exact H|auto]].
    exists name, (KDir b), p, l. split; [exact H|]. split; [exact I|]. split; [right; eauto|exact R].
  Qed.
  Definition visited (w : world) (i : id) (e : id * world) (Q : list text) (z : place) : Prop :=
    standing st bl ok (snd e) (fst e) z /\ drift w (snd e) /\ above (w_heap (snd e)) i Q (fst e) /\
    forall ps, z = PlImage ps -> exists c, w_heap (snd e) (fst e) = Some c /\ picture c = true.
  Definition rest_ok (w : world) : Prop := bounded w /\ one_each (w_heap w).
  Definition moves (w w' : world) : Prop := drift w w' /\ settles w w' /\ (bounded w -> bounded w').
  Lemma moves_refl w : moves w w.
  Proof using. clear F Ord order. split; [apply drift_refl|]. split; [apply settles_refl|auto]. Qed.
  Lemma moves_trans a b c : moves a b -> moves b c -> moves a c.
  Proof using. clear F Ord order. intros (X1 & X2 & X3) (Y1 & Y2 & Y3). split; [eapply drift_trans; eassumption|]. split; [eapply settles_trans; eassumption|auto]. Qed.

  (** Reading a directory leaves the images alone. *)
  Lemma dir_settles w i cs w1 : dir_at w i cs -> w_parse st bl f w i i = (Ok tt, w1) -> settles w w1.
  Proof using F.
    intros (name & k & p & l & H & I & K & R). destruct K as [K|(b & d & -> & T & D)].
    - assert (U : unread k = false) by (destruct K as [->| ->]; reflexivity). unfold w_parse. rewrite H. cbn [nd_kind]. rewrite U. intros [= <-]. apply settles_refl.
    - destruct b; [unfold w_parse; rewrite H; cbn [nd_kind unread negb]; intros [= <-]; apply settles_refl|].
      unfold w_parse. rewrite H. cbn [unread nd_kind negb]. unfold w_load. rewrite T, (done_children f st s d D F).
      cbn [plant_list]. unfold parse. rewrite H. cbn [nd_kind]. unfold parse_as. cbn [set_thing w_heap w_thing w_next w_cache]. rewrite H. cbn [fold_left nd_name nd_parent nd_slots].
      intros [= <-]. intros j c E P. left. cbn [w_heap]. unfold put. destruct (Z.eqb_spec j i) as [->|Ne]; [|exact E]. rewrite H in E. injection E as <-. discriminate P.
  Qed.

  Theorem walk_content : forall d c w i, rest_ok w -> at_content w c i ->
    (exists tr w' ps, walk d true w i = (Ok tr, w') /\ moves w w' /\ rest_ok w' /\ frees tr w' /\
       Forall2 (fun e comps => exists Q z, reach c comps Q z /\ visited w i e Q z) tr ps /\ NoDup ps /\ (forall comps, (exists Q z, reach c comps Q z) -> In comps ps) /\
       parents_first ps /\ Forall (fun comps => (length comps < d)%nat) ps) \/
    (exists w', walk d true w i = (OutOfFuel, w') /\ exists comps Q z, reach c comps Q z /\ (d <= length comps)%nat).
  Proof using F Ord.
    induction d as [|d IH]; intros c w i [B O] A.
    { right. exists w. split; [reflexivity|]. exists [], [], (place_of c). split; [destruct c; cbn [reach]; [split; constructor|constructor]|lia]. }
    destruct c as [props|cs]; cbn [at_content] in A.
    - (* an image *)
      clear IH.
      assert (Pa : exists w1, w_parse st bl f w i i = (Ok tt, w1) /\ bounded w1 /\ grows w w1 /\ good w1 i props /\ forall j, j <> i -> j < w_next w -> w_heap w1 j = w_heap w j).
      { destruct A as [A|A].
        - destruct (read_grows f st bl ok s F w i props B A) as (w1 & E & B1 & G & Go). exists w1. split; [exact E|]. split; [exact B1|]. split; [exact G|]. split; [exact Go|].
          destruct (read_good f st bl ok s F w i props B A) as (w2 & E2 & (_ & _ & Al & _) & _). rewrite E in E2. injection E2 as <-. intros j Ne J. apply Al; assumption.
        - exists w. pose proof A as (r & nm & off & size & c & _ & _ & H & K & _). split; [unfold w_parse; rewrite H, K; reflexivity|]. split; [exact B|]. split; [apply grows_refl, F|]. split; [exact A|]. intros j _ _. reflexivity. }
      destruct Pa as (w1 & E1 & B1 & G1 & Go & Al1). pose proof (one_parse st bl f w i i O) as O1. rewrite E1 in O1. cbn [snd] in O1.
      pose proof Go as (r & nm & off & size & c & Okr & T & H & K & Ag & So & R). pose proof (O1 _ _ H) as N.
      assert (Kid : forall n m, In (n, m) (nd_slots c) -> passes w1 i [n] (Some m)).
      { intros n m In_. eapply passes_on; [exact H|rewrite K; reflexivity|eapply node_in; eassumption|constructor]. }
      destruct (loop_gen eq (@eq_refl _) (@eq_trans _) (eq w1) (fun _ j n => passes w1 i [n] (Some j)) (fun j _ c => exists m, passes w1 j c (Some m))
        (fun _ j _ e c => snd e = w1 /\ passes w1 j c (Some (fst e))) (fun _ _ => True)) with (L := fun (j : id) (_ : text) => exists y m, passes w1 j y (Some m) /\ (d <= length y)%nat) (d := d) (rec := walk d true) (l := order (nd_slots c)) (w := w1)
        as [(tr & w' & ps & E & <- & _ & _ & V & D & Cm & Pf & Ln)|(w' & E & n & j & Ij & y & m & Py & Ly)]; auto.
      { apply order_names, N. }
      { intros n j w0 _ <- Pj. destruct (inner w1 i props Go O1 d [n] j Pj ltac:(discriminate)) as [Cj|[(w' & E') Lo]]; [left|right; eauto].
        destruct (calm_walk w1 d j Cj) as (tr & ps & E & V & D & Cm & Pf & Ln). exists tr, w1, ps. repeat (split; auto). intros c0 (m & P). eapply Cm, P. }
      { intros n j Ij. apply (proj1 (order_in _ _)) in Ij. apply Kid, Ij. }
      + left. destruct (release w1 i props B1 Go) as (D2 & B2 & Rl & Al2). set (w2 := mkWorld (unparse (w_heap w1) i) (w_thing w1) (w_next w1) (w_cache w1)) in *.
        assert (See : forall e comps, snd e = w1 -> passes w1 i comps (Some (fst e)) -> exists Q z, reach (CImage props) comps Q z /\ visited w i e Q z).
        { intros [k wk] comps Ew P. cbn [fst snd] in *. subst wk. destruct (good_nodes w1 i props comps k Go P) as (r1 & Q & z & Tr & Fo & Lz & Ab & Z). exists Q, z. split; [split; assumption|].
          split; [|split; [apply grows_drift; assumption|split; [exact Ab|]]].
          - cbn [fst snd]. eapply good_standing; [exact Go|exact Lz|]. intros r' (a1 & a2 & a3 & T'). destruct Tr as (b1 & b2 & b3 & Tr). rewrite Tr in T'. injection T' as <- _ _ _. exact Z.
          - intros ps' ->. cbn [fst snd]. subst k. exists c. split; [exact H|]. unfold picture. rewrite K. reflexivity. }
        destruct (tops (i, w1) (fun e c0 => snd e = w1 /\ passes w1 i c0 (Some (fst e))) tr ps _ d (conj eq_refl (passes_end w1 i)) V) as (V' & D' & Pf' & Ln'); [|exact D|exact Pf|exact Ln|].
        { intros e c0 (n & k & c' & wk & -> & Ik & <- & Se & P). split; [|discriminate]. split; [exact Se|]. apply (proj1 (order_in _ _)) in Ik. exact (passes_app _ _ _ _ _ _ (Kid n k Ik) P). }
        exists ((i, w1) :: tr), w2, ([] :: ps). split.
        { cbn [free_walk]. rewrite E1, H, E, H. unfold is_image. rewrite K. reflexivity. }
        split.
        { split; [eapply drift_trans; [apply grows_drift; eassumption|exact D2]|]. split; [|intros _; exact B2].
          intros j cj Cj _. destruct (Z.eq_dec j i) as [->|Ne]; [right; exact Rl|left]. rewrite Al2, Al1; [exact Cj|exact Ne|exact (B _ _ Cj)|exact Ne]. }
        split; [split; [exact B2|apply one_unparse, O1]|]. split.
        { intros e ce Ie Ce Pe. destruct (Forall2_in_l _ _ _ V' e Ie) as (c0 & _ & Ew & P). rewrite Ew in Ce.
          destruct (good_nodes w1 i props c0 (fst e) Go P) as (r1 & Q & z & _ & _ & _ & _ & Z). destruct z as [cs|ps'|v]; [rewrite Z; exact Rl|rewrite Z; exact Rl|].
          destruct Z as (o & sub & cj & _ & _ & Hj & Uj & Im). rewrite Hj in Ce. injection Ce as <-. exfalso. unfold picture, is_image in *. destruct (nd_kind cj); discriminate. }
        split; [|split; [exact D'|split; [|auto]]].
        { clear - V' See. induction V' as [|e c0 tr' ps' [Ew P] _ IHv]; constructor; [apply See; assumption|exact IHv]. }
        intros comps (Q & z & Fo & Lz). destruct (proj1 (R comps) Q Fo) as (m & _ & _ & P & _). destruct comps as [|n rest]; [left; reflexivity|right].
        inversion P as [|? y ? k ? ? H' U' N' P'|]; subst. eapply Cm; [|eauto]. apply order_in. unfold node_at in N'. rewrite H in N'. apply get_in, N'.
      + right. exists w'. split; [cbn [free_walk]; rewrite E1, H, E; reflexivity|]. apply (proj1 (order_in _ _)) in Ij. pose proof (passes_app _ _ _ _ _ _ (Kid n j Ij) Py) as P.
        destruct (good_nodes w1 i props _ m Go P) as (r1 & Q & z & _ & Fo & Lz & _). exists ([n] ++ y), Q, z. split; [split; assumption|exact (le_n_S _ _ Ly)].
    - (* a directory *)
      destruct (dir_parse f st bl ok s F w i cs B A) as (w1 & E1 & B1 & G1 & (c1 & H1 & U1) & In1 & No1 & _). pose proof (dir_settles w i cs w1 A E1) as S1.
      pose proof (one_parse st bl f w i i O) as O1. rewrite E1 in O1. cbn [snd] in O1. pose proof (O1 _ _ H1) as N.
      pose proof (grows_dir f st bl ok s F w w1 i cs B G1 A) as A1.
      assert (Kind : forall w' c', dir_at w' i cs -> w_heap w' i = Some c' -> is_image c' = false /\ picture c' = false).
      { intros w' c' (n0 & k0 & p0 & l0 & H0 & _ & K0 & _) H'. rewrite H' in H0. injection H0 as ->. destruct K0 as [[->| ->]|(b & d0 & -> & _)]; split; reflexivity. }
      assert (Kids : forall n j, In (n, j) (nd_slots c1) -> exists c, last_named cs n c /\ lc w1 c j (Some i) n).
      { intros n j Ij. pose proof (node_in w1 i c1 n j H1 N Ij) as Nn.
        assert (La : (exists x, last_named cs n x) \/ ~ In n (map fst cs)).
        { clear. induction cs as [|[k x] l IH]; [right; intros []|]. destruct IH as [(y & pre & post & -> & N)|N].
          - left. exists y, ((k, x) :: pre), post. auto.
          - destruct (list_eq_dec Z.eq_dec k n) as [->|D]; [left; exists x, [], l; auto|right]. cbn [map fst In]. tauto. }
        destruct La as [(c & La)|La]; [|rewrite (No1 n La) in Nn; discriminate]. destruct (In1 n c La) as (j' & Nj & Lj). assert (j' = j) as -> by congruence. eauto. }
      destruct (loop_gen moves moves_refl moves_trans
        rest_ok (fun w' j n => bounded w' /\ dir_at w' i cs /\ exists c, last_named cs n c /\ lc w' c j (Some i) n) (fun j n comps => exists c Q z, last_named cs n c /\ reach c comps Q z)
        (fun w' j n e comps => exists c Q z, last_named cs n c /\ reach c comps Q z /\ visited w' j e Q z) frees)
        with (L := fun (j : id) (n : text) => exists c comps Q z, last_named cs n c /\ reach c comps Q z /\ (d <= length comps)%nat) (d := d) (rec := walk d true) (l := order (nd_slots c1)) (w := w1)
        as [(tr & w2 & ps & E & R2 & St2 & Fr2 & V & D & Cm & Pf & Ln)|(w' & E & n & j & Ij & c & comps & Q & z & La & Re & Ly)].
      { intros a b tr (_ & S2 & _) Fr e ce Ie Ce Pe. eapply settles_keep; [exact S2|]. eapply Fr; eassumption. }
      { intros a e ce []. }
      { intros a b w0 Fa Fb e ce Ie Ce Pe. apply in_app_iff in Ie as [Ie|Ie]; [eapply Fa|eapply Fb]; eassumption. }
      { apply order_names, N. }
      { intros a b n j (Dr & _ & Bb) _ (Ba & Da & c & La & Lj). split; [auto|]. split; [eapply drift_dir; eassumption|]. exists c. split; [exact La|]. eapply drift_lc; eassumption. }
      { intros n j w0 _ St0 (B0 & D0 & c & La & Lj). destruct (lc_content _ _ _ _ _ Lj) as [Aj _].
        destruct (IH c w0 j St0 Aj) as [(tr & w2 & ps & E & Mv & St2 & Fr & V & D & Cm & Pf & Ln)|(w' & E & comps & Q & z & Re & Ly)].
        - left. exists tr, w2, ps. split; [exact E|]. split; [exact Mv|]. split; [exact St2|]. split; [exact Fr|]. split; [|split; [exact D|split; [|auto]]].
          + clear - V La. induction V as [|e comps tr ps (Q & z & Re & Vi) _ IHv]; constructor; [|exact IHv]. exists c, Q, z. auto.
          + intros comps (c' & Q & z & La' & Re). rewrite (last_unique _ _ _ _ La' La) in Re. apply Cm. eauto.
        - right. exists w'. split; [exact E|]. exists c, comps, Q, z. auto. }
      { split; assumption. }
      { intros n j Ij. apply (proj1 (order_in _ _)) in Ij. split; [exact B1|]. split; [exact A1|]. apply Kids, Ij. }
      + left. pose proof R2 as (Dr2 & Se2 & Bd2). pose proof (drift_dir w1 w2 i cs B1 Dr2 A1) as A2. pose proof A2 as (n2 & k2 & p2 & l2 & H2 & _).
        assert (X0 : exists Q z, gets cs [] Q z /\ visited w i (i, w1) Q z).
        { exists [], (PlDir cs). split; [constructor|]. cbn [visited fst snd standing]. split; [|split; [apply grows_drift; assumption|split; [econstructor; exact H1|discriminate]]].
          destruct A1 as (n0 & k0 & p0 & l0 & H0 & _ & K0 & _). eexists. split; [exact H0|]. cbn [nd_kind]. destruct K0 as [[->| ->]|(b & d0 & -> & _)]; eauto. }
        destruct (tops (i, w1) (fun e comps => exists Q z, gets cs comps Q z /\ visited w i e Q z) tr ps _ d X0 V) as (V' & D' & Pf' & Ln'); [|exact D|exact Pf|exact Ln|].
        { intros e comps (n & j & c' & wk & -> & Ij & (Drk & _ & Bk) & c & Q & z & La & Re & Sd & Dr & Ab & Pi). split; [|discriminate]. apply (proj1 (order_in _ _)) in Ij.
          destruct (Kids n j Ij) as (c0 & La0 & Lj). rewrite (last_unique _ _ _ _ La0 La) in Lj. destruct (lc_content _ _ _ _ _ Lj) as (_ & x & Hx & Nx & Px).
          exists (n :: Q), z. split; [destruct c; cbn [reach] in Re; [destruct Re; eapply gets_image; eassumption|eapply gets_dir; eassumption]|].
          split; [exact Sd|]. split; [eapply drift_trans; [apply grows_drift; eassumption|]; eapply drift_trans; eassumption|]. split; [|exact Pi].
          assert (Ch : child_of (w_heap (snd e)) n j i) by (eapply drift_child; [exact B1|eapply drift_trans; eassumption|split; [exists x; auto|eauto]]).
          change (n :: Q) with ([n] ++ Q). eapply above_join; [|exact Ab]. change [n] with ([] ++ [n]). econstructor; [|exact Ch]. destruct (proj2 Ch) as (y & Hy). econstructor. exact Hy. }
        exists ((i, w1) :: tr), w2, ([] :: ps). split.
        { cbn [free_walk]. rewrite E1, H1, E, H2. rewrite (proj1 (Kind w2 _ A2 H2)). rewrite andb_false_r. reflexivity. }
        split; [eapply moves_trans; [|exact R2]; split; [apply grows_drift; assumption|split; [exact S1|auto]]|]. split; [exact St2|]. split.
        { intros e ce [<-|Ie] Ce Pe; [|eapply Fr2; eassumption]. cbn [fst snd] in Ce. destruct (Kind w1 ce A1 Ce). congruence. }
        split; [exact V'|]. split; [exact D'|]. split; [|auto].
        intros comps (Q & z & Ge). cbn [reach] in Ge. inversion Ge as [|? n kids rest Q' ? L Ge'|? n props rest Q' ? L Fo Lz]; subst; [left; reflexivity| |]; right.
        * destruct (In1 n _ L) as (j & Nj & _). eapply Cm; [apply order_in; unfold node_at in Nj; rewrite H1 in Nj; apply get_in, Nj|]. exists (CDir kids), Q', z. auto.
        * destruct (In1 n _ L) as (j & Nj & _). eapply Cm; [apply order_in; unfold node_at in Nj; rewrite H1 in Nj; apply get_in, Nj|]. exists (CImage props), Q', z. cbn [reach]. auto.
      + right. exists w'. split; [cbn [free_walk]; rewrite E1, H1, E; reflexivity|]. exists (n :: comps), (n :: Q), z.
        split; [cbn [reach]; destruct c; cbn [reach] in Re; [destruct Re; eapply gets_image; eassumption|eapply gets_dir; eassumption]|cbn [length]; lia].
  Qed.

  (** * No lock is in the way *)
  Lemma passes_often w j c : passes w j c (Some j) -> forall n, passes w j (concat (repeat c n)) (Some j).
  Proof using. clear. intros P n. induction n as [|n IH]; [constructor|]. cbn [repeat concat]. exact (passes_app _ _ _ _ _ _ P IH). Qed.
  Lemma calm_round w d j c : calm w d j -> passes w j c (Some j) -> c = [].
  Proof using.
    clear. intros C P. destruct c as [|n c]; [reflexivity|]. exfalso. destruct (calm_passes w _ d j j C (passes_often w j _ P d)) as [L _].
    assert (X : forall d, (d <= length (concat (repeat (n :: c) d)))%nat) by (clear; induction d as [|d IH]; [cbn; lia|]; cbn [repeat concat]; rewrite app_length; cbn [length]; lia).
    apply (Nat.lt_irrefl d). eapply Nat.le_lt_trans; [exact (X d)|exact L].
  Qed.
  Lemma calm_locked w : forall d j rd tr, calm w d j -> (forall c m, passes w j c (Some m) -> ~ In m rd) -> walk d true w j = (Ok tr, w) ->
    w_walk_in st bl f order rd d true w j = (Ok tr, w).
  Proof using Ord.
    clear F. induction d as [|d IH]; intros j rd tr C N E; [destruct C|]. pose proof C as (c & H & U & I & Nd & K). cbn [free_walk w_walk_in] in *.
    rewrite held_not by (apply (N [] j), passes_end). cbn [andb]. unfold w_parse in *. rewrite H, U in *. rewrite H in *.
    destruct (w_loop (walk d true) w (order (nd_slots c))) as [[a| | |] w2] eqn:L; try discriminate E.
    rewrite (loop_same (eq w) (walk d true) (w_walk_in st bl f order (j :: rd) d true) (order (nd_slots c))) with (tr := a) (w' := w2); [exact E| |reflexivity|exact L].
    intros n k wk tk wk' Ik <- Ek. apply (proj1 (order_in _ _)) in Ik. pose proof (K n k Ik) as Ck. destruct (calm_walk w d k Ck) as (t' & _ & E' & _).
    rewrite Ek in E'. injection E' as -> ->. split; [|reflexivity]. apply IH; [exact Ck| |exact Ek].
    assert (Kid : passes w j [n] (Some k)) by (eapply passes_on; [exact H|exact U|eapply node_in; eassumption|constructor]).
    intros c0 m P [<-|Im]; [|exact (N _ _ (passes_app _ _ _ _ _ _ Kid P) Im)].
    pose proof (calm_round w (S d) j _ C (passes_app _ _ _ _ _ _ Kid P)) as X. discriminate X.
  Qed.
  Lemma above_up h i Q m l : above h i Q m -> up h i l -> exists l2, up h m (l2 ++ l).
  Proof using.
    clear. induction 1 as [c E|P n j k A IH [(c & E & N & Q) _]]; intro U; [exists []; exact U|]. destruct (IH U) as (l2 & U2). exists (k :: l2). cbn [app]. eapply up_on; eassumption.
  Qed.
  Theorem content_locked : forall d c w i rd l tr w', rest_ok w -> at_content w c i -> up (w_heap w) i l -> incl rd l ->
    walk d true w i = (Ok tr, w') -> w_walk_in st bl f order rd d true w i = (Ok tr, w').
  Proof using F Ord.
    induction d as [|d IH]; intros c w i rd l tr w' [B O] A U In_ E; [discriminate|]. cbn [free_walk w_walk_in] in *.
    rewrite held_not by (intro I; exact (up_out _ _ _ U (In_ _ I))). cbn [andb].
    assert (Up : forall wk, drift w wk -> up (w_heap wk) i l).
    { intros wk Dr. eapply up_kept; [|exact U]. intros k ck Ck. destruct (drift_cell w wk k ck B Dr Ck) as (c' & C' & _ & P'). eauto. }
    pose proof (one_parse st bl f w i i O) as O1. destruct c as [props|cs]; cbn [at_content] in A.
    - assert (Pa : exists w1, w_parse st bl f w i i = (Ok tt, w1) /\ bounded w1 /\ grows w w1 /\ good w1 i props).
      { destruct A as [A|A].
        - destruct (read_grows f st bl ok s F w i props B A) as (w1 & E1 & B1 & G & Go). exists w1. auto.
        - exists w. pose proof A as (r & nm & off & size & c & _ & _ & H & K & _). split; [unfold w_parse; rewrite H, K; reflexivity|]. split; [exact B|]. split; [apply grows_refl, F|exact A]. }
      destruct Pa as (w1 & E1 & B1 & G1 & Go). rewrite E1 in *. cbn [snd] in O1. pose proof Go as (r & nm & off & size & c & Okr & T & H & K & Ag & So & R). rewrite H in *. pose proof (O1 _ _ H) as N.
      destruct (w_loop (walk d true) w1 (order (nd_slots c))) as [[a| | |] w2] eqn:L; try discriminate E.
      rewrite (loop_same (eq w1) (walk d true) (w_walk_in st bl f order (i :: rd) d true) (order (nd_slots c))) with (tr := a) (w' := w2); [exact E| |reflexivity|exact L].
      intros n k wk tk wk' Ik <- Ek. apply (proj1 (order_in _ _)) in Ik.
      assert (Kid : passes w1 i [n] (Some k)) by (eapply passes_on; [exact H|rewrite K; reflexivity|eapply node_in; eassumption|constructor]).
      destruct (inner w1 i props Go O1 d [n] k Kid ltac:(discriminate)) as [Ck|[(wo & Eo) _]]; [|rewrite Ek in Eo; discriminate].
      destruct (calm_walk w1 d k Ck) as (t' & _ & E' & _). rewrite Ek in E'. injection E' as -> ->. split; [|reflexivity]. apply calm_locked; [exact Ck| |exact Ek].
      intros c0 m P Im.
      assert (Ni : m <> i).
      { intros ->. destruct (calm_passes w1 c0 d k i Ck P) as [_ [[|d'] Ci]]; [destruct Ci|]. destruct Ci as (ci & Hi & _ & Ii & _). rewrite H in Hi. injection Hi as <-. unfold is_image in Ii. rewrite K in Ii. discriminate. }
      destruct Im as [Im|Im]; [congruence|]. pose proof (passes_app _ _ _ _ _ _ Kid P) as Pm. destruct (good_nodes w1 i props _ m Go Pm) as (_ & Q & _ & _ & _ & _ & Ab & _).
      destruct (above_up _ _ _ _ l Ab (Up w1 (grows_drift w w1 B G1))) as (l2 & Um).
      apply (up_out _ _ _ Um). apply in_or_app. right. apply In_, Im.
    - destruct (dir_parse f st bl ok s F w i cs B A) as (w1 & E1 & B1 & G1 & (c1 & H1 & U1) & In1 & No1 & _). rewrite E1 in *. cbn [snd] in O1. rewrite H1 in *. pose proof (O1 _ _ H1) as N.
      destruct (w_loop (walk d true) w1 (order (nd_slots c1))) as [[a| | |] w2] eqn:L; try discriminate E.
      rewrite (loop_same (fun wk => rest_ok wk /\ moves w1 wk) (walk d true) (w_walk_in st bl f order (i :: rd) d true) (order (nd_slots c1))) with (tr := a) (w' := w2);
        [exact E| |split; [split; assumption|apply moves_refl]|exact L].
      intros n j wk tk wk' Ij [Rk Mk] Ek. apply (proj1 (order_in _ _)) in Ij. pose proof (node_in w1 i c1 n j H1 N Ij) as Nn.
      assert (La : (exists x, last_named cs n x) \/ ~ In n (map fst cs)).
      { clear. induction cs as [|[k x] l IH]; [right; intros []|]. destruct IH as [(y & pre & post & -> & N)|N].
        - left. exists y, ((k, x) :: pre), post. auto.
        - destruct (list_eq_dec Z.eq_dec k n) as [->|D]; [left; exists x, [], l; auto|right]. cbn [map fst In]. tauto. }
      destruct La as [(c & La)|La]; [|rewrite (No1 n La) in Nn; discriminate]. destruct (In1 n c La) as (j' & Nj & Lj). assert (j' = j) as -> by congruence.
      pose proof (proj1 (drift_lc w1 wk B1 (proj1 Mk)) _ _ _ _ Lj) as Lk. destruct (lc_content _ _ _ _ _ Lk) as (Ak & x & Hx & _ & Px). split.
      + apply (IH c wk j (i :: rd) (i :: l) tk wk' Rk Ak).
        * eapply up_on; [exact Hx|exact Px|]. apply Up. eapply drift_trans; [apply grows_drift; eassumption|exact (proj1 Mk)].
        * intros y [<-|Iy]; [left; reflexivity|right; apply In_, Iy].
        * exact Ek.
      + destruct (walk_content d c wk j Rk Ak) as [(t2 & w3 & ps & E3 & M3 & R3 & _)|(w3 & E3 & _)]; rewrite Ek in E3; [|discriminate]. injection E3 as _ <-.
        split; [exact R3|]. eapply moves_trans; eassumption.
  Qed.
End tour.
