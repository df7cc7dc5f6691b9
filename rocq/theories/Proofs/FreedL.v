(** Lemmas: forced walks let go of the images they meet, whatever the file. *)
From Coq Require Import ZArith List Bool Lia.
From Verif.Model Require Import Base Utf Keys Reader Directory Image File Node Ms World.
From Verif.Proofs Require Import NodeL UolL WorldL LinkedL LinkWorldL.
Import ListNotations.
Open Scope Z_scope.

(** * What making nodes leaves alone *)
(** The nodes there were are as they were; the links found are new, and so are their parents, but for [p]. *)
Definition grown (p : id) (w w' : world) (us : list id) : Prop :=
  w_next w <= w_next w' /\ (forall j, j < w_next w -> w_heap w' j = w_heap w j) /\ (bounded w -> bounded w') /\
  forall u, In u us -> w_next w <= u < w_next w' /\ exists c q, w_heap w' u = Some c /\ nd_parent c = Some q /\ (q = p \/ w_next w <= q).
Lemma grown_refl p w : grown p w w [].
Proof. split; [lia|]. split; [auto|]. split; [auto|intros ? []]. Qed.
Lemma grown_app p a b c us vs : grown p a b us -> grown p b c vs -> grown p a c (us ++ vs).
Proof.
  intros (N1 & F1 & B1 & U1) (N2 & F2 & B2 & U2). split; [lia|]. split; [intros j J; rewrite F2 by lia; apply F1, J|]. split; [auto|].
  intros u I. apply in_app_or in I as [I|I].
  - destruct (U1 u I) as (R & c0 & q & E & P & Q). split; [lia|]. exists c0, q. rewrite F2 by lia. auto.
  - destruct (U2 u I) as (R & c0 & q & E & P & Q). split; [lia|]. exists c0, q. split; [exact E|]. split; [exact P|]. destruct Q; [auto|right; lia].
Qed.
Lemma grown_fresh p w n t o : grown p w (fst (fresh w n t o)) [].
Proof.
  destruct (fresh w n t o) as [w1 i] eqn:E. destruct (fresh_ok _ _ _ _ _ _ E) as (-> & N & K & _ & _ & B). cbn [fst]. split; [lia|]. split; [|split; [exact B|intros ? []]].
  intros j J. apply (proj2 K j J).
Qed.
Lemma grown_list {A} p (g : world -> text -> A -> world * id * list id) l : Forall (fun e => forall w, grown p w (fst (fst (g w (fst e) (snd e)))) (snd (g w (fst e) (snd e)))) l ->
  forall w, grown p w (fst (fst (plant_list g w l))) (snd (plant_list g w l)).
Proof.
  induction 1 as [|[n x] l H _ IH]; intro w; [apply grown_refl|]. rewrite plant_list_cons. cbn [fst snd] in H. specialize (H w).
  destruct (g w n x) as [[w1 i] us]. specialize (IH w1). destruct (plant_list g w1 l) as [[w2 l'] us']. cbn [fst snd] in *. eapply grown_app; eassumption.
Qed.
Lemma grown_node p w n t o w1 i w2 l us : fresh w n t o = (w1, i) -> grown i w1 w2 us -> grown p w (fill w2 i l) us /\ (o = Some p -> grown p w (fill w2 i l) (i :: us)).
Proof.
  intros E (N & F & B & U). destruct (fresh_ok _ _ _ _ _ _ E) as (-> & N1 & K & C & _ & B1). rewrite <- (F (w_next w)) in C by lia.
  destruct (fill_ok w2 (w_next w) l _ _ _ _ C) as (Ci & Fi & _ & Ni).
  assert (X : grown p w (fill w2 (w_next w) l) us).
  { split; [lia|]. split; [|split].
    - intros j J. rewrite Fi by lia. rewrite F by lia. apply (proj2 K j J).
    - intros Bw j c H. rewrite Ni. destruct (Z.eq_dec j (w_next w)) as [->|Ne]; [lia|]. rewrite Fi in H by exact Ne. exact (B (B1 Bw) j c H).
    - intros u I. destruct (U u I) as (R & c & q & H & P & Q). split; [lia|]. exists c, q. rewrite Fi by lia. split; [exact H|]. split; [exact P|]. right. destruct Q; lia. }
  split; [exact X|]. intros ->. destruct X as (X1 & X2 & X3 & X4). split; [exact X1|]. split; [exact X2|]. split; [exact X3|]. intros u [<-|I]; [|exact (X4 u I)].
  split; [lia|]. exists (mkCell n (kind_of t) (Some p) (fold_left (fun s e => slot_insert s (fst e) (snd e)) l [])), p. auto.
Qed.
Lemma grown_plant r : forall n p w name, grown p w (fst (fst (plant r p w name n))) (snd (plant r p w name n)).
Proof.
  fix IH 1. intros [o kids] p w name. cbn [plant]. destruct (fresh w name (ThProp r o) (Some p)) as [w1 i] eqn:E.
  assert (K : Forall (fun e => forall w, grown i w (fst (fst (plant r i w (fst e) (snd e)))) (snd (plant r i w (fst e) (snd e)))) kids).
  { clear E. induction kids as [|[n x] kids IHk]; constructor; [|exact IHk]. intro w2. cbn [fst snd]. apply IH. }
  pose proof (grown_list i (plant r i) kids K w1) as L. destruct (plant_list (plant r i) w1 kids) as [[w2 l] us]. cbn [fst snd] in *.
  destruct (grown_node p _ _ _ _ _ _ _ l _ E L) as [G1 G2]. destruct o; try exact G1. exact (G2 eq_refl).
Qed.
Lemma grown_plant_dir s : forall n p w name, grown p w (fst (fst (plant_dir s p w name n))) (snd (plant_dir s p w name n)).
Proof.
  fix IH 1. intros [off size|d kids|] p w name; cbn [plant_dir fst snd]; [apply grown_fresh| |apply grown_fresh].
  destruct (fresh w name (ThDir s d) (Some p)) as [w1 i] eqn:E.
  assert (K : Forall (fun e => forall w, grown i w (fst (fst (plant_dir s i w (fst e) (snd e)))) (snd (plant_dir s i w (fst e) (snd e)))) kids).
  { clear E. induction kids as [|[n x] kids IHk]; constructor; [|exact IHk]. intro w2. cbn [fst snd]. apply IH. }
  pose proof (grown_list i (plant_dir s i) kids K w1) as L. destruct (plant_list (plant_dir s i) w1 kids) as [[w2 l] us]. cbn [fst snd] in *.
  exact (proj1 (grown_node p _ _ _ _ _ _ _ l _ E L)).
Qed.
Lemma grown_less p w w' us : grown p w w' us -> grown p w w' [].
Proof. intros (A & B & C & _). split; [exact A|]. split; [exact B|]. split; [exact C|intros ? []]. Qed.
Lemma load_grown st bl f w p i : grown p w (snd (w_load st bl f w p i)) (match fst (w_load st bl f w p i) with Ok (_, us) => us | _ => [] end).
Proof.
  unfold w_load.
  assert (D : forall s w kids, grown p w (fst (fst (plant_list (plant_dir s p) w kids))) (snd (plant_list (plant_dir s p) w kids))).
  { intros s w0 kids. apply grown_list. apply Forall_forall. intros e _ w2. apply grown_plant_dir. }
  assert (P : forall r w kids, grown p w (fst (fst (plant_list (plant r p) w kids))) (snd (plant_list (plant r p) w kids))).
  { intros r w0 kids. apply grown_list. apply Forall_forall. intros e _ w2. apply grown_plant. }
  assert (M : forall buf w kids, grown p w (fst (fst (plant_list (plant_ms buf p) w kids))) (snd (plant_list (plant_ms buf p) w kids))).
  { intros b w0 kids. apply grown_list. apply Forall_forall. intros e _ w2. unfold plant_ms. apply grown_fresh. }
  pose proof (grown_refl p w) as R.
  assert (Th : forall t, grown p w (set_thing w i t) []) by (intro t; exact R).
  destruct (w_thing w i) as [buf iv ex patch|s d|r nm off size|buf h|buf e|r o].
  - destruct (rbind _ _) as [[h x]| | |]; try exact R. specialize (D (shared_of st buf h x) (set_cache w (pf_cache x)) (pf_kids x)). destruct (plant_list _ _ _) as [[w1 l] us]. first [exact D|exact (grown_less _ _ _ _ D)].
  - destruct (resolve_children _ _ _ _ _ _ _) as [[kids| | |] d']; try exact R. specialize (D s (set_thing w i (ThDir s d')) kids). destruct (plant_list _ _ _) as [[w1 l] us]. first [exact D|exact (grown_less _ _ _ _ D)].
  - destruct (image_children _ _ _ _ _) as [[kids us0]| | |]; try exact R. specialize (P r w kids). destruct (plant_list _ _ _) as [[w1 l] us]. exact P.
  - destruct (ms_parse _ _ _) as [es| | |]; try exact R. specialize (M buf w (map (fun e => (me_name e, e)) es)). destruct (plant_list _ _ _) as [[w1 l] us]. first [exact M|exact (grown_less _ _ _ _ M)].
  - destruct (rbind _ _) as [[r kids]| | |]; try exact R. specialize (P r (set_thing w i (ThImage r (me_name e) 0 (wrap 64 (me_size e)))) kids). destruct (plant_list _ _ _) as [[w1 l] us]. exact P.
  - exact R.
Qed.
(** Reading a node changes no other. *)
Definition apart (w w' : world) (i : id) : Prop := w_next w <= w_next w' /\ (forall j, j < w_next w -> j <> i -> w_heap w' j = w_heap w j) /\ (bounded w -> bounded w').
Lemma resolved_where im us : forall h h' j, resolve_all im us (Ok h) = Ok h' -> h' j <> None -> h j <> None.
Proof.
  intros h h' j H. destruct (resolve_all_frame _ _ _ _ H) as [S _]. specialize (S j). destruct (h j); [discriminate|]. destruct (h' j); [destruct S|auto].
Qed.
Lemma parse_apart st bl f w i : bounded w -> apart w (snd (w_parse st bl f w i i)) i.
Proof.
  intro Bw. assert (R : apart w w i) by (split; [lia|split; auto]). unfold w_parse. destruct (w_heap w i) as [c|] eqn:E; [|exact R]. destruct (unread (nd_kind c)); [|exact R].
  pose proof (load_grown st bl f w i i) as G. destruct (w_load st bl f w i i) as [r w1]. cbn [fst snd] in G.
  assert (L : apart w w1 i) by (destruct G as (A & B & C & _); split; [exact A|split; [intros j J _; exact (B j J)|exact C]]).
  destruct r as [[kids us]| | |]; try exact L. destruct (parse _ (w_heap w) [] i i) as [h| | |] eqn:P; cbn [snd]; try exact L.
  assert (X : forall k, parse_as (fun _ _ _ => Some (w_heap w1, kids, us)) (w_heap w) [] i i k = Ok h -> apart w (mkWorld h (w_thing w1) (w_next w1) (w_cache w1)) i).
  { intro k. unfold parse_as. destruct (w_heap w1 i) as [c1|] eqn:E1; [|discriminate].
    set (sl := fold_left _ kids (nd_slots c1)). intro Q. change (resolve_all i us (Ok (put (w_heap w1) i (mkCell (nd_name c1) k (nd_parent c1) sl))) = Ok h) in Q.
    destruct G as (A & B & C & U). destruct L as (_ & L & _). pose proof (Bw i c E) as Bi. split; [exact A|]. split.
    - intros j J Ne. cbn [w_heap]. rewrite (resolve_all_cells _ _ _ _ j Q).
      + unfold put. replace (j =? i) with false by lia. apply B, J.
      + intros u cu Iu. destruct (U u Iu) as (Ru & c2 & q & E2 & Pq & Qq). unfold put. replace (u =? i) with false by lia. rewrite E2. intros [= <-]. rewrite Pq. intros [= ->]. lia.
    - intros _ j d H. cbn [w_heap w_next] in *. assert (T : put (w_heap w1) i (mkCell (nd_name c1) k (nd_parent c1) sl) j <> None) by (eapply resolved_where; [exact Q|rewrite H; discriminate]).
      unfold put in T. destruct (Z.eqb_spec j i) as [->|Ne]; [exact (C Bw i c1 E1)|]. destruct (w_heap w1 j) as [d1|] eqn:Ej; [exact (C Bw j d1 Ej)|contradiction]. }
  unfold parse in P. rewrite E in P. destruct (nd_kind c) as [[]|[]|[]| |[]| |]; try (injection P as <-; split; [apply L|split; [auto|intros _ j d H; pose proof (Bw j d H); cbn [w_next]; destruct L as [L1 _]; lia]]); eapply X, P.
Qed.

(** * Walks *)
(** An image, read or not, and one without its children. *)
Definition img (w : world) (i : id) : Prop := exists c b, w_heap w i = Some c /\ nd_kind c = KImage b.
Definition gone (w : world) (i : id) : Prop := exists c, w_heap w i = Some c /\ nd_kind c = KImage false /\ nd_slots c = [].
Lemma gone_img w i : gone w i -> img w i.
Proof. intros (c & E & K & _). exists c, false. auto. Qed.
Lemma parse_img st bl f w i : bounded w -> img w i -> img (snd (w_parse st bl f w i i)) i.
Proof.
  intros Bw (c & b & E & K). unfold w_parse. rewrite E. destruct (unread (nd_kind c)); [|exists c, b; auto].
  pose proof (load_grown st bl f w i i) as (_ & G & _). pose proof (Bw i c E) as Bi. destruct (w_load st bl f w i i) as [r w1]. cbn [fst snd] in G.
  assert (L : img w1 i) by (exists c, b; rewrite (G i Bi); auto).
  destruct r as [[kids us]| | |]; try exact L. destruct (parse _ (w_heap w) [] i i) as [h| | |] eqn:P; cbn [snd]; try exact L.
  unfold parse in P. rewrite E, K in P. destruct b; [injection P as <-; exists c, true; auto|]. unfold parse_as in P. rewrite (G i Bi), E in P.
  set (sl := fold_left _ kids (nd_slots c)) in P. change (resolve_all i us (Ok (put (w_heap w1) i (mkCell (nd_name c) (KImage true) (nd_parent c) sl))) = Ok h) in P.
  destruct (resolve_all_frame _ _ _ _ P) as [S _]. specialize (S i). unfold put in S. rewrite Z.eqb_refl in S. destruct (h i) as [d|] eqn:Eh; [|destruct S].
  exists d, true. split; [exact Eh|]. cbn [nd_kind] in S. intuition congruence.
Qed.
Definition drop (w : world) (i : id) : world := mkWorld (unparse (w_heap w) i) (w_thing w) (w_next w) (w_cache w).
Lemma drop_apart w i : apart w (drop w i) i.
Proof.
  unfold apart, drop. cbn [w_next w_heap]. split; [lia|]. unfold unparse.
  split; [intros j _ Ne|intros Bw j d H; cbn [w_next w_heap] in *]; destruct (w_heap w i) as [c|] eqn:E; try reflexivity; try exact (Bw j d H);
    (destruct (nd_kind c); try reflexivity; try exact (Bw j d H); unfold put in *); try (replace (j =? i) with false by lia; reflexivity);
    (destruct (Z.eqb_spec j i) as [->|]; [exact (Bw i c E)|exact (Bw j d H)]).
Qed.
Lemma drop_gone w i : img w i -> gone (drop w i) i.
Proof.
  intros (c & b & E & K). unfold gone, drop. cbn [w_heap]. unfold unparse. rewrite E, K. unfold put. rewrite Z.eqb_refl. eexists. split; [reflexivity|]. split; reflexivity.
Qed.
Lemma drop_keeps w i j : (img w j -> img (drop w i) j) /\ (gone w j -> gone (drop w i) j).
Proof.
  destruct (Z.eq_dec j i) as [->|Ne].
  - split; [intro H; apply gone_img, drop_gone, H|intro H; apply drop_gone, gone_img, H].
  - assert (X : w_heap (drop w i) j = w_heap w j).
    { unfold drop. cbn [w_heap]. unfold unparse. destruct (w_heap w i) as [c|]; [|reflexivity]. destruct (nd_kind c); try reflexivity; unfold put; replace (j =? i) with false by lia; reflexivity. }
    unfold img, gone. rewrite X. auto.
Qed.
(** Images stay images, and those let go stay so. *)
Definition free (w w' : world) : Prop := bounded w' /\ (forall j, img w j -> img w' j) /\ forall j, gone w j -> gone w' j.
Lemma free_trans a b c : free a b -> free b c -> free a c.
Proof. intros (_ & A2 & A3) (B1 & B2 & B3). split; [exact B1|]. split; auto. Qed.
Definition freed (w : world) (e : id * world) : Prop := img (snd e) (fst e) -> gone w (fst e).
Section walk.
  Variable st : list Z -> nat -> Z.
  Variable bl : list Z -> list Z -> Z -> list Z.
  Variable f : nat.
  Variable order : list (text * id) -> list (text * id).
  Lemma loop_free rec : (forall w i tr w', bounded w -> rec w i = (Ok tr, w') -> free w w' /\ Forall (freed w') tr) ->
    forall l w tr w', bounded w -> w_loop rec w l = (Ok tr, w') -> free w w' /\ Forall (freed w') tr.
  Proof.
    intro R. induction l as [|[n j] l IH]; intros w tr w' Bw E; [injection E as <- <-; split; [split; [exact Bw|split; auto]|constructor]|]. cbn [w_loop] in E.
    destruct (rec w j) as [[a| | |] w1] eqn:Ej; try discriminate E. destruct (R _ _ _ _ Bw Ej) as [F1 T1]. pose proof F1 as (B1 & _).
    destruct (w_loop rec w1 l) as [[b| | |] w2] eqn:El; try discriminate E. injection E as <- <-. destruct (IH _ _ _ B1 El) as [F2 T2]. split; [eapply free_trans; eassumption|].
    apply Forall_app. split; [|exact T2]. eapply Forall_impl; [|exact T1]. intros e Fe I. apply (proj2 (proj2 F2)), Fe, I.
  Qed.
  Lemma walk_free d : forall rd w i tr w', bounded w -> w_walk_in st bl f order rd d true w i = (Ok tr, w') -> free w w' /\ Forall (freed w') tr.
  Proof.
    induction d as [|d IH]; intros rd w i tr w' Bw E; [discriminate E|]. cbn [w_walk_in andb] in E. destruct (held i rd); [discriminate E|].
    pose proof (parse_apart st bl f w i Bw) as (N1 & A1 & B1). pose proof (parse_img st bl f w i Bw) as I1. specialize (B1 Bw). destruct (w_parse st bl f w i i) as [r w1]. cbn [snd] in *.
    assert (E' : match w_heap w1 i with
        | None => (Panic, w1)
        | Some c =>
          match w_loop (w_walk_in st bl f order (i :: rd) d true) w1 (order (nd_slots c)) with
          | (Ok l, w2) => (Ok ((i, w1) :: l), match w_heap w2 i with Some c2 => if is_image c2 then mkWorld (unparse (w_heap w2) i) (w_thing w2) (w_next w2) (w_cache w2) else w2 | None => w2 end)
          | x => x
          end
        end = (Ok tr, w')) by (destruct r; try discriminate E; exact E). clear E.
    destruct (w_heap w1 i) as [c|]; [|discriminate E']. destruct (w_loop _ w1 (order (nd_slots c))) as [[l| | |] w2] eqn:El; try discriminate E'.
    destruct (loop_free _ (IH (i :: rd)) _ _ _ _ B1 El) as [(B2 & I2 & G2) T2].
    assert (X : free w2 w' /\ (img w2 i -> gone w' i)).
    { injection E' as _ <-. destruct (w_heap w2 i) as [c2|] eqn:E2; [|split; [split; [exact B2|split; auto]|intros (c0 & b & X & _); congruence]].
      destruct (is_image c2) eqn:Im.
      - split; [|apply drop_gone]. split; [exact (proj2 (proj2 (drop_apart w2 i)) B2)|]. split; intros j; apply drop_keeps.
      - split; [split; [exact B2|split; auto]|]. intros (c0 & b & X & K). rewrite E2 in X. injection X as <-. unfold is_image in Im. rewrite K in Im. discriminate Im. }
    destruct X as [F3 G3]. injection E' as <- _. pose proof F3 as (B3 & I3 & G3').
    assert (Same : forall j c, w_heap w j = Some c -> j <> i -> w_heap w1 j = Some c) by (intros j c0 H Ne; rewrite A1; [exact H|exact (Bw j c0 H)|exact Ne]).
    split.
    - split; [exact B3|]. split.
      + intros j H. apply I3, I2. destruct (Z.eq_dec j i) as [->|Ne]; [apply I1, H|]. destruct H as (c0 & b & H & K). exists c0, b. split; [apply Same; assumption|exact K].
      + intros j H. destruct (Z.eq_dec j i) as [->|Ne]; [apply G3, I2, I1, gone_img, H|]. apply G3', G2. destruct H as (c0 & H & K). exists c0. split; [apply Same; assumption|exact K].
    - constructor; [intro H; apply G3, I2, H|]. eapply Forall_impl; [|exact T2]. intros e Fe I. apply G3', Fe, I.
  Qed.
  Lemma bounded_parse w i : bounded w -> bounded (snd (w_parse st bl f w i i)).
  Proof. intro B. exact (proj2 (proj2 (parse_apart st bl f w i B)) B). Qed.
  Lemma bounded_lookup w i path : bounded w -> bounded (snd (w_at_path_parsed st bl f w i path)).
  Proof.
    intro B. unfold w_at_path_parsed. destruct (split_slash path) as [|a l]; [exact B|]. destruct (node_at (w_heap w) i a) as [n|]; [|exact B]. revert w n B.
    induction l as [|m l IH]; intros w n B; [exact B|]. cbn [w_fold]. pose proof (bounded_parse w n B) as P. destruct (w_parse st bl f w n n) as [[| | |] w1]; cbn [snd] in *; try exact P.
    destruct (node_at (w_heap w1) n m); [apply IH, P|exact P].
  Qed.
  Lemma bounded_walk d : forall rd force w i, bounded w -> bounded (snd (w_walk_in st bl f order rd d force w i)).
  Proof.
    induction d as [|d IH]; intros rd force w i B; [exact B|]. cbn [w_walk_in]. destruct (force && held i rd); [exact B|].
    assert (P : bounded (snd (if force then w_parse st bl f w i i else (Ok tt, w)))) by (destruct force; [apply bounded_parse, B|exact B]).
    assert (Lp : forall l w, bounded w -> bounded (snd (w_loop (w_walk_in st bl f order (i :: rd) d force) w l))).
    { induction l as [|[n j] l IHl]; intros w0 B0; [exact B0|]. cbn [w_loop]. specialize (IH (i :: rd) force w0 j B0). destruct (w_walk_in st bl f order (i :: rd) d force w0 j) as [[a| | |] w1]; cbn [snd] in *; try exact IH.
      specialize (IHl w1 IH). destruct (w_loop _ w1 l) as [x w2]. exact IHl. }
    destruct (if force then w_parse st bl f w i i else (Ok tt, w)) as [[| | |] w1]; cbn [snd] in *; try exact P;
      (destruct (w_heap w1 i) as [c|]; [|exact P]; specialize (Lp (order (nd_slots c)) w1 P); destruct (w_loop _ w1 _) as [[l| | |] w2]; cbn [snd] in *; try exact Lp;
       destruct (w_heap w2 i) as [c2|]; [|exact Lp]; destruct (force && is_image c2); [|exact Lp]; exact (proj2 (proj2 (drop_apart w2 i)) Lp)).
  Qed.
End walk.
Lemma bounded_first n t cache : bounded (fst (fresh (nowhere cache) n t None)).
Proof. intros j c H. unfold fresh, nowhere in *. cbn [fst w_heap w_next] in *. unfold put in H. destruct (Z.eqb_spec j 0); [lia|discriminate H]. Qed.
