(** Lemmas on walking. *)
From Coq Require Import ZArith List Bool Lia Arith.
From Verif.Model Require Import Base Utf Image Node.
From Verif.Spec Require Import PathSpec Tree.
From Verif.Proofs Require Import ImageL NodeL UolL.

Lemma shape_rect' (P : shape -> Prop)
  (H : forall i kids, (forall n s, In (n, s) kids -> P s) -> P (Shape i kids)) : forall s, P s.
Proof.
  fix F 1. intros [i kids]. apply H. induction kids as [|[m x] r IH]; intros n s I; [destruct I|].
  destruct I as [E|I]; [injection E as <- <-; apply F|exact (IH n s I)].
Qed.

Lemma walk_shape load h s : shaped h s -> forall fuel rd, (length (nodes s) <= fuel)%nat ->
  walk_node load fuel false rd h (top s) = Ok (h, nodes s).
Proof.
  induction s as [i kids IH] using shape_rect'. intros S fuel rd Hf. inversion_clear S as [? ? c E D L K].
  cbn [nodes length] in Hf. destruct fuel as [|f]; [lia|]. apply le_S_n in Hf. cbn [walk_node andb top]. cbn [rbind].
  rewrite E, L.
  assert (W : walk_loop (walk_node load f false (i :: rd)) h (map (fun e => (fst e, top (snd e))) kids)
              = Ok (h, flat_map (fun e => nodes (snd e)) kids)).
  { clear -IH K Hf. induction kids as [|[n s] kids IHk]; [reflexivity|].
    cbn [flat_map snd] in Hf. rewrite app_length in Hf. cbn [map walk_loop fst snd].
    rewrite (IH n s (or_introl eq_refl) (K n s (or_introl eq_refl)) f (i :: rd)) by lia. cbn [rbind fst].
    rewrite IHk; [reflexivity|intros m t I; apply (IH m t (or_intror I))|lia|intros m t I; apply (K m t (or_intror I))]. }
  rewrite W. cbn [rbind fst snd]. rewrite E. reflexivity.
Qed.

Lemma shaped_alive h s : shaped h s -> exists c, h (top s) = Some c.
Proof. intros [i kids c E]. eauto. Qed.
Lemma slot_shape h i kids c n j : h i = Some c -> nd_slots c = map (fun e => (fst e, top (snd e))) kids ->
  slot h i n j -> exists s, In (n, s) kids /\ top s = j.
Proof.
  intros E L (c' & E' & _ & I). rewrite E in E'. injection E' as <-. rewrite L in I.
  apply in_map_iff in I as ([m s] & [= -> <-] & I). eauto.
Qed.
Lemma shape_slot h i kids c n s : h i = Some c -> nd_slots c = map (fun e => (fst e, top (snd e))) kids ->
  NoDup (map fst kids) -> In (n, s) kids -> slot h i n (top s).
Proof.
  intros E L D I. exists c. split; [exact E|]. rewrite L. split.
  - rewrite map_map. cbn. exact D.
  - apply in_map_iff. exists (n, s). auto.
Qed.

Lemma down_nodes h s : shaped h s -> forall p j, down h (top s) p j -> In j (nodes s).
Proof.
  induction s as [i kids IH] using shape_rect'. intros S p j H. inversion S as [? ? c E D L K]; subst.
  cbn [top] in H. destruct H as [|i n k p j Sl H]; [left; reflexivity|].
  destruct (slot_shape _ _ _ _ _ _ E L Sl) as (s & I & <-). right. apply in_flat_map.
  exists (n, s). split; [exact I|]. apply (IH n s I (K n s I) p j H).
Qed.
Lemma nodes_down h s : shaped h s -> forall j, In j (nodes s) -> exists p, down h (top s) p j.
Proof.
  induction s as [i kids IH] using shape_rect'. intros S j H. inversion S as [? ? c E D L K]; subst.
  destruct H as [<-|H]; [exists []; eapply down_here; exact E|].
  apply in_flat_map in H as ([n s] & I & H). destruct (IH n s I (K n s I) j H) as [p Hp].
  exists (n :: p). eapply down_step; [|exact Hp]. eapply shape_slot; eassumption.
Qed.

Lemma shaped_sub h s i : shaped h s -> In i (nodes s) -> exists kids, shaped h (Shape i kids) /\
  exists a b, nodes s = a ++ nodes (Shape i kids) ++ b.
Proof.
  induction s as [x kids IH] using shape_rect'. intros S H. inversion S as [? ? c E D L K]; subst.
  destruct H as [<-|H].
  - exists kids. split; [exact S|]. exists [], []. rewrite app_nil_r. reflexivity.
  - apply in_flat_map in H as ([n s] & I & H). destruct (IH n s I (K n s I) H) as (ks & Sk & a & b & N).
    exists ks. split; [exact Sk|]. apply in_split in I as (l1 & l2 & ->).
    exists (x :: flat_map (fun e => nodes (snd e)) l1 ++ a), (b ++ flat_map (fun e => nodes (snd e)) l2).
    cbn [nodes]. rewrite flat_map_app. cbn [flat_map snd]. cbn [snd] in N. rewrite N. cbn [nodes].
    rewrite <- !app_comm_cons, <- !app_assoc, <- !app_comm_cons, <- !app_assoc. reflexivity.
Qed.
Lemma parent_first h s i n j : shaped h s -> In i (nodes s) -> slot h i n j ->
  exists a b c, nodes s = a ++ i :: b ++ j :: c.
Proof.
  intros S I Sl. destruct (shaped_sub _ _ _ S I) as (kids & Sk & a & b & N). rewrite N.
  inversion Sk as [? ? c E D L K]; subst. destruct (slot_shape _ _ _ _ _ _ E L Sl) as (s' & Is & <-).
  apply in_split in Is as (l1 & l2 & ->). destruct s' as [y ky]. cbn [nodes top]. rewrite flat_map_app.
  cbn [flat_map snd nodes]. rewrite <- !app_comm_cons. rewrite <- !app_assoc. rewrite <- app_comm_cons.
  eexists a, _, _. reflexivity.
Qed.

(** * With parsing *)
Definition bare (h : heap) (j : id) : Prop :=
  exists c, h j = Some c /\ (is_image c = true -> nd_kind c = KImage false /\ nd_slots c = []).

Lemma replace_bare h p n t j : bare h j -> bare (replace_child h p n t) j.
Proof.
  intros (c & E & B). unfold replace_child, node_at, insert_child. destruct (h p) as [cp|] eqn:Ep; [|exists c; auto].
  destruct (slot_get (nd_slots cp) n) eqn:G; [|exists c; auto].
  destruct (Z.eq_dec j p) as [->|H].
  - rewrite E in Ep. injection Ep as <-. eexists. rewrite put_same. split; [reflexivity|]. cbn [nd_kind nd_slots].
    intro I. unfold is_image in *. cbn [nd_kind] in I. destruct (B I) as [_ Z]. rewrite Z in G. discriminate.
  - exists c. rewrite put_other by exact H. auto.
Qed.
Lemma resolve_bare h lk b u h' j : resolve_uol h lk b u = Ok h' -> bare h j -> bare h' j.
Proof.
  unfold resolve_uol. destruct (held u lk); [discriminate|]. destruct (h u) as [c|]; [|discriminate].
  destruct (upgrade h (nd_parent c)); [|discriminate].
  destruct (nd_kind c) as [| | | | |[tg|]|]; try (intros [= <-]; auto).
  destruct (try_fold _ _ _); [|intros [= <-]; auto].
  destruct (held _ lk); [destruct b|]; intros [= <-]; auto using replace_bare.
Qed.

Lemma parse_as_bare load h i p k h' j : only_adds load -> parse_as load h [] i p k = Ok h' ->
  (j <> i -> bare h j -> bare h' j) /\ exists c, h' i = Some c.
Proof.
  intros A. unfold parse_as. destruct (load h p i) as [[[h1 kids] uols]|] eqn:L; [|discriminate].
  destruct (h1 i) as [c|] eqn:E; [|discriminate]. cbv zeta.
  set (h2 := put h1 i _). intro R. fold (resolve_all i uols (Ok h2)) in R. split.
  - intros Hj (cj & Ej & B). assert (B2 : bare h2 j).
    { exists cj. unfold h2. rewrite put_other by exact Hj. split; [apply (A _ _ _ _ _ _ L _ _ Ej)|exact B]. }
    clearbody h2. clear -R B2. revert h2 R B2. induction uols as [|u uols IH]; intros h2 R B2; [injection R as <-; exact B2|].
    cbn [resolve_all fold_left rbind] in R. destruct (resolve_all_bad _ _ _ _ R) as [a Ra]. rewrite Ra in R.
    apply (IH a R). eapply resolve_bare; eassumption.
  - destruct (resolve_all_frame _ _ _ _ R) as [S _]. specialize (S i). unfold h2 in S. rewrite put_same in S.
    destruct (h' i); [eauto|contradiction].
Qed.
Lemma parse_bare load h i p h' j : only_adds load -> parse load h [] i p = Ok h' ->
  (j <> i -> bare h j -> bare h' j) /\ exists c, h' i = Some c.
Proof.
  intros A. unfold parse. destruct (h i) as [c|] eqn:E; [|discriminate].
  assert (T : Ok h = Ok h' -> (j <> i -> bare h j -> bare h' j) /\ exists c, h' i = Some c).
  { intros [= <-]. split; [auto|eauto]. }
  destruct (nd_kind c) as [b|b|b| |b| |]; try destruct b; try exact T; apply parse_as_bare; exact A.
Qed.

Lemma unparse_other h i j : j <> i -> unparse h i j = h j.
Proof.
  intro H. unfold unparse. destruct (h i) as [c|]; [|reflexivity].
  destruct (nd_kind c); try reflexivity; apply put_other, H.
Qed.

Definition kept (h h' : heap) : Prop := forall j c, h j = Some c -> exists c', h' j = Some c'.
Lemma kept_refl h : kept h h. Proof. intros j c E. eauto. Qed.
Lemma kept_trans a b c : kept a b -> kept b c -> kept a c.
Proof. intros H K j x E. destruct (H _ _ E) as [y F]. eauto. Qed.
Lemma put_kept h i c : kept h (put h i c).
Proof. intros j x E. unfold put. destruct (j =? i); eauto. Qed.
Lemma same_kept h h' : same_but_slots h h' -> kept h h'.
Proof. intros S j c E. specialize (S j). rewrite E in S. destruct (h' j); [eauto|contradiction]. Qed.
Lemma unparse_kept h i : kept h (unparse h i).
Proof. unfold unparse. destruct (h i) as [c|]; [|apply kept_refl]. destruct (nd_kind c); auto using kept_refl, put_kept. Qed.
Lemma parse_kept load h i p h' : only_adds load -> parse load h [] i p = Ok h' -> kept h h'.
Proof.
  intros A. unfold parse. destruct (h i) as [c|] eqn:E; [|discriminate].
  assert (T : Ok h = Ok h' -> kept h h') by (intros [= <-]; apply kept_refl).
  assert (P : forall k, parse_as load h [] i p k = Ok h' -> kept h h').
  { intros k. unfold parse_as. destruct (load h p i) as [[[h1 kids] uols]|] eqn:L; [|discriminate].
    destruct (h1 i) as [c1|] eqn:E1; [|discriminate]. cbv zeta.
    set (h2 := put h1 i _). intro R. fold (resolve_all i uols (Ok h2)) in R.
    destruct (resolve_all_frame _ _ _ _ R) as [S _]. apply (kept_trans _ h2); [|apply same_kept, S].
    apply (kept_trans _ h1); [|apply put_kept]. intros j cj Ej. exists cj. apply (A _ _ _ _ _ _ L _ _ Ej). }
  destruct (nd_kind c) as [b|b|b| |b| |]; try destruct b; try exact T; apply P.
Qed.
Lemma walk_kept load : only_adds load -> forall force fuel rd h i h' tr,
  walk_node load fuel force rd h i = Ok (h', tr) -> kept h h'.
Proof.
  intros A force. induction fuel as [|f IH]; intros rd h i h' tr; [discriminate|]. cbn [walk_node].
  destruct (force && held i rd); [discriminate|].
  set (m := if force then _ else _).
  assert (M : forall h1, m = Ok h1 -> kept h h1).
  { unfold m. intros h1 E. destruct force; [|injection E as <-; apply kept_refl].
    destruct (parse load h [] i i) eqn:P; try discriminate; injection E as <-; [|apply kept_refl].
    eapply parse_kept; eassumption. }
  destruct m as [h1| | |]; try discriminate. cbn [rbind]. specialize (M h1 eq_refl).
  destruct (h1 i) as [c|] eqn:E1; [|discriminate].
  destruct (walk_loop _ h1 (nd_slots c)) as [[h2 t]| | |] eqn:W; try discriminate. cbn [rbind fst snd].
  assert (Lp : forall l h1 h2 t, walk_loop (walk_node load f force (i :: rd)) h1 l = Ok (h2, t) -> kept h1 h2).
  { clear -IH. induction l as [|[n k] l IHl]; intros h1 h2 t W.
    - injection W as <- <-. apply kept_refl.
    - cbn [walk_loop] in W. destruct (walk_node load f force (i :: rd) h1 k) as [[ha ta]| | |] eqn:Wa; try discriminate.
      cbn [rbind fst snd] in W. destruct (walk_loop _ ha l) as [[hb tb]| | |] eqn:Wb; try discriminate.
      cbn [rbind fst snd] in W. injection W as <- <-. eapply kept_trans; eauto. }
  intros [= <- <-]. eapply kept_trans; [exact M|]. eapply kept_trans; [apply (Lp _ _ _ _ W)|].
  destruct (h2 i) as [c2|]; [|apply kept_refl]. destruct (force && is_image c2); auto using kept_refl, unparse_kept.
Qed.

Lemma walk_bare load : only_adds load -> forall fuel rd h i h' tr,
  walk_node load fuel true rd h i = Ok (h', tr) ->
  forall j, bare h j \/ In j tr -> bare h' j.
Proof.
  intro A. induction fuel as [|f IH]; intros rd h i h' tr; [discriminate|]. cbn [walk_node andb].
  destruct (held i rd); [discriminate|].
  set (m := match parse load h [] i i with Err _ => Ok h | x => x end).
  assert (M : forall h1, m = Ok h1 -> forall j, j <> i -> bare h j -> bare h1 j).
  { unfold m. intros h1 E j Hj B. destruct (parse load h [] i i) eqn:P; try discriminate; injection E as <-; [|exact B].
    apply (parse_bare _ _ _ _ _ _ A P); assumption. }
  destruct m as [h1| | |]; try discriminate. cbn [rbind]. specialize (M h1 eq_refl).
  destruct (h1 i) as [c|] eqn:E1; [|discriminate].
  destruct (walk_loop _ h1 (nd_slots c)) as [[h2 t]| | |] eqn:W; try discriminate. cbn [rbind fst snd].
  assert (Lp : forall l h1 h2 t, walk_loop (walk_node load f true (i :: rd)) h1 l = Ok (h2, t) ->
           forall j, bare h1 j \/ In j t -> bare h2 j).
  { clear -IH. induction l as [|[n k] l IHl]; intros h1 h2 t W j H.
    - injection W as <- <-. destruct H as [H|[]]. exact H.
    - cbn [walk_loop] in W. destruct (walk_node load f true (i :: rd) h1 k) as [[ha ta]| | |] eqn:Wa; try discriminate.
      cbn [rbind fst snd] in W. destruct (walk_loop _ ha l) as [[hb tb]| | |] eqn:Wb; try discriminate.
      cbn [rbind fst snd] in W. injection W as <- <-. apply (IHl _ _ _ Wb).
      destruct H as [H|H]; [left; apply (IH _ _ _ _ _ Wa); auto|]. apply in_app_or in H as [H|H]; [|auto].
      left. apply (IH _ _ _ _ _ Wa). auto. }
  assert (Al : forall l h1 h2 t, walk_loop (walk_node load f true (i :: rd)) h1 l = Ok (h2, t) ->
           forall c, h1 i = Some c -> exists c2, h2 i = Some c2).
  { clear -A. induction l as [|[n k] l IHl]; intros h1 h2 t W c E.
    - injection W as <- <-. eauto.
    - cbn [walk_loop] in W. destruct (walk_node load f true (i :: rd) h1 k) as [[ha ta]| | |] eqn:Wa; try discriminate.
      cbn [rbind fst snd] in W. destruct (walk_loop _ ha l) as [[hb tb]| | |] eqn:Wb; try discriminate.
      cbn [rbind fst snd] in W. injection W as <- <-. destruct (walk_kept _ A _ _ _ _ _ _ _ Wa _ _ E) as [ca Ea].
      apply (IHl _ _ _ Wb _ Ea). }
  intros [= <- <-] j H. destruct (Z.eq_dec j i) as [->|Hj].
  - destruct (Al _ _ _ _ W _ E1) as [c2 E2]. rewrite E2. destruct (is_image c2) eqn:Im.
    + unfold unparse. rewrite E2. unfold is_image in Im. destruct (nd_kind c2); try discriminate.
      eexists. rewrite put_same. split; [reflexivity|]. auto.
    + exists c2. split; [exact E2|]. congruence.
  - assert (B2 : bare h2 j).
    { apply (Lp _ _ _ _ W). destruct H as [H|[->|H]]; [auto|contradiction|auto]. }
    destruct (h2 i) as [c2|]; [|exact B2]. destruct (is_image c2); [|exact B2].
    destruct B2 as (cj & Ej & B). exists cj. rewrite unparse_other by exact Hj. auto.
Qed.
