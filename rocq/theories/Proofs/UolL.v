(** Lemmas on UOL links. *)
From Coq Require Import ZArith List Bool Lia Arith.
From Verif.Model Require Import Base Utf Image Node.
From Verif.Spec Require Import PathSpec Tree.
From Verif.Proofs Require Import ImageL NodeL.

(** * Resolving the path as text *)
Lemma child_fun h n i p n' p' : child_of h n i p -> child_of h n' i p' -> p = p' /\ n = n'.
Proof. intros [(c & E & N & P) _] [(c' & E' & N' & P') _]. rewrite E in E'. injection E' as <-.
  split; congruence. Qed.
Lemma root_child h n i p : rootless h i -> child_of h n i p -> False.
Proof. intros (c & E & R) [(c' & E' & _ & P) (d & F)]. rewrite E in E'. injection E' as <-.
  rewrite (R p P) in F. discriminate. Qed.
Lemma hangs_child_inv h r q i n p : rootless h r -> hangs h r q i -> child_of h n i p ->
  exists q', q = q' ++ [n] /\ hangs h r q' p.
Proof.
  intros R H C. destruct H as [c E|q n' i j H N C' S].
  - destruct (root_child _ _ _ _ R C).
  - destruct (child_fun _ _ _ _ _ _ C C') as [-> ->]. eauto.
Qed.

Lemma uol_steps_hang h r : rootless h r -> proper h r -> forall j us k, steps h None j us k ->
  forall p, hangs h r p j -> hangs h r (uol_steps p us) k.
Proof.
  intros R P. induction 1 as [i|i n q us j B C S IH|i n k us j D S S' IH]; intros p H; [exact H|..].
  - destruct (hangs_child_inv _ _ _ _ _ _ R H C) as (p' & -> & H'). cbn [uol_steps text_eqb dd Z.eqb Pos.eqb andb].
    destruct (p' ++ [n]) eqn:E; [destruct p'; discriminate|]. rewrite <- E. cbn [negb].
    rewrite removelast_last. apply IH, H'.
  - cbn [uol_steps]. destruct (text_eqb n [46; 46]) eqn:E; [apply text_eqb_eq in E; contradiction|]. cbn [andb].
    apply IH. destruct (P _ _ _ _ H S). econstructor; eassumption.
Qed.

Lemma uol_head p us : ~ In dd (tl p) -> ~ In dd (tl (uol_steps p us)).
Proof.
  revert p. induction us as [|u us IH]; intros p H; [exact H|]. cbn [uol_steps].
  destruct (text_eqb u [46; 46]) eqn:E; cbn [andb].
  - destruct p as [|a p]; cbn [negb].
    + apply IH. cbn. tauto.
    + apply IH. destruct p as [|b p]; [cbn; tauto|]. cbn [removelast tl] in *.
      intro I. apply H. clear -I. revert b I. induction p as [|c p IH]; intros b I; [contradiction|].
      destruct I as [->|I]; [left; reflexivity|]. right. apply IH, I.
  - apply IH. intro I. destruct p as [|a p]; cbn [app tl] in *; [contradiction|].
    apply in_app_or in I as [I|[->|[]]]; [auto|]. rewrite text_eqb_refl in E. discriminate.
Qed.

(** * Resolving links in the tree *)
Lemma held_in i l : held i l = true <-> In i l.
Proof.
  unfold held. rewrite existsb_exists. split.
  - intros (x & I & E). apply Z.eqb_eq in E. subst. exact I.
  - intro I. exists i. split; [exact I|]. apply Z.eqb_refl.
Qed.
Lemma held_out i l : ~ In i l -> held i l = false.
Proof. intro H. destruct (held i l) eqn:E; [|reflexivity]. apply held_in in E. contradiction. Qed.

Definition locks (b : option id) : list id := match b with Some im => [im] | None => [] end.
Lemma held_locks i b : b <> Some i -> held i (locks b) = false.
Proof. intro H. apply held_out. destruct b as [x|]; cbn; [|tauto]. intros [->|[]]. congruence. Qed.

Lemma fold_steps h b i us t : steps h b i us t -> try_fold (uol_step h (locks b) b) i us = Some t.
Proof.
  induction 1 as [i|i n p r j B C S IH|i n k r j D S S' IH]; [reflexivity|..]; cbn [try_fold]; unfold uol_step at 1.
  - rewrite held_locks by exact B. unfold at_relative. cbn [text_eqb dd Z.eqb Pos.eqb andb].
    rewrite (child_parent _ _ _ _ C). exact IH.
  - destruct (held i (locks b)) eqn:E.
    + apply held_in in E. destruct b as [im|]; [|destruct E]. destruct E as [->|[]].
      rewrite (slot_at _ _ _ _ S). exact IH.
    + unfold at_relative. destruct (text_eqb n [46; 46]) eqn:F; [apply text_eqb_eq in F; contradiction|].
      rewrite (slot_at _ _ _ _ S). exact IH.
Qed.
Lemma fold_stuck h b i us : stuck h b i us -> try_fold (uol_step h (locks b) b) i us = None.
Proof.
  induction 1 as [i r R B|i r B N|i n r D N|i n p r B C S IH|i n k r D S S' IH]; cbn [try_fold]; unfold uol_step at 1.
  - rewrite held_locks by exact B. unfold at_relative. cbn [text_eqb dd Z.eqb Pos.eqb andb].
    rewrite (root_parent _ _ R). reflexivity.
  - subst b. cbn [locks held existsb]. rewrite Z.eqb_refl. cbn [orb].
    rewrite (no_slot_at _ _ _ N). reflexivity.
  - destruct (held i (locks b)) eqn:E.
    + apply held_in in E. destruct b as [im|]; [|destruct E]. destruct E as [->|[]].
      rewrite (no_slot_at _ _ _ N). reflexivity.
    + unfold at_relative. destruct (text_eqb n [46; 46]) eqn:F; [apply text_eqb_eq in F; contradiction|].
      rewrite (no_slot_at _ _ _ N). reflexivity.
  - rewrite held_locks by exact B. unfold at_relative. cbn [text_eqb dd Z.eqb Pos.eqb andb].
    rewrite (child_parent _ _ _ _ C). exact IH.
  - destruct (held i (locks b)) eqn:E.
    + apply held_in in E. destruct b as [im|]; [|destruct E]. destruct E as [->|[]].
      rewrite (slot_at _ _ _ _ S). exact IH.
    + unfold at_relative. destruct (text_eqb n [46; 46]) eqn:F; [apply text_eqb_eq in F; contradiction|].
      rewrite (slot_at _ _ _ _ S). exact IH.
Qed.

Lemma put_same h i c : put h i c i = Some c.
Proof. unfold put. rewrite Z.eqb_refl. reflexivity. Qed.
Lemma put_other h i c j : j <> i -> put h i c j = h j.
Proof. intro H. unfold put. apply Z.eqb_neq in H. rewrite H. reflexivity. Qed.

Lemma insert_fst l n j : slot_get l n <> None -> map fst (slot_insert l n j) = map fst l.
Proof.
  induction l as [|[k x] l IH]; [intro H; destruct (H eq_refl)|]. cbn [slot_get slot_insert].
  destruct (text_eqb k n); [reflexivity|]. intro H. cbn [map fst]. rewrite IH by exact H. reflexivity.
Qed.
Lemma insert_fst_new l n j : slot_get l n = None -> slot_insert l n j = l ++ [(n, j)].
Proof.
  induction l as [|[k x] l IH]; [reflexivity|]. cbn [slot_get slot_insert].
  destruct (text_eqb k n); [discriminate|]. intro H. cbn [app]. rewrite IH by exact H. reflexivity.
Qed.
Lemma insert_in l n j m k : NoDup (map fst l) ->
  In (m, k) (slot_insert l n j) <-> (m = n /\ k = j) \/ (m <> n /\ In (m, k) l).
Proof.
  induction l as [|[a x] l IH]; intro D; cbn [slot_insert In map fst] in *.
  - split; [intros [[= <- <-]|[]]; auto|]. intros [[-> ->]|[_ []]]. left. reflexivity.
  - inversion_clear D as [|? ? N D']. destruct (text_eqb a n) eqn:E.
    + apply text_eqb_eq in E. subst a. cbn [In]. split.
      * intros [[= <- <-]|H]; [auto|]. right. split; [|auto]. intros ->. apply N. apply in_map_iff. exists (n, k). auto.
      * intros [[-> ->]|[M [[= -> ->]|H]]]; [auto|contradiction|auto].
    + assert (a <> n) by (intros ->; rewrite text_eqb_refl in E; discriminate).
      cbn [In]. rewrite (IH D'). split.
      * intros [[= <- <-]|[H'|H']]; [right; split; auto|auto|tauto].
      * intros [H'|[H' [[= <- <-]|H'']]]; tauto.
Qed.
Lemma insert_nodup l n j : NoDup (map fst l) -> NoDup (map fst (slot_insert l n j)).
Proof.
  intro D. destruct (slot_get l n) eqn:E.
  - rewrite insert_fst by congruence. exact D.
  - rewrite insert_fst_new by exact E. rewrite map_app. cbn [map fst].
    apply get_none in E. clear -D E. induction (map fst l) as [|a m IH]; cbn; [constructor; [easy|constructor]|].
    inversion_clear D as [|? ? N D']. cbn in E. constructor; [|apply IH; tauto].
    intro I. apply in_app_or in I as [I|[->|[]]]; tauto.
Qed.

Lemma insert_nodup_inv l n j : NoDup (map fst (slot_insert l n j)) -> NoDup (map fst l).
Proof.
  destruct (slot_get l n) eqn:E.
  - rewrite insert_fst by congruence. auto.
  - rewrite insert_fst_new by exact E. rewrite map_app. intro D. apply NoDup_remove_1 in D. cbn in D.
    rewrite app_nil_r in D. exact D.
Qed.

Lemma same_slots_refl h : same_but_slots h h.
Proof. intro i. destruct (h i); auto. Qed.
Lemma same_slots_trans a b c : same_but_slots a b -> same_but_slots b c -> same_but_slots a c.
Proof.
  intros H K i. specialize (H i). specialize (K i). destruct (a i), (b i), (c i); try contradiction; auto.
  destruct H as (? & ? & ?), K as (? & ? & ?). repeat split; congruence.
Qed.

(** Replacing the content of one slot. *)
Lemma replace_ok h p n t : 
  same_but_slots h (replace_child h p n t) /\
  (forall j m k, j <> p \/ m <> n -> slot (replace_child h p n t) j m k <-> slot h j m k) /\
  (forall o, slot h p n o -> slot (replace_child h p n t) p n t).
Proof.
  unfold replace_child, insert_child, node_at. destruct (h p) as [c|] eqn:E.
  2:{ split; [apply same_slots_refl|]. split; [tauto|]. intros o (c & E' & _). congruence. }
  destruct (slot_get (nd_slots c) n) as [x|] eqn:G.
  2:{ split; [apply same_slots_refl|]. split; [tauto|]. intros o (c' & E' & D & I).
      rewrite E in E'. injection E' as <-. apply (in_get _ _ _ D) in I. congruence. }
  split; [|split].
  - intro i. destruct (Z.eq_dec i p) as [->|Hi]; [rewrite put_same, E; auto|].
    rewrite put_other by exact Hi. destruct (h i); auto.
  - intros j m k H. unfold slot. destruct (Z.eq_dec j p) as [->|Hj].
    + rewrite put_same, E. destruct H as [H|H]; [contradiction|]. split.
      * intros (c' & [= <-] & D & I). cbn [nd_slots] in *. exists c. split; [reflexivity|].
        apply insert_nodup_inv in D. split; [exact D|]. apply insert_in in I; [|exact D]. tauto.
      * intros (c' & [= <-] & D & I). eexists. split; [reflexivity|]. cbn [nd_slots].
        split; [apply insert_nodup, D|]. apply insert_in; [exact D|]. auto.
    + rewrite put_other by exact Hj. reflexivity.
  - intros o (c' & E' & D & I). rewrite E in E'. injection E' as <-.
    eexists. rewrite put_same. split; [reflexivity|]. cbn [nd_slots]. split; [apply insert_nodup, D|].
    apply insert_in; auto.
Qed.

Lemma resolve_hit h b u n p us t : child_of h n u p -> b <> Some u ->
  (exists c, h u = Some c /\ nd_kind c = KUol (Some (joined us))) -> us <> [] -> plain us ->
  steps h b p us t -> resolve_uol h (locks b) b u = Ok (replace_child h p n t).
Proof.
  intros C B (c & E & K) U P S. unfold resolve_uol. rewrite held_locks by exact B. rewrite E.
  destruct (upgrade_child _ _ _ _ _ C E) as [-> ->]. rewrite K, (split_join _ U P), (fold_steps _ _ _ _ _ S).
  destruct (held p (locks b)) eqn:H; [|reflexivity]. apply held_in in H.
  destruct b as [im|]; [|destruct H]. destruct H as [->|[]]. reflexivity.
Qed.
Lemma resolve_miss h b u n p us : child_of h n u p -> b <> Some u ->
  (exists c, h u = Some c /\ nd_kind c = KUol (Some (joined us))) -> us <> [] -> plain us ->
  stuck h b p us -> resolve_uol h (locks b) b u = Ok h.
Proof.
  intros C B (c & E & K) U P S. unfold resolve_uol. rewrite held_locks by exact B. rewrite E.
  destruct (upgrade_child _ _ _ _ _ C E) as [-> _]. rewrite K, (split_join _ U P), (fold_stuck _ _ _ _ S). reflexivity.
Qed.

Lemma resolve_frame h im u h' : resolve_uol h [im] (Some im) u = Ok h' ->
  same_but_slots h h' /\ forall j m k, ~ sits h u j m -> slot h' j m k <-> slot h j m k.
Proof.
  unfold resolve_uol. destruct (held u [im]); [discriminate|]. destruct (h u) as [c|] eqn:E; [|discriminate].
  destruct (upgrade h (nd_parent c)) as [p|] eqn:U; [|discriminate].
  assert (Hp : nd_parent c = Some p).
  { unfold upgrade in U. destruct (nd_parent c) as [q|]; [|discriminate]. destruct (h q); [|discriminate]. congruence. }
  assert (Triv : Ok h = Ok h' -> same_but_slots h h' /\ forall j m k, ~ sits h u j m -> slot h' j m k <-> slot h j m k).
  { intros [= <-]. split; [apply same_slots_refl|tauto]. }
  assert (Rep : forall t, Ok (replace_child h p (nd_name c) t) = Ok h' ->
    same_but_slots h h' /\ forall j m k, ~ sits h u j m -> slot h' j m k <-> slot h j m k).
  { intros t [= <-]. destruct (replace_ok h p (nd_name c) t) as (A & B & _). split; [exact A|].
    intros j m k N. apply B. destruct (Z.eq_dec j p) as [->|]; [|auto]. right. intros ->. apply N.
    exists c. auto. }
  destruct (nd_kind c) as [| | | | |[tg|]|]; try exact Triv.
  destruct (try_fold _ p (split_slash tg)) as [t|]; [|exact Triv].
  destruct (held p [im]) eqn:H; [|apply Rep]. apply held_in in H. destruct H as [->|[]]. apply Rep.
Qed.

Lemma sits_same h h' u p n : same_but_slots h h' -> sits h u p n <-> sits h' u p n.
Proof.
  intro S. specialize (S u). unfold sits. destruct (h u), (h' u); try contradiction.
  - destruct S as (A & B & C). split; intros (c' & [= <-] & N & P); eexists; (split; [reflexivity|]); split; congruence.
  - split; intros (? & ? & _); discriminate.
Qed.

Definition resolve_all im uols (acc : res heap) :=
  fold_left (fun acc u => rbind acc (fun h' => resolve_uol h' [im] (Some im) u)) uols acc.
Lemma resolve_all_bad im uols h acc : resolve_all im uols acc = Ok h -> exists a, acc = Ok a.
Proof.
  revert acc. induction uols as [|u uols IH]; intros acc H; [eauto|]. cbn [resolve_all fold_left] in H.
  apply IH in H. destruct H as [a H]. destruct acc; cbn in H; [eauto|discriminate..].
Qed.
Lemma resolve_all_frame im uols : forall h h', resolve_all im uols (Ok h) = Ok h' ->
  same_but_slots h h' /\
  forall j m k, (forall u, In u uols -> ~ sits h u j m) -> slot h' j m k <-> slot h j m k.
Proof.
  induction uols as [|u uols IH]; intros h h' H.
  - injection H as <-. split; [apply same_slots_refl|tauto].
  - cbn [resolve_all fold_left rbind] in H. destruct (resolve_all_bad _ _ _ _ H) as [a A]. rewrite A in H.
    destruct (resolve_frame _ _ _ _ A) as [S1 F1]. destruct (IH _ _ H) as [S2 F2].
    split; [eapply same_slots_trans; eassumption|]. intros j m k N.
    rewrite F2, F1; [reflexivity|apply N; left; reflexivity|].
    intros v V K. apply (N v (or_intror V)). apply (sits_same _ _ _ _ _ S1). exact K.
Qed.

(** What [parse] leaves in the slots. *)
Lemma fold_insert kids : forall l, NoDup (map fst l ++ map fst kids) ->
  fold_left (fun l e => slot_insert l (fst e) (snd e)) kids l = l ++ kids.
Proof.
  induction kids as [|[n j] kids IH]; intros l D; cbn [fold_left fst snd map app] in *; [symmetry; apply app_nil_r|].
  rewrite insert_fst_new.
  - rewrite IH; [rewrite <- app_assoc; reflexivity|]. rewrite map_app, <- app_assoc. exact D.
  - apply get_none. apply NoDup_remove_2 in D. intro I. apply D. apply in_or_app. auto.
Qed.
