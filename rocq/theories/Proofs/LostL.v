(** Lemmas: no operation on the tree leaves a child that is not there. *)
From Coq Require Import ZArith List Bool Lia.
From Verif.Model Require Import Base Utf Keys Reader Directory Image File Node Ms World.
From Verif.Spec Require Import Stroll.
From Verif.Proofs Require Import NodeL UolL WorldL LinkedL LinkWorldL TourLinksL.
Import ListNotations.
Open Scope Z_scope.

(** * The tree *)
(** Nodes stay, and if nothing was lost, nothing is. *)
Definition fit (h h' : heap) : Prop := (forall j, h j <> None -> h' j <> None) /\ (none_lost h -> none_lost h').
Lemma fit_refl h : fit h h.
Proof. split; auto. Qed.
Lemma fit_trans a b c : fit a b -> fit b c -> fit a c.
Proof. intros [A1 A2] [B1 B2]. split; auto. Qed.
Lemma fit_put h i c : (none_lost h -> forall n k, In (n, k) (nd_slots c) -> put h i c k <> None) -> fit h (put h i c).
Proof.
  intro S. split.
  - intros j J. unfold put. destruct (j =? i); [discriminate|exact J].
  - intros N j d n k. unfold put at 1. destruct (j =? i); [intros [= <-] I; exact (S N n k I)|]. intros H I. unfold put. destruct (k =? i); [discriminate|]. exact (N j d n k H I).
Qed.
Lemma inserted l m x n k : In (n, k) (slot_insert l m x) -> In (n, k) l \/ k = x.
Proof.
  induction l as [|[a y] l IH]; cbn [slot_insert In]; [intros [[= _ <-]|[]]; auto|]. destruct (text_eqb a m); cbn [In]; [intros [[= _ <-]|I]; auto|]. intros [E|I]; [auto|]. apply IH in I. tauto.
Qed.
Lemma inserts_from kids : forall l n k, In (n, k) (fold_left (fun l e => slot_insert l (fst e) (snd e)) kids l) -> In (n, k) l \/ In k (map snd kids).
Proof.
  induction kids as [|[a x] kids IH]; intros l n k I; [auto|]. cbn [fold_left fst snd map In] in *. destruct (IH _ _ _ I) as [J|J]; [|auto]. apply inserted in J as [J|J]; auto.
Qed.
Lemma put_there h i c k : h k <> None -> put h i c k <> None.
Proof. intro H. unfold put. destruct (k =? i); [discriminate|exact H]. Qed.
Lemma fit_insert h i n j : h j <> None -> fit h (insert_child h i n j).
Proof.
  intro J. unfold insert_child. destruct (h i) as [c|] eqn:E; [|apply fit_refl]. apply fit_put. intros N m k I. cbn [nd_slots] in I. apply put_there. apply inserted in I as [I| ->]; [exact (N i c m k E I)|exact J].
Qed.
Lemma fit_fill w i l : (forall e, In e l -> w_heap w (snd e) <> None) -> fit (w_heap w) (w_heap (fill w i l)).
Proof.
  unfold fill. cbn [w_heap]. generalize (w_heap w). induction l as [|e l IH]; intros h S; [apply fit_refl|]. cbn [fold_left].
  pose proof (fit_insert h i (fst e) (snd e) (S e (or_introl eq_refl))) as F. eapply fit_trans; [exact F|]. apply IH. intros x X. apply (proj1 F), S. right. exact X.
Qed.
(** What making a node does. *)
Definition made (w : world) (x : world * id * list id) : Prop := fit (w_heap w) (w_heap (fst (fst x))) /\ w_heap (fst (fst x)) (snd (fst x)) <> None.
Lemma made_fresh w n t p us : made w (fresh w n t p, us).
Proof.
  unfold made, fresh. cbn [fst snd w_heap]. split; [apply fit_put; intros _ ? ? []|]. unfold put. rewrite Z.eqb_refl. discriminate.
Qed.
Lemma made_list {A} (g : world -> text -> A -> world * id * list id) l : Forall (fun e => forall w, made w (g w (fst e) (snd e))) l ->
  forall w, fit (w_heap w) (w_heap (fst (fst (plant_list g w l)))) /\ forall e, In e (snd (fst (plant_list g w l))) -> w_heap (fst (fst (plant_list g w l))) (snd e) <> None.
Proof.
  induction 1 as [|[n x] l H _ IH]; intro w; [split; [apply fit_refl|intros ? []]|]. rewrite plant_list_cons. cbn [fst snd] in H. specialize (H w).
  destruct (g w n x) as [[w1 i] us]. destruct (IH w1) as [I1 I2]. destruct (plant_list g w1 l) as [[w2 l'] us']. destruct H as [H1 H2]. cbn [fst snd] in *.
  split; [eapply fit_trans; eassumption|]. intros e [<-|E]; [apply (proj1 I1), H2|apply I2, E].
Qed.
Lemma made_node w w1 i l w2 us0 n t p : fresh w n t p = (w1, i) -> fit (w_heap w1) (w_heap w2) -> (forall e, In e l -> w_heap w2 (snd e) <> None) -> made w (fill w2 i l, i, us0).
Proof.
  intros E F S. pose proof (made_fresh w n t p []) as [M1 M2]. rewrite E in M1, M2. cbn [fst snd] in M1, M2. pose proof (fit_fill w2 i l S) as Ff. split; cbn [fst snd].
  - eapply fit_trans; [exact M1|]. eapply fit_trans; eassumption.
  - apply (proj1 Ff), (proj1 F), M2.
Qed.
Lemma made_plant r : forall n p w name, made w (plant r p w name n).
Proof.
  fix IH 1. intros [o kids] p w name. cbn [plant]. destruct (fresh w name (ThProp r o) (Some p)) as [w1 i] eqn:E.
  assert (K : Forall (fun e => forall w, made w (plant r i w (fst e) (snd e))) kids).
  { clear E. induction kids as [|[n x] kids IHk]; constructor; [|exact IHk]. intro w2. cbn [fst snd]. apply IH. }
  destruct (made_list (plant r i) kids K w1) as [L1 L2]. destruct (plant_list (plant r i) w1 kids) as [[w2 l] us]. cbn [fst snd] in *. exact (made_node _ _ _ _ _ _ _ _ _ E L1 L2).
Qed.
Lemma made_plant_dir s : forall n p w name, made w (plant_dir s p w name n).
Proof.
  fix IH 1. intros [off size|d kids|] p w name; cbn [plant_dir]; [apply made_fresh| |apply made_fresh].
  destruct (fresh w name (ThDir s d) (Some p)) as [w1 i] eqn:E.
  assert (K : Forall (fun e => forall w, made w (plant_dir s i w (fst e) (snd e))) kids).
  { clear E. induction kids as [|[n x] kids IHk]; constructor; [|exact IHk]. intro w2. cbn [fst snd]. apply IH. }
  destruct (made_list (plant_dir s i) kids K w1) as [L1 L2]. destruct (plant_list (plant_dir s i) w1 kids) as [[w2 l] us]. cbn [fst snd] in *. exact (made_node _ _ _ _ _ _ _ _ _ E L1 L2).
Qed.
Lemma load_fit st bl f w p i : fit (w_heap w) (w_heap (snd (w_load st bl f w p i))) /\
  match fst (w_load st bl f w p i) with Ok (kids, _) => forall e, In e kids -> w_heap (snd (w_load st bl f w p i)) (snd e) <> None | _ => True end.
Proof.
  unfold w_load.
  assert (D : forall s w kids, fit (w_heap w) (w_heap (fst (fst (plant_list (plant_dir s p) w kids)))) /\ forall e, In e (snd (fst (plant_list (plant_dir s p) w kids))) -> w_heap (fst (fst (plant_list (plant_dir s p) w kids))) (snd e) <> None).
  { intros s w0 kids. apply made_list. apply Forall_forall. intros e _ w2. apply made_plant_dir. }
  assert (P : forall r w kids, fit (w_heap w) (w_heap (fst (fst (plant_list (plant r p) w kids)))) /\ forall e, In e (snd (fst (plant_list (plant r p) w kids))) -> w_heap (fst (fst (plant_list (plant r p) w kids))) (snd e) <> None).
  { intros r w0 kids. apply made_list. apply Forall_forall. intros e _ w2. apply made_plant. }
  assert (M : forall buf w kids, fit (w_heap w) (w_heap (fst (fst (plant_list (plant_ms buf p) w kids)))) /\ forall e, In e (snd (fst (plant_list (plant_ms buf p) w kids))) -> w_heap (fst (fst (plant_list (plant_ms buf p) w kids))) (snd e) <> None).
  { intros b w0 kids. apply made_list. apply Forall_forall. intros e _ w2. unfold plant_ms. apply made_fresh. }
  assert (R : fit (w_heap w) (w_heap w) /\ True) by (split; [apply fit_refl|exact I]).
  destruct (w_thing w i) as [buf iv ex patch|s d|r nm off size|buf h|buf e|r o].
  - destruct (rbind _ _) as [[h x]| | |]; try exact R. specialize (D (shared_of st buf h x) (set_cache w (pf_cache x)) (pf_kids x)). destruct (plant_list _ _ _) as [[w1 l] us]. exact D.
  - destruct (resolve_children _ _ _ _ _ _ _) as [[kids| | |] d']; try exact R. specialize (D s (set_thing w i (ThDir s d')) kids). destruct (plant_list _ _ _) as [[w1 l] us]. exact D.
  - destruct (image_children _ _ _ _ _) as [[kids us0]| | |]; try exact R. specialize (P r w kids). destruct (plant_list _ _ _) as [[w1 l] us]. exact P.
  - destruct (ms_parse _ _ _) as [es| | |]; try exact R. specialize (M buf w (map (fun e => (me_name e, e)) es)). destruct (plant_list _ _ _) as [[w1 l] us]. exact M.
  - destruct (rbind _ _) as [[r kids]| | |]; try exact R. specialize (P r (set_thing w i (ThImage r (me_name e) 0 (wrap 64 (me_size e)))) kids). destruct (plant_list _ _ _) as [[w1 l] us]. exact P.
  - split; [apply fit_refl|]. intros ? [].
Qed.
Lemma parent_there h a t : parent_of h a = Some t -> h t <> None.
Proof. unfold parent_of. destruct (h a) as [c|]; [|discriminate]. unfold upgrade. destruct (nd_parent c) as [p|]; [|discriminate]. destruct (h p) eqn:E; [|discriminate]. intros [= <-]. rewrite E. discriminate. Qed.
Lemma slot_in l n k : slot_get l n = Some k -> exists m, In (m, k) l.
Proof. induction l as [|[a x] l IH]; cbn [slot_get]; [discriminate|]. destruct (text_eqb a n); [intros [= <-]; exists a; left; reflexivity|]. intro H. destruct (IH H) as [m I]. exists m. right. exact I. Qed.
Lemma child_there h a n t : none_lost h -> node_at h a n = Some t -> h t <> None.
Proof. intro N. unfold node_at. destruct (h a) as [c|] eqn:E; [|discriminate]. intro H. apply slot_in in H as [m I]. exact (N a c m t E I). Qed.
Lemma step_there h lk im a n t : none_lost h -> uol_step h lk im a n = Some t -> h t <> None.
Proof.
  intro N. unfold uol_step, at_relative. destruct (held a lk); [destruct im as [x|]; [apply child_there, N|discriminate]|].
  destruct (text_eqb n [46; 46]); [apply parent_there|apply child_there, N].
Qed.
Lemma steps_there h lk im l : none_lost h -> forall a t, h a <> None -> try_fold (uol_step h lk im) a l = Some t -> h t <> None.
Proof.
  intro N. induction l as [|n l IH]; intros a t A; cbn [try_fold]; [intros [= <-]; exact A|]. destruct (uol_step h lk im a n) as [b|] eqn:E; [|discriminate]. apply IH. exact (step_there _ _ _ _ _ _ N E).
Qed.
(** The nodes stay, and nothing is lost. *)
Definition kept (h h' : heap) : Prop := none_lost h -> none_lost h' /\ forall j, h j <> None -> h' j <> None.
Lemma fit_kept h h' : fit h h' -> kept h h'.
Proof. intros [A B] N. split; auto. Qed.
Lemma kept_refl h : kept h h.
Proof. intro N. split; auto. Qed.
Lemma kept_trans a b c : kept a b -> kept b c -> kept a c.
Proof. intros A B N. destruct (A N) as [A1 A2]. destruct (B A1) as [B1 B2]. split; auto. Qed.
Lemma kept_uol h lk im u h' : resolve_uol h lk im u = Ok h' -> kept h h'.
Proof.
  unfold resolve_uol. destruct (held u lk); [discriminate|]. destruct (h u) as [c|]; [|discriminate]. destruct (upgrade h (nd_parent c)) as [p|] eqn:U; [|discriminate].
  assert (P : h p <> None) by (unfold upgrade in U; destruct (nd_parent c) as [q|]; [|discriminate]; destruct (h q) eqn:E; [|discriminate]; injection U as <-; rewrite E; discriminate).
  assert (X : forall i n t, (none_lost h -> h t <> None) -> kept h (replace_child h i n t)).
  { intros i n t T. unfold replace_child. destruct (node_at h i n); [|apply kept_refl]. intro N. exact (fit_kept _ _ (fit_insert h i n t (T N)) N). }
  destruct (nd_kind c) as [| | | | |[tg|]|]; try (intros [= <-]; apply kept_refl). destruct (try_fold _ p (split_slash tg)) as [t|] eqn:T; [|intros [= <-]; apply kept_refl].
  assert (Tt : none_lost h -> h t <> None) by (intro N; exact (steps_there _ _ _ _ N _ _ P T)).
  destruct (held p lk); [destruct im|]; intros [= <-]; try (apply X, Tt). apply kept_refl.
Qed.
Lemma kept_parse st bl f w i p : kept (w_heap w) (w_heap (snd (w_parse st bl f w i p))).
Proof.
  unfold w_parse. destruct (w_heap w i) as [c|] eqn:E; [|apply kept_refl]. destruct (unread (nd_kind c)); [|apply kept_refl].
  destruct (load_fit st bl f w p i) as [L1 L2]. destruct (w_load st bl f w p i) as [[[kids us]| | |] w1]; cbn [fst snd] in *; try exact (fit_kept _ _ L1).
  destruct (parse _ (w_heap w) [] i p) as [h| | |] eqn:P; cbn [snd w_heap]; try exact (fit_kept _ _ L1).
  assert (X : forall k, parse_as (fun _ _ _ => Some (w_heap w1, kids, us)) (w_heap w) [] i p k = Ok h -> kept (w_heap w) h).
  { intro k. unfold parse_as. destruct (w_heap w1 i) as [c1|] eqn:E1; [|discriminate].
    assert (O2 : fit (w_heap w1) (put (w_heap w1) i (mkCell (nd_name c1) k (nd_parent c1) (fold_left (fun l e => slot_insert l (fst e) (snd e)) kids (nd_slots c1))))).
    { apply fit_put. intros N n x I. apply put_there. cbn [nd_slots] in I. apply inserts_from in I as [I|I]; [exact (N i c1 n x E1 I)|]. apply in_map_iff in I as (e & <- & I). exact (L2 e I). }
    revert O2. generalize (put (w_heap w1) i (mkCell (nd_name c1) k (nd_parent c1) (fold_left (fun l e => slot_insert l (fst e) (snd e)) kids (nd_slots c1)))).
    intros h0 O2 R. eapply kept_trans; [exact (fit_kept _ _ (fit_trans _ _ _ L1 O2))|]. clear - R. change (resolve_all i us (Ok h0) = Ok h) in R. revert h0 R.
    induction us as [|u us IH]; intros h0 R; [injection R as <-; apply kept_refl|].
    cbn [resolve_all fold_left rbind] in R. destruct (resolve_all_bad _ _ _ _ R) as [a A]. rewrite A in R. eapply kept_trans; [eapply kept_uol, A|apply IH, R]. }
  unfold parse in P. rewrite E in P. destruct (nd_kind c) as [[]|[]|[]| |[]| |]; try (injection P as <-; apply kept_refl); eapply X, P.
Qed.
Lemma kept_fold st bl f comps : forall w i, kept (w_heap w) (w_heap (snd (w_fold st bl f w i comps))).
Proof.
  induction comps as [|n rest IH]; intros w i; [apply kept_refl|]. cbn [w_fold]. pose proof (kept_parse st bl f w i i) as P.
  destruct (w_parse st bl f w i i) as [[| | |] w1]; cbn [snd] in *; try exact P. destruct (node_at (w_heap w1) i n); [eapply kept_trans; [exact P|apply IH]|exact P].
Qed.
Lemma kept_unparse h i : kept h (unparse h i).
Proof. unfold unparse. destruct (h i) as [c|] eqn:E; [|apply kept_refl]. destruct (nd_kind c); try apply kept_refl; apply fit_kept, fit_put; intros _ ? ? []. Qed.

(** * A file and whatever has been done with it *)
Definition sound (w : world) : Prop := told_apart (w_heap w) /\ none_lost (w_heap w).
(** Sound worlds stay sound, with all their nodes. *)
Definition keeps (w w' : world) : Prop := sound w -> sound w' /\ forall j, w_heap w j <> None -> w_heap w' j <> None.
Lemma keeps_refl w : keeps w w.
Proof. intro S. split; auto. Qed.
Lemma keeps_trans a b c : keeps a b -> keeps b c -> keeps a c.
Proof. intros A B S. destruct (A S) as [A1 A2]. destruct (B A1) as [B1 B2]. split; auto. Qed.
Lemma keeps_by w w' : (told_apart (w_heap w) -> told_apart (w_heap w')) -> kept (w_heap w) (w_heap w') -> keeps w w'.
Proof. intros A B [S1 S2]. destruct (B S2) as [B1 B2]. split; [split; auto|exact B2]. Qed.
Section doing.
  Variable st : list Z -> nat -> Z.
  Variable bl : list Z -> list Z -> Z -> list Z.
  Variable f : nat.
  Lemma keeps_parse w i p : keeps w (snd (w_parse st bl f w i p)).
  Proof. apply keeps_by; [exact (one_parse st bl f w i p)|apply kept_parse]. Qed.
  Lemma keeps_lookup w i path : keeps w (snd (w_at_path_parsed st bl f w i path)).
  Proof.
    unfold w_at_path_parsed. destruct (split_slash path) as [|a l]; [apply keeps_refl|]. destruct (node_at (w_heap w) i a) as [n|]; [|apply keeps_refl].
    apply keeps_by; [exact (one_fold st bl f l w n)|apply kept_fold].
  Qed.
  Lemma keeps_unparse w i t x y : keeps w (mkWorld (unparse (w_heap w) i) t x y).
  Proof. apply keeps_by; [exact (one_unparse (w_heap w) i)|apply kept_unparse]. Qed.
  Lemma keeps_loop rec : (forall w i, keeps w (snd (rec w i))) -> forall l w, keeps w (snd (w_loop rec w l)).
  Proof.
    intro R. induction l as [|[n j] l IH]; intro w; [apply keeps_refl|]. cbn [w_loop]. specialize (R w j). destruct (rec w j) as [[a| | |] w1]; cbn [snd] in *; try exact R.
    specialize (IH w1). destruct (w_loop rec w1 l) as [b w2]. cbn [snd] in *. eapply keeps_trans; eassumption.
  Qed.
  Lemma keeps_walk order d : forall rd force w i, keeps w (snd (w_walk_in st bl f order rd d force w i)).
  Proof.
    induction d as [|d IH]; intros rd force w i; [apply keeps_refl|]. cbn [w_walk_in]. destruct (force && held i rd); [apply keeps_refl|].
    assert (P : keeps w (snd (if force then w_parse st bl f w i i else (Ok tt, w)))) by (destruct force; [apply keeps_parse|apply keeps_refl]).
    assert (X : forall w1, keeps w w1 -> keeps w (snd (match w_heap w1 i with
        | None => (Panic, w1)
        | Some c =>
          match w_loop (w_walk_in st bl f order (i :: rd) d force) w1 (order (nd_slots c)) with
          | (Ok l, w2) =>
            (Ok ((i, w1) :: l),
             match w_heap w2 i with
             | Some c2 => if force && is_image c2 then mkWorld (unparse (w_heap w2) i) (w_thing w2) (w_next w2) (w_cache w2) else w2
             | None => w2
             end)
          | x => x
          end
        end))).
    { intros w1 K. destruct (w_heap w1 i) as [c|]; [|exact K]. pose proof (keeps_loop _ (IH (i :: rd) force) (order (nd_slots c)) w1) as L.
      destruct (w_loop _ w1 _) as [[l| | |] w2]; cbn [snd] in *; try (eapply keeps_trans; eassumption).
      destruct (w_heap w2 i) as [c2|]; [|eapply keeps_trans; eassumption]. destruct (force && is_image c2); [|eapply keeps_trans; eassumption].
      eapply keeps_trans; [exact K|]. eapply keeps_trans; [exact L|]. apply keeps_unparse. }
    destruct (if force then w_parse st bl f w i i else (Ok tt, w)) as [[| | |] w1]; cbn [snd] in *; try exact P; apply X, P.
  Qed.
End doing.
Lemma sound_first n t cache : sound (fst (fresh (nowhere cache) n t None)) /\ w_heap (fst (fresh (nowhere cache) n t None)) 0 <> None.
Proof.
  unfold fresh, nowhere. cbn [fst w_heap w_next]. split; [|discriminate]. split.
  - intros j c H. cbn [w_heap] in H. unfold put in H. destruct (j =? 0); [|discriminate H]. injection H as <-. constructor.
  - intros j c m k H I. cbn [w_heap] in H. unfold put in H. destruct (j =? 0); [|discriminate H]. injection H as <-. destruct I.
Qed.
