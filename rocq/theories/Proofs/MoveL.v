(** Lemmas on moving children from one tree to another. *)
From Coq Require Import ZArith List Bool Lia Arith.
From Verif.Model Require Import Base Utf Image Node.
From Verif.Spec Require Import PathSpec Tree.
From Verif.Proofs Require Import ImageL NodeL UolL WalkL.

(** * Merging shapes *)
Fixpoint upsert (m : shape -> shape) (n : text) (s : shape) (dk : list (text * shape)) : list (text * shape) :=
  match dk with
  | [] => [(n, s)]
  | (k, d) :: r => if text_eqb k n then (k, m d) :: r else (k, d) :: upsert m n s r
  end.
Fixpoint merge (s d : shape) {struct s} : shape :=
  match s, d with
  | Shape _ ks, Shape t dk =>
    Shape t ((fix go (ks dk : list (text * shape)) {struct ks} : list (text * shape) :=
      match ks with
      | [] => dk
      | (n, s') :: r => go r (upsert (merge s') n s' dk)
      end) ks dk)
  end.
Fixpoint merge_kids (ks dk : list (text * shape)) : list (text * shape) :=
  match ks with
  | [] => dk
  | (n, s) :: r => merge_kids r (upsert (merge s) n s dk)
  end.
Lemma merge_eq i ks t dk : merge (Shape i ks) (Shape t dk) = Shape t (merge_kids ks dk).
Proof. reflexivity. Qed.
Lemma merge_top s d : top (merge s d) = top d.
Proof. destruct s, d. rewrite merge_eq. reflexivity. Qed.

(** * Counting nodes *)
Notation cnt x l := (count_occ Z.eq_dec l x).
Definition knodes (kids : list (text * shape)) : list id := flat_map (fun e => nodes (snd e)) kids.
Lemma nodes_eq i kids : nodes (Shape i kids) = i :: knodes kids.
Proof. reflexivity. Qed.
Lemma knodes_cons n s r : knodes ((n, s) :: r) = nodes s ++ knodes r.
Proof. reflexivity. Qed.
Lemma cnt_app x (a b : list Z) : cnt x (a ++ b) = (cnt x a + cnt x b)%nat.
Proof. apply count_occ_app. Qed.

Lemma upsert_cnt x m n s dk :
  (forall d, (cnt x (nodes (m d)) <= cnt x (nodes s) + cnt x (nodes d))%nat) ->
  (cnt x (knodes (upsert m n s dk)) <= cnt x (nodes s) + cnt x (knodes dk))%nat.
Proof.
  intro M. induction dk as [|[k d] dk IH]; cbn [upsert].
  - rewrite knodes_cons, cnt_app. cbn. lia.
  - destruct (text_eqb k n); rewrite !knodes_cons, !cnt_app; [specialize (M d)|]; lia.
Qed.
Lemma merge_cnt x s : forall d, (cnt x (nodes (merge s d)) <= cnt x (nodes s) + cnt x (nodes d))%nat.
Proof.
  induction s as [i ks IH] using shape_rect'. intros [t dk]. rewrite merge_eq, !nodes_eq.
  assert (H : (cnt x (knodes (merge_kids ks dk)) <= cnt x (knodes ks) + cnt x (knodes dk))%nat).
  { revert dk. induction ks as [|[n s] ks IHk]; intro dk; cbn [merge_kids]; [lia|].
    rewrite knodes_cons, cnt_app. etransitivity; [apply IHk; intros m u I; apply (IH m u (or_intror I))|].
    pose proof (upsert_cnt x (merge s) n s dk (IH n s (or_introl eq_refl))). lia. }
  cbn [count_occ]. destruct (Z.eq_dec i x), (Z.eq_dec t x); lia.
Qed.

(** * Looking up in shapes *)
Fixpoint find_kid (kids : list (text * shape)) (n : text) : option shape :=
  match kids with
  | [] => None
  | (k, s) :: r => if text_eqb k n then Some s else find_kid r n
  end.
Fixpoint look (s : shape) (p : list text) : option id :=
  match p with
  | [] => Some (top s)
  | n :: r => let (_, kids) := s in match find_kid kids n with Some s' => look s' r | None => None end
  end.
Lemma find_in kids n s : find_kid kids n = Some s -> In (n, s) kids.
Proof.
  induction kids as [|[k x] kids IH]; cbn [find_kid]; [discriminate|]. destruct (text_eqb k n) eqn:E.
  - intros [= ->]. apply text_eqb_eq in E. subst. left. reflexivity.
  - intro H. right. auto.
Qed.
Lemma find_none kids n : find_kid kids n = None <-> ~ In n (map fst kids).
Proof.
  induction kids as [|[k x] kids IH]; cbn [find_kid map fst In]; [tauto|]. destruct (text_eqb k n) eqn:E.
  - apply text_eqb_eq in E. split; [discriminate|tauto].
  - rewrite IH. split; [|tauto]. intros H [A|A]; [|tauto]. subst. rewrite text_eqb_refl in E. discriminate.
Qed.
Lemma in_find kids n s : NoDup (map fst kids) -> In (n, s) kids -> find_kid kids n = Some s.
Proof.
  induction kids as [|[k x] kids IH]; [contradiction|]. cbn [find_kid map fst]. intro D. inversion_clear D as [|? ? N D'].
  intros [[= -> ->]|H]; [rewrite text_eqb_refl; reflexivity|].
  destruct (text_eqb k n) eqn:E; [|auto]. apply text_eqb_eq in E. subst k. destruct N.
  apply in_map_iff. exists (n, s). auto.
Qed.
Lemma get_find kids n : slot_get (map (fun e => (fst e, top (snd e))) kids) n = option_map top (find_kid kids n).
Proof.
  induction kids as [|[k s] kids IH]; [reflexivity|]. cbn [map slot_get find_kid fst snd].
  destruct (text_eqb k n); [reflexivity|exact IH].
Qed.

Lemma look_down h p : forall s j, shaped h s -> look s p = Some j <-> down h (top s) p j.
Proof.
  induction p as [|n p IH]; intros s j S.
  - cbn [look]. split.
    + intros [= <-]. destruct (shaped_alive _ _ S) as [c E]. eapply down_here; exact E.
    + intro H. inversion H; subst. reflexivity.
  - destruct s as [i kids]. inversion S as [? ? c E D L K]; subst. cbn [look top]. split.
    + destruct (find_kid kids n) as [s'|] eqn:F; [|discriminate]. intro H. apply find_in in F.
      eapply down_step; [eapply shape_slot; eassumption|]. apply (IH s' j (K _ _ F)). exact H.
    + intro H. inversion H as [|? ? k ? ? Sl H']; subst. destruct (slot_shape _ _ _ _ _ _ E L Sl) as (s' & I & <-).
      rewrite (in_find _ _ _ D I). apply (IH s' j (K _ _ I)). exact H'.
Qed.

Lemma find_upsert m n s dk k : find_kid (upsert m n s dk) k =
  if text_eqb n k then match find_kid dk n with Some d => Some (m d) | None => Some s end
  else find_kid dk k.
Proof.
  induction dk as [|[a d] dk IH]; cbn [upsert find_kid].
  - destruct (text_eqb n k); reflexivity.
  - destruct (text_eqb a n) eqn:E; cbn [find_kid].
    + apply text_eqb_eq in E. subst a. destruct (text_eqb n k) eqn:F; reflexivity.
    + destruct (text_eqb a k) eqn:F.
      * destruct (text_eqb n k) eqn:G; [|reflexivity]. apply text_eqb_eq in F. apply text_eqb_eq in G. subst.
        rewrite text_eqb_refl in E. discriminate.
      * rewrite IH. reflexivity.
Qed.
Lemma upsert_fst m n s dk : NoDup (map fst dk) -> NoDup (map fst (upsert m n s dk)).
Proof.
  intro D. induction dk as [|[a d] dk IH]; cbn [upsert map fst]; [constructor; [easy|constructor]|].
  cbn [map fst] in D. inversion_clear D as [|? ? N D']. destruct (text_eqb a n) eqn:E; cbn [map fst].
  - constructor; assumption.
  - constructor; [|auto]. rewrite <- find_none. rewrite find_upsert. destruct (text_eqb n a) eqn:F.
    + apply text_eqb_eq in F. subst. rewrite text_eqb_refl in E. discriminate.
    + rewrite find_none. exact N.
Qed.
Lemma find_merge ks : forall dk k, NoDup (map fst ks) -> find_kid (merge_kids ks dk) k =
  match find_kid ks k with
  | Some s => match find_kid dk k with Some d => Some (merge s d) | None => Some s end
  | None => find_kid dk k
  end.
Proof.
  induction ks as [|[n s] ks IH]; intros dk k D; [reflexivity|]. cbn [merge_kids map fst find_kid] in *.
  inversion_clear D as [|? ? N D']. rewrite IH by exact D'. rewrite !find_upsert.
  destruct (text_eqb n k) eqn:E.
  - apply text_eqb_eq in E. subst k. apply find_none in N. rewrite N. reflexivity.
  - reflexivity.
Qed.
Lemma look_merge h p : forall s d, shaped h s ->
  look (merge s d) p = match look d p with Some j => Some j | None => look s p end.
Proof.
  induction p as [|n p IH]; intros s d S; [cbn [look]; rewrite merge_top; reflexivity|].
  destruct s as [i ks], d as [t dk]. inversion S as [? ? c E D L K]; subst. rewrite merge_eq. cbn [look].
  rewrite find_merge by exact D. destruct (find_kid ks n) as [s'|] eqn:F.
  - apply find_in in F. destruct (find_kid dk n) as [d'|]; [|reflexivity]. apply IH. apply (K _ _ F).
  - destruct (find_kid dk n); [|reflexivity]. destruct (look _ p); reflexivity.
Qed.

(** * Frames *)
Lemma shaped_frame h h' s : shaped h s -> (forall j, In j (nodes s) -> h' j = h j) -> shaped h' s.
Proof.
  induction s as [i kids IH] using shape_rect'. intros S F. inversion S as [? ? c E D L K]; subst.
  econstructor; [rewrite F by (left; reflexivity); exact E|exact D|exact L|].
  intros n s I. apply (IH n s I (K n s I)). intros j J. apply F. right. apply in_flat_map. exists (n, s). auto.
Qed.
Inductive pshaped (h : heap) : shape -> Prop :=
| pshaped_node i kids :
    (forall n s, In (n, s) kids -> (exists c, h (top s) = Some c /\ nd_parent c = Some i) /\ pshaped h s) ->
    pshaped h (Shape i kids).
Lemma top_in s : In (top s) (nodes s).
Proof. destruct s. left. reflexivity. Qed.
Lemma kid_in n s kids j : In (n, s) kids -> In j (nodes s) -> In j (knodes kids).
Proof. intros I J. apply in_flat_map. exists (n, s). auto. Qed.
(** Only the parent of the top may differ. *)
Lemma pshaped_frame h h' s : pshaped h s -> (forall j, In j (nodes s) -> j <> top s -> h' j = h j) ->
  NoDup (nodes s) -> pshaped h' s.
Proof.
  induction s as [i kids IH] using shape_rect'. intros P F N. inversion P as [? ? K]; subst.
  rewrite nodes_eq in N. inversion_clear N as [|? ? Ni Nk]. cbn [top] in F.
  assert (F' : forall n s j, In (n, s) kids -> In j (nodes s) -> h' j = h j).
  { intros n s j I J. apply F; [right; apply (kid_in n s); assumption|]. intros ->. apply Ni. eapply kid_in; eassumption. }
  constructor. intros n s I. destruct (K n s I) as [(c & E & Q) Ps]. split.
  - exists c. rewrite (F' n s); [auto|exact I|apply top_in].
  - apply (IH n s I Ps); [intros j J _; apply (F' n s j I J)|].
    apply in_split in I as (a & b & ->). unfold knodes in Nk. rewrite flat_map_app in Nk.
    cbn [flat_map snd] in Nk.
    apply (NoDup_count_occ Z.eq_dec). intro x. apply (NoDup_count_occ Z.eq_dec) with (x := x) in Nk.
    rewrite !cnt_app in Nk. lia.
Qed.

Lemma same_self_refl h : same_self h h.
Proof. intro i. destruct (h i); auto. Qed.
Lemma same_self_trans a b c : same_self a b -> same_self b c -> same_self a c.
Proof.
  intros H K i. specialize (H i). specialize (K i). destruct (a i), (b i), (c i); try contradiction; auto.
  destruct H, K. split; congruence.
Qed.
Lemma put_self h i c c' : h i = Some c -> nd_name c' = nd_name c -> nd_kind c' = nd_kind c -> same_self h (put h i c').
Proof.
  intros E N K j. destruct (Z.eq_dec j i) as [->|H]; [rewrite put_same, E; auto|].
  rewrite put_other by exact H. destruct (h j); auto.
Qed.

Definition same_parent (h h' : heap) (i : id) : Prop :=
  forall c, h i = Some c -> exists c', h' i = Some c' /\ nd_parent c' = nd_parent c.
Lemma same_parent_trans a b c i : same_parent a b i -> same_parent b c i -> same_parent a c i.
Proof. intros H K x E. destruct (H x E) as (y & F & P). destruct (K y F) as (z & G & Q). exists z. split; congruence. Qed.

Definition moved (s d : shape) (h h' : heap) : Prop :=
  shaped h' (merge s d) /\
  (forall j, ~ In j (nodes s) -> ~ In j (nodes d) -> h' j = h j) /\
  same_self h h' /\ same_parent h h' (top d) /\
  (pshaped h s -> pshaped h d -> pshaped h' (merge s d)).
Definition movable (s : shape) : Prop := forall d h, shaped h s -> shaped h d -> NoDup (nodes s ++ nodes d) ->
  exists h', (forall fuel lk, (length (nodes s) <= fuel)%nat ->
                (forall x, In x lk -> ~ In x (nodes d) /\ (In x (nodes s) -> x = top s)) ->
                transfer fuel lk h (top s) (top d) = Ok h') /\
    moved s d h h' /\ (forall c, h (top s) = Some c -> exists c', h' (top s) = Some c' /\ nd_slots c' = []).

Lemma nd_cnt l : NoDup l -> forall x : Z, (cnt x l <= 1)%nat.
Proof. intros N x. apply (NoDup_count_occ Z.eq_dec) with (x := x) in N. exact N. Qed.
Lemma cnt_nd (l : list Z) : (forall x : Z, (cnt x l <= 1)%nat) -> NoDup l.
Proof. apply (NoDup_count_occ Z.eq_dec). Qed.
Lemma cnt_in x (l : list Z) : In x l <-> (0 < cnt x l)%nat.
Proof. apply count_occ_In. Qed.
Lemma cnt_out x (l : list Z) : ~ In x l <-> cnt x l = 0%nat.
Proof. apply count_occ_not_In. Qed.

Lemma moves_loop ks : (forall n s, In (n, s) ks -> movable s) -> forall dk t h,
  shaped h (Shape t dk) -> (forall n s, In (n, s) ks -> shaped h s) -> NoDup (map fst ks) ->
  NoDup (knodes ks ++ nodes (Shape t dk)) ->
  exists h', (forall f lk, (length (knodes ks) <= f)%nat ->
                (forall x, In x lk -> ~ In x (knodes ks) /\ (In x (nodes (Shape t dk)) -> x = t)) ->
                transfer_loop (transfer f) lk t h (map (fun e => (fst e, top (snd e))) ks) = Ok h') /\
    shaped h' (Shape t (merge_kids ks dk)) /\
    (forall j, ~ In j (knodes ks) -> ~ In j (nodes (Shape t dk)) -> h' j = h j) /\
    same_self h h' /\ same_parent h h' t /\
    (pshaped h (Shape t dk) -> (forall n s, In (n, s) ks -> pshaped h s) -> pshaped h' (Shape t (merge_kids ks dk))).
Proof.
  induction ks as [|[n s] ks IH]; intros M dk t h SD SK NK ND.
  { exists h. split; [reflexivity|]. split; [exact SD|]. split; [auto|]. split; [apply same_self_refl|].
    split; [intros c E; eauto|auto]. }
  cbn [map fst] in NK. inversion_clear NK as [|? ? Nn NK'].
  rewrite knodes_cons in ND. pose proof (nd_cnt _ ND) as C. 
  assert (C' : forall x, (cnt x (nodes s) + cnt x (knodes ks) + (cnt x [t] + cnt x (knodes dk)) <= 1)%nat).
  { intro x. specialize (C x). rewrite nodes_eq in C. change (t :: knodes dk) with ([t] ++ knodes dk) in C.
    rewrite !cnt_app in C. lia. }
  clear C. inversion SD as [? ? ct Et Dd Ld Kd]; subst.
  pose proof (SK n s (or_introl eq_refl)) as Ss.
  destruct (find_kid dk n) as [d|] eqn:Fd.
  - (* same name: merge *)
    pose proof (find_in _ _ _ Fd) as Id. pose proof (Kd _ _ Id) as Sd.
    assert (Cd : forall x, (cnt x (nodes d) <= cnt x (knodes dk))%nat).
    { intro x. apply in_split in Id as (a & b & ->). unfold knodes. rewrite flat_map_app. cbn [flat_map snd].
      rewrite !cnt_app. lia. }
    destruct (M n s (or_introl eq_refl) d h Ss Sd) as (h1 & T & (S1 & F1 & Q1 & P1 & W1) & _).
    { apply cnt_nd. intro x. rewrite cnt_app. specialize (C' x). specialize (Cd x). lia. }
    assert (Out : forall j, cnt j (nodes s) = 0%nat -> cnt j (nodes d) = 0%nat -> h1 j = h j).
    { intros j A B. apply F1; apply cnt_out; assumption. }
    assert (Ht : h1 t = h t).
    { apply Out; specialize (C' t); specialize (Cd t); cbn [count_occ] in C'; destruct (Z.eq_dec t t); try contradiction; lia. }
    assert (Hup : exists pre post, dk = pre ++ (n, d) :: post /\ upsert (merge s) n s dk = pre ++ (n, merge s d) :: post).
    { clear -Fd. induction dk as [|[k x] dk IHd]; [discriminate|]. cbn [find_kid upsert] in *.
      destruct (text_eqb k n) eqn:E.
      - injection Fd as ->. apply text_eqb_eq in E. subst k. exists [], dk. auto.
      - destruct (IHd Fd) as (pre & post & -> & ->). exists ((k, x) :: pre), post. auto. }
    destruct Hup as (pre & post & Hdk & Hup).
    assert (Ck : forall x, (cnt x (knodes dk) = cnt x (knodes pre) + cnt x (nodes d) + cnt x (knodes post))%nat).
    { intro x. rewrite Hdk. unfold knodes. rewrite flat_map_app. cbn [flat_map snd]. rewrite !cnt_app. lia. }
    assert (Cu : forall x, (cnt x (knodes (upsert (merge s) n s dk)) <= cnt x (nodes s) + cnt x (knodes dk))%nat).
    { intro x. apply upsert_cnt. intro. apply merge_cnt. }
    assert (Sib : forall m u, In (m, u) pre \/ In (m, u) post -> forall j, In j (nodes u) -> h1 j = h j).
    { intros m u I j J. assert (Z : (0 < cnt j (knodes pre) + cnt j (knodes post))%nat).
      { destruct I as [I|I]; apply (kid_in _ _ _ _ I) in J; apply cnt_in in J; lia. }
      specialize (C' j). specialize (Ck j). apply Out; lia. }
    assert (S1' : shaped h1 (Shape t (upsert (merge s) n s dk))).
    { econstructor; [rewrite Ht; exact Et|apply upsert_fst, Dd|..].
      - rewrite Ld, Hup, Hdk, !map_app. cbn [map fst snd]. rewrite merge_top. reflexivity.
      - intros m u I. rewrite Hup in I. apply in_app_or in I as [I|[[= <- <-]|I]]; [|exact S1|].
        + apply (shaped_frame h); [apply (Kd m); rewrite Hdk; apply in_or_app; auto|]. apply (Sib m); auto.
        + apply (shaped_frame h); [apply (Kd m); rewrite Hdk; apply in_or_app; right; right; auto|]. apply (Sib m); auto. }
    assert (Later : forall m u, In (m, u) ks -> forall j, In j (nodes u) -> h1 j = h j).
    { intros m u I j J. apply (kid_in _ _ _ _ I) in J. apply cnt_in in J. specialize (C' j). specialize (Cd j). apply Out; lia. }
    destruct (IH (fun m u I => M m u (or_intror I)) (upsert (merge s) n s dk) t h1 S1') as (h' & T' & S' & F' & Q' & P' & W').
    { intros m u I. apply (shaped_frame h); [apply (SK m u (or_intror I))|]. apply (Later m u I). }
    { exact NK'. }
    { apply cnt_nd. intro x. rewrite nodes_eq. change (t :: ?l) with ([t] ++ l). rewrite !cnt_app.
      specialize (C' x). specialize (Cu x). lia. }
    exists h'. split; [|split; [exact S'|split; [|split; [eapply same_self_trans; eassumption|split]]]].
    + intros f lk Hf Hlk. cbn [map fst snd transfer_loop]. rewrite knodes_cons, app_length in Hf.
      rewrite held_out. 2:{ intro I. apply (proj1 (Hlk _ I)). rewrite knodes_cons. apply in_or_app. left. apply top_in. }
      unfold node_at. rewrite Et, Ld, get_find, Fd. cbn [option_map].
      rewrite T; [cbn [rbind]|lia|].
      * apply T'; [lia|]. intros x I. destruct (Hlk x I) as [A B]. split.
        -- intro J. apply A. rewrite knodes_cons. apply in_or_app. auto.
        -- rewrite nodes_eq. intros [J|J]; [auto|]. apply cnt_in in J. specialize (Cu x). specialize (C' x).
           apply B. rewrite nodes_eq. right. apply cnt_in. apply cnt_out in A. rewrite knodes_cons, cnt_app in A. lia.
      * intros x [<-|I].
        -- split; [|auto]. apply cnt_out. assert (Z := top_in s). apply cnt_in in Z. specialize (C' (top s)). specialize (Cd (top s)). lia.
        -- destruct (Hlk x I) as [A B]. split.
           ++ intro J. assert (J' : In x (knodes dk)) by (eapply kid_in; eassumption). rewrite nodes_eq in B.
              specialize (B (or_intror J')). subst x. apply cnt_in in J'. specialize (C' t). cbn [count_occ] in C'.
              destruct (Z.eq_dec t t); [lia|contradiction].
           ++ intro J. destruct A. rewrite knodes_cons. apply in_or_app. auto.
    + intros j A B. rewrite knodes_cons in A. rewrite nodes_eq in B.
      assert (A1 : cnt j (nodes s) = 0%nat) by (apply cnt_out; intro; apply A, in_or_app; auto).
      assert (B1 : cnt j (knodes dk) = 0%nat) by (apply cnt_out; intro; apply B; right; auto).
      rewrite F', Out; [reflexivity|exact A1|specialize (Cd j); lia|intro; apply A, in_or_app; auto|].
      rewrite nodes_eq. intros [J|J]; [apply B; left; exact J|]. apply cnt_in in J. specialize (Cu j). lia.
    + eapply same_parent_trans; [|exact P']. intros c E. exists c. rewrite Ht. auto.
    + intros PD PK. apply W'; [|intros m u I].
      2:{ apply (pshaped_frame h); [apply (PK m u (or_intror I))|intros j J _; apply (Later m u I j J)|].
          apply cnt_nd. intro x. apply in_split in I as (a & b & ->). specialize (C' x). unfold knodes in C' at 1.
          rewrite flat_map_app in C'. cbn [flat_map snd] in C'. rewrite !cnt_app in C'. lia. }
      inversion_clear PD as [? ? KP]. rewrite Hdk in KP.
      constructor. intros m u I. rewrite Hup in I. apply in_app_or in I as [I|[[= <- <-]|I]].
      * assert (Iu : In (m, u) (pre ++ (n, d) :: post)) by (apply in_or_app; auto).
        destruct (KP m u Iu) as [(c & E & Q) Pu]. split.
        -- exists c. rewrite (Sib m u); [auto|auto|apply top_in].
        -- apply (pshaped_frame h); [exact Pu|intros j J _; apply (Sib m u); auto|].
           apply cnt_nd. intro x. apply in_split in I as (a & b & ->). specialize (C' x). specialize (Ck x). unfold knodes in Ck at 2.
           rewrite flat_map_app in Ck. cbn [flat_map snd] in Ck. rewrite !cnt_app in Ck. lia.
      * assert (Iu : In (n, d) (pre ++ (n, d) :: post)) by (apply in_or_app; right; left; reflexivity).
        destruct (KP n d Iu) as [(c & E & Q) Pu]. split.
        -- rewrite merge_top. destruct (P1 c E) as (c' & E' & Qc). exists c'. split; [exact E'|congruence].
        -- apply W1; [apply (PK n s (or_introl eq_refl))|exact Pu].
      * assert (Iu : In (m, u) (pre ++ (n, d) :: post)) by (apply in_or_app; right; right; auto).
        destruct (KP m u Iu) as [(c & E & Q) Pu]. split.
        -- exists c. rewrite (Sib m u); [auto|auto|apply top_in].
        -- apply (pshaped_frame h); [exact Pu|intros j J _; apply (Sib m u); auto|].
           apply cnt_nd. intro x. apply in_split in I as (a & b & ->). specialize (C' x). specialize (Ck x). unfold knodes in Ck at 3.
           rewrite flat_map_app in Ck. cbn [flat_map snd] in Ck. rewrite !cnt_app in Ck. lia.
  - (* new name: move *)
    destruct (shaped_alive _ _ Ss) as [cs Es].
    assert (Cs := top_in s). apply cnt_in in Cs.
    assert (Nt : t <> top s).
    { intros ->. specialize (C' (top s)). cbn [count_occ] in C'. destruct (Z.eq_dec (top s) (top s)); [lia|contradiction]. }
    set (h1 := insert_child (set_parent h (top s) t) t n (top s)).
    assert (Hup : upsert (merge s) n s dk = dk ++ [(n, s)]).
    { clear -Fd. induction dk as [|[k x] dk IHd]; [reflexivity|]. cbn [find_kid upsert app] in *.
      destruct (text_eqb k n); [discriminate|]. rewrite IHd by exact Fd. reflexivity. }
    assert (H1s : h1 (top s) = Some (mkCell (nd_name cs) (nd_kind cs) (Some t) (nd_slots cs))).
    { unfold h1, insert_child, set_parent. rewrite Es. rewrite put_other by exact Nt. rewrite Et.
      rewrite put_other by (intro; apply Nt; congruence). apply put_same. }
    assert (H1t : h1 t = Some (mkCell (nd_name ct) (nd_kind ct) (nd_parent ct) (nd_slots ct ++ [(n, top s)]))).
    { unfold h1, insert_child, set_parent. rewrite Es. rewrite put_other by exact Nt. rewrite Et, put_same.
      rewrite insert_fst_new; [reflexivity|]. rewrite Ld, get_find, Fd. reflexivity. }
    assert (Out : forall j, j <> t -> j <> top s -> h1 j = h j).
    { intros j A B. unfold h1, insert_child, set_parent. rewrite Es. rewrite put_other by exact Nt. rewrite Et.
      rewrite !put_other by assumption. reflexivity. }
    assert (Q1 : same_self h h1).
    { intro j. destruct (Z.eq_dec j t) as [->|A]; [rewrite H1t, Et; auto|].
      destruct (Z.eq_dec j (top s)) as [->|B]; [rewrite H1s, Es; auto|]. rewrite Out by assumption. destruct (h j); auto. }
    assert (Ct : forall x, (0 < cnt x (nodes s) -> x <> t)%nat).
    { intros x A ->. specialize (C' t). cbn [count_occ] in C'. destruct (Z.eq_dec t t); [lia|contradiction]. }
    assert (Kt : forall x, (0 < cnt x (knodes dk) \/ 0 < cnt x (knodes ks) -> x <> t /\ x <> top s)%nat).
    { intros x A. split; intros ->.
      - specialize (C' t). cbn [count_occ] in C'. destruct (Z.eq_dec t t); [lia|contradiction].
      - specialize (C' (top s)). lia. }
    assert (Sib : forall m u, In (m, u) dk \/ In (m, u) ks -> forall j, In j (nodes u) -> h1 j = h j).
    { intros m u I j J. apply Out; apply (Kt j); (destruct I as [I|I]; apply (kid_in _ _ _ _ I) in J; apply cnt_in in J; lia). }
    assert (Ns : NoDup (nodes s)) by (apply cnt_nd; intro x; specialize (C' x); lia).
    assert (Below : forall j, In j (nodes s) -> j <> top s -> h1 j = h j).
    { intros j J A. apply cnt_in in J. apply Out; [apply Ct, J|exact A]. }
    assert (S1' : shaped h1 (Shape t (dk ++ [(n, s)]))).
    { econstructor; [exact H1t|..].
      - rewrite <- Hup. apply upsert_fst, Dd.
      - cbn [nd_slots]. rewrite Ld, map_app. reflexivity.
      - intros m u I. apply in_app_or in I as [I|[[= <- <-]|[]]].
        + apply (shaped_frame h); [apply (Kd m u I)|]. apply (Sib m u). auto.
        + destruct s as [is ks']. inversion Ss as [? ? c0 E0 D0 L0 K0]; subst. cbn [top] in *.
          rewrite nodes_eq in Ns. inversion_clear Ns as [|? ? Ni _].
          rewrite E0 in Es. injection Es as <-. econstructor; [exact H1s|exact D0|exact L0|].
          intros m u I. apply (shaped_frame h); [apply (K0 m u I)|]. intros j J.
          apply (kid_in _ _ _ _ I) in J. apply Below; [right; exact J|]. intros ->. contradiction. }
    assert (Cu : forall x, cnt x (knodes (dk ++ [(n, s)])) = (cnt x (nodes s) + cnt x (knodes dk))%nat).
    { intro x. unfold knodes. rewrite flat_map_app. cbn [flat_map snd]. rewrite !cnt_app. cbn [count_occ]. lia. }
    destruct (IH (fun m u I => M m u (or_intror I)) (dk ++ [(n, s)]) t h1 S1') as (h' & T' & S' & F' & Q' & P' & W').
    { intros m u I. apply (shaped_frame h); [apply (SK m u (or_intror I))|]. apply (Sib m u). auto. }
    { exact NK'. }
    { apply cnt_nd. intro x. rewrite nodes_eq. change (t :: ?l) with ([t] ++ l). rewrite !cnt_app, Cu.
      specialize (C' x). lia. }
    exists h'. cbn [merge_kids]. rewrite Hup.
    split; [|split; [exact S'|split; [|split; [eapply same_self_trans; eassumption|split]]]].
    + intros f lk Hf Hlk. cbn [map fst snd transfer_loop]. rewrite knodes_cons, app_length in Hf.
      rewrite held_out. 2:{ intro I. apply (proj1 (Hlk _ I)). rewrite knodes_cons. apply in_or_app. left. apply top_in. }
      unfold node_at. rewrite Et, Ld, get_find, Fd. cbn [option_map]. fold h1.
      apply T'; [lia|]. intros x I. destruct (Hlk x I) as [A B]. rewrite knodes_cons in A. split.
      * intro J. apply A. apply in_or_app. auto.
      * rewrite nodes_eq. intros [J|J]; [auto|]. apply cnt_in in J. rewrite Cu in J.
        apply B. rewrite nodes_eq. right. apply cnt_in. apply cnt_out in A. rewrite cnt_app in A. lia.
    + intros j A B. rewrite knodes_cons in A. rewrite nodes_eq in B.
      assert (A1 : cnt j (nodes s) = 0%nat) by (apply cnt_out; intro; apply A, in_or_app; auto).
      assert (B1 : cnt j (knodes dk) = 0%nat) by (apply cnt_out; intro; apply B; right; auto).
      rewrite F', Out; [reflexivity|intros ->; apply B; left; reflexivity|intros ->; lia|intro; apply A, in_or_app; auto|].
      rewrite nodes_eq. intros [J|J]; [apply B; left; exact J|]. apply cnt_in in J. rewrite Cu in J. lia.
    + eapply same_parent_trans; [|exact P']. intros c E. rewrite Et in E. injection E as <-. eexists. rewrite H1t. split; reflexivity.
    + intros PD PK. assert (Nk : forall l m u, In (m, u) l -> (forall x, (cnt x (knodes l) <= 1)%nat) -> NoDup (nodes u)).
      { intros l m u I L. apply cnt_nd. intro x. specialize (L x). apply in_split in I as (a & b & ->). unfold knodes in L.
        rewrite flat_map_app in L. cbn [flat_map snd] in L. rewrite !cnt_app in L. lia. }
      apply W'; [|intros m u I].
      2:{ apply (pshaped_frame h); [apply (PK m u (or_intror I))|intros j J _; apply (Sib m u); auto|].
          apply (Nk ks m u I). intro x. specialize (C' x). lia. }
      inversion_clear PD as [? ? KP].
      constructor. intros m u I. apply in_app_or in I as [I|[[= <- <-]|[]]].
      * destruct (KP m u I) as [(c & E & Q) Pu]. split.
        -- exists c. rewrite (Sib m u); [auto|auto|apply top_in].
        -- apply (pshaped_frame h); [exact Pu|intros j J _; apply (Sib m u); auto|].
           apply (Nk dk m u I). intro x. specialize (C' x). lia.
      * split; [eexists; rewrite H1s; split; reflexivity|].
        apply (pshaped_frame h); [apply (PK n s (or_introl eq_refl))|exact Below|exact Ns].
Qed.

Lemma all_movable s : movable s.
Proof.
  induction s as [i ks IH] using shape_rect'. intros [t dk] h Ss Sd N.
  inversion Ss as [? ? c E D L K]; subst. pose proof (nd_cnt _ N) as C.
  assert (C' : forall x, (cnt x [i] + cnt x (knodes ks) + (cnt x [t] + cnt x (knodes dk)) <= 1)%nat).
  { intro x. specialize (C x). rewrite !nodes_eq in C. change (t :: knodes dk) with ([t] ++ knodes dk) in C.
    change (i :: knodes ks) with ([i] ++ knodes ks) in C. rewrite !cnt_app in C. lia. }
  clear C. assert (Ci : cnt i [i] = 1%nat) by (cbn; destruct (Z.eq_dec i i); [reflexivity|contradiction]).
  assert (Ct : cnt t [t] = 1%nat) by (cbn; destruct (Z.eq_dec t t); [reflexivity|contradiction]).
  set (h0 := put h i (mkCell (nd_name c) (nd_kind c) (nd_parent c) [])).
  assert (F0 : forall j, cnt j [i] = 0%nat -> h0 j = h j).
  { intros j J. apply put_other. intros ->. lia. }
  assert (Nti : i <> t) by (intros ->; specialize (C' t); lia).
  destruct (moves_loop ks IH dk t h0) as (h' & T & S' & F' & Q' & P' & W').
  { apply (shaped_frame h); [exact Sd|]. intros j J. apply F0. rewrite nodes_eq in J.
    destruct J as [<-|J]; [specialize (C' t); lia|]. apply cnt_in in J. specialize (C' j). lia. }
  { intros n s I. apply (shaped_frame h); [apply (K n s I)|]. intros j J. apply F0. apply (kid_in _ _ _ _ I) in J.
    apply cnt_in in J. specialize (C' j). lia. }
  { exact D. }
  { apply cnt_nd. intro x. rewrite nodes_eq. change (t :: ?l) with ([t] ++ l). rewrite !cnt_app. specialize (C' x). lia. }
  assert (Hi : h' i = h0 i).
  { apply F'; [apply cnt_out; specialize (C' i); lia|]. rewrite nodes_eq. intros [J|J]; [congruence|].
    apply cnt_in in J. specialize (C' i). lia. }
  exists h'. split; [|split].
  - intros fuel lk Hf Hlk. rewrite nodes_eq in Hf. cbn [length] in Hf. destruct fuel as [|f]; [lia|]. cbn [transfer top].
    rewrite held_out. 2:{ intro I. apply (proj1 (Hlk _ I)). left. reflexivity. }
    rewrite E, L. fold h0. apply T; [lia|]. intros x [<-|I].
    + split; [|auto]. apply cnt_out. specialize (C' t). lia.
    + destruct (Hlk x I) as [A B]. split.
      * intro J. assert (x = i) by (apply B; right; exact J). subst. apply cnt_in in J. specialize (C' i). lia.
      * intro J. contradiction.
  - split; [|split; [|split; [|split]]].
    + rewrite merge_eq. exact S'.
    + intros j A B. rewrite nodes_eq in A. rewrite F', F0; [reflexivity|apply cnt_out; intros [<-|[]]; apply A; left; reflexivity|..|exact B].
      intro J. apply A. right. exact J.
    + eapply same_self_trans; [|exact Q']. eapply put_self; [exact E|reflexivity..].
    + intros c' E'. cbn [top] in *. apply P'. rewrite F0; [exact E'|]. specialize (C' t). lia.
    + intros Ps Pd. rewrite merge_eq. apply W'.
      * apply (pshaped_frame h); [exact Pd| |apply cnt_nd; intro x; rewrite nodes_eq; change (t :: ?l) with ([t] ++ l); rewrite cnt_app; specialize (C' x); lia].
        intros j J _. apply F0. rewrite nodes_eq in J. destruct J as [<-|J]; [specialize (C' t); lia|]. apply cnt_in in J. specialize (C' j). lia.
      * intros n s I. inversion_clear Ps as [? ? KP]. apply (pshaped_frame h); [apply (KP n s I)|..].
        -- intros j J _. apply F0. apply (kid_in _ _ _ _ I) in J. apply cnt_in in J. specialize (C' j). lia.
        -- apply cnt_nd. intro x. specialize (C' x). apply in_split in I as (a & b & ->). unfold knodes in C' at 1.
           rewrite flat_map_app in C'. cbn [flat_map snd] in C'. rewrite !cnt_app in C'. lia.
  - intros c' E'. cbn [top]. rewrite Hi. unfold h0. rewrite put_same. eexists. split; reflexivity.
Qed.

Lemma pshaped_parented h s : shaped h s -> pshaped h s <-> parented h (top s).
Proof.
  intro S. split.
  - intros P p j n k H. revert n k. remember (top s) as i eqn:Ei. revert s S P Ei.
    induction H as [i c E|i m k p j Sl H IH]; intros s S P Ei n x Sx.
    + subst i. destruct s as [i kids]. inversion S as [? ? c' E' D L K]; subst. cbn [top] in *.
      destruct (slot_shape _ _ _ _ _ _ E' L Sx) as (u & I & <-). inversion_clear P as [? ? KP].
      apply (KP n u I).
    + subst i. destruct s as [i kids]. inversion S as [? ? c' E' D L K]; subst. cbn [top] in *.
      destruct (slot_shape _ _ _ _ _ _ E' L Sl) as (u & I & <-). inversion_clear P as [? ? KP].
      apply (IH u (K m u I) (proj2 (KP m u I)) eq_refl n x Sx).
  - revert S. induction s as [i kids IH] using shape_rect'. intros S P. inversion S as [? ? c E D L K]; subst.
    constructor. intros n s I. pose proof (shape_slot _ _ _ _ _ _ E L D I) as Sl. split.
    + apply (P [] i n); [eapply down_here; exact E|exact Sl].
    + apply (IH n s I (K n s I)). intros p j m k H. apply (P (n :: p)). eapply down_step; eassumption.
Qed.

(** * Repairing parents *)
Lemma sbp_refl h : same_but_parents h h.
Proof. intro i. destruct (h i); auto. Qed.
Lemma sbp_trans a b c : same_but_parents a b -> same_but_parents b c -> same_but_parents a c.
Proof.
  intros H K i. specialize (H i). specialize (K i). destruct (a i), (b i), (c i); try contradiction; auto.
  destruct H as (? & ? & ?), K as (? & ? & ?). repeat split; congruence.
Qed.
Lemma shaped_sbp h h' s : same_but_parents h h' -> shaped h s -> shaped h' s.
Proof.
  intro B. induction s as [i kids IH] using shape_rect'. intro S. inversion_clear S as [? ? c E D L K].
  specialize (B i). rewrite E in B. destruct (h' i) as [c'|] eqn:E'; [|contradiction]. destruct B as (_ & _ & B).
  econstructor; [exact E'|exact D|congruence|]. intros n s I. apply (IH n s I (K n s I)).
Qed.
Definition fixable (s : shape) : Prop := forall h, shaped h s -> NoDup (nodes s) ->
  exists h', (forall fuel, (length (nodes s) <= fuel)%nat -> resolve_childs_parent fuel h (top s) = Ok h') /\
    pshaped h' s /\ (forall j, ~ In j (nodes s) \/ j = top s -> h' j = h j) /\ same_but_parents h h'.

Lemma fix_loop i ks : (forall n s, In (n, s) ks -> fixable s) -> forall h,
  (forall n s, In (n, s) ks -> shaped h s) -> NoDup (i :: knodes ks) ->
  exists h', (forall f, (length (knodes ks) <= f)%nat ->
      fix_parents_loop (resolve_childs_parent f) i h (map (fun e => (fst e, top (snd e))) ks) = Ok h') /\
    (forall n s, In (n, s) ks -> (exists c, h' (top s) = Some c /\ nd_parent c = Some i) /\ pshaped h' s) /\
    (forall j, ~ In j (knodes ks) -> h' j = h j) /\ same_but_parents h h'.
Proof.
  induction ks as [|[n s] ks IH]; intros M h SK N.
  { exists h. split; [reflexivity|]. split; [intros ? ? []|]. split; [auto|apply sbp_refl]. }
  pose proof (nd_cnt _ N) as C. change (i :: ?l) with ([i] ++ l) in C. rewrite knodes_cons in C.
  assert (C' : forall x, (cnt x [i] + (cnt x (nodes s) + cnt x (knodes ks)) <= 1)%nat).
  { intro x. specialize (C x). rewrite !cnt_app in C. exact C. } clear C.
  pose proof (SK n s (or_introl eq_refl)) as Ss. destruct (shaped_alive _ _ Ss) as [cs Es].
  set (h0 := set_parent h (top s) i).
  assert (H0s : h0 (top s) = Some (mkCell (nd_name cs) (nd_kind cs) (Some i) (nd_slots cs))).
  { unfold h0, set_parent. rewrite Es. apply put_same. }
  assert (H0o : forall j, j <> top s -> h0 j = h j).
  { intros j J. unfold h0, set_parent. rewrite Es. apply put_other, J. }
  assert (B0 : same_but_parents h h0).
  { intro j. destruct (Z.eq_dec j (top s)) as [->|J]; [rewrite H0s, Es; auto|]. rewrite H0o by exact J. destruct (h j); auto. }
  assert (Ns : NoDup (nodes s)) by (apply cnt_nd; intro x; specialize (C' x); lia).
  destruct (M n s (or_introl eq_refl) h0 (shaped_sbp _ _ _ B0 Ss) Ns) as (h1 & T1 & P1 & F1 & B1).
  assert (B01 := sbp_trans _ _ _ B0 B1).
  destruct (IH (fun m u I => M m u (or_intror I)) h1) as (h' & T' & P' & F' & B').
  { intros m u I. apply (shaped_sbp _ _ _ B01), (SK m u (or_intror I)). }
  { apply cnt_nd. intro x. change (i :: ?l) with ([i] ++ l). rewrite cnt_app. specialize (C' x). lia. }
  exists h'. split; [|split; [|split; [|eapply sbp_trans; eassumption]]].
  - intros f Hf. rewrite knodes_cons, app_length in Hf. cbn [map fst snd fix_parents_loop]. fold h0.
    rewrite T1 by lia. apply T'. lia.
  - intros m u [[= <- <-]|I]; [|apply (P' m u I)].
    assert (O : forall j, In j (nodes s) -> h' j = h1 j).
    { intros j J. apply F'. apply cnt_in in J. apply cnt_out. specialize (C' j). lia. }
    split.
    + eexists. rewrite O by apply top_in. rewrite F1 by (right; reflexivity). rewrite H0s. split; reflexivity.
    + apply (pshaped_frame h1); [exact P1|intros j J _; apply O, J|exact Ns].
  - intros j J. rewrite knodes_cons in J. rewrite F' by (intro; apply J, in_or_app; auto).
    rewrite F1 by (left; intro; apply J, in_or_app; auto). apply H0o. intros ->. apply J, in_or_app. left. apply top_in.
Qed.
Lemma all_fixable s : fixable s.
Proof.
  induction s as [i ks IH] using shape_rect'. intros h S N. inversion S as [? ? c E D L K]; subst.
  rewrite nodes_eq in N. destruct (fix_loop i ks IH h K N) as (h' & T & P & F & B). exists h'.
  inversion_clear N as [|? ? Ni _].
  split; [|split; [constructor; exact P|split; [|exact B]]].
  - intros fuel Hf. rewrite nodes_eq in Hf. cbn [length] in Hf. destruct fuel as [|f]; [lia|]. cbn [resolve_childs_parent top].
    rewrite E, L. apply T. lia.
  - intros j [J|J]; apply F; [intro I; apply J; right; exact I|]. cbn [top] in J. subst j. exact Ni.
Qed.
