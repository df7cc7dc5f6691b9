(** The JSON of a parsed image: lemmas. *)
From Coq Require Import ZArith List Bool Lia ZifyBool ZifyNat Sorted.
From Coq Require String Ascii.
From Verif.Model Require Import Base Utf Keys Reader WzStr Image Json.
From Verif.Spec Require Import PropWire Version PropView JsonView JsonProp.
From Verif.Proofs Require Import BaseL ImageL JsonL.
Import ListNotations. Import String.StringSyntax.
Open Scope Z_scope.

Scheme shows_mut1 := Minimality for shows Sort Prop
  with shows_mut2 := Minimality for shows_kids Sort Prop
  with shows_mut3 := Minimality for shows_items Sort Prop.
Combined Scheme shows_mut from shows_mut1, shows_mut2, shows_mut3.

Section View.
  Variable r : rd.
  Definition viewed (kids : list (text * node)) : list (text * jnode) :=
    map (fun kc => (fst kc, view r (fst kc) (snd kc))) kids.

  Lemma kid_insert_new l k n : ~ In k (map fst l) -> kid_insert l k n = l ++ [(k, n)].
  Proof.
    induction l as [|[a x] l IH]; intro N; [reflexivity|]. cbn in *.
    destruct (text_eqb a k) eqn:E; [apply text_eqb_eq in E; tauto|]. rewrite IH by tauto. reflexivity.
  Qed.
  Lemma view_eq nm o kids : NoDup (map fst kids) -> view r nm (Node o kids) = JNode nm (view_obj r o) (viewed kids).
  Proof.
    intro N. cbn [view]. f_equal.
    assert (G : forall l acc, NoDup (map fst l) -> (forall k, In k (map fst l) -> ~ In k (map fst acc)) ->
      (fix go (l : list (text * node)) (acc : list (text * jnode)) {struct l} :=
        match l with
        | [] => acc
        | (k, c) :: t => go t (kid_insert acc k (view r k c))
        end) l acc = acc ++ viewed l).
    { induction l as [|[k c] l IH]; intros acc D H; [rewrite app_nil_r; reflexivity|].
      cbn [map fst] in *. apply NoDup_cons_iff in D. destruct D as [D1 D2].
      rewrite kid_insert_new by (apply H; left; reflexivity). rewrite IH; [rewrite <- app_assoc; reflexivity|exact D2|].
      intros a I. rewrite map_app, in_app_iff. cbn. intros [J|[J|[]]]; [apply (H a); [right; exact I|exact J]|]. subst. contradiction. }
    rewrite G; [reflexivity|exact N|]. intros k _ [].
  Qed.

  Lemma viewed_keys kids : map fst (viewed kids) = map fst kids.
  Proof. unfold viewed. rewrite map_map. reflexivity. Qed.

  Definition matched (ps : list (list Z * prop)) (vs : list (text * json)) : Prop :=
    Forall2 (fun kp kv => fst kp = fst kv /\ says (rd_buf r) (snd kp) (snd kv)) ps vs.
  Lemma matched_in ps vs k p : matched ps vs -> In (k, p) ps -> exists v, In (k, v) vs /\ says (rd_buf r) p v.
  Proof.
    induction 1 as [|[a x] [b v] ps vs [E F] H IH]; intro I; [destruct I|]. cbn in *. subst.
    destruct I as [Q|I]; [injection Q as -> ->; eauto|]. destruct (IH I) as (w & J & K). eauto.
  Qed.
  Lemma matched_keys ps vs : matched ps vs -> map fst vs = map fst ps.
  Proof. induction 1 as [|[a x] [b v] ps vs [E F] H IH]; [reflexivity|]. cbn in *. subst b. rewrite IH. reflexivity. Qed.

  (** The common part: an inner node whose children are done. *)
  Lemma inner_says nm o p l kids vs :
    lists p l -> NoDup (map fst kids) -> kids <> [] -> matched l vs -> each simple_json (viewed kids) vs ->
    (forall k v, extra (view_obj r o) k v <-> size_field p k v) ->
    exists j, simple_json (view r nm (Node o kids)) = Ok j /\ says (rd_buf r) p j.
  Proof.
    intros L N NE M V X. rewrite view_eq by exact N.
    assert (NV : viewed kids <> []) by (destruct kids; [congruence|discriminate]).
    rewrite simple_inner by exact NV. rewrite (loop_of _ _ _ _ V). eexists. split; [reflexivity|].
    pose proof (each_keys _ _ _ V) as Ke. rewrite viewed_keys in Ke. pose proof (matched_keys _ _ M) as Km.
    destruct (own_extra (view_obj r o)) as [So Io].
    assert (W : forall k v, In (k, v) (put vs (own_fields (view_obj r o))) <-> In (k, v) vs \/ (~ In k (map fst l) /\ size_field p k v)).
    { intros k v. rewrite put_in; [|exact So|rewrite Ke; exact N]. rewrite Io, X, Km. reflexivity. }
    eapply says_inner with (l := l).
    - exact L.
    - intros ->. inversion M; subst. rewrite <- (viewed_keys kids) in Ke. destruct (viewed kids); [congruence|discriminate].
    - apply sorted_nodup, put_sorted, So.
    - intros k c I. destruct (matched_in _ _ _ _ M I) as (v & J & S). exists v. split; [apply W; auto|exact S].
    - intros k v S I. apply W. auto.
    - intros k v I. apply W in I. destruct I as [I|[_ I]]; [|auto]. left. rewrite <- Km. apply (in_map fst) in I. exact I.
  Qed.

  Lemma kids_keys kids ps : shows_kids r kids ps -> map fst kids = map fst ps.
  Proof. induction 1; cbn; [reflexivity|]. rewrite IHshows_kids. reflexivity. Qed.
  Lemma items_keys i kids ps : shows_items r i kids ps -> 0 <= i ->
    (forall n k, nth_error (map fst kids) n = Some k -> exists ds, decimal (i + Z.of_nat n) ds /\ k = map (Z.add 48) ds) /\
    length kids = length ps.
  Proof.
    induction 1 as [i|i ds n v kids ps D Sh K IH]; intro Hi; [split; [intros [|n] k E; discriminate|reflexivity]|].
    destruct IH as [IH L]; [lia|]. split; [|cbn; congruence]. intros [|m] k E; cbn in E.
    - injection E as <-. exists ds. rewrite Z.add_0_r. auto.
    - destruct (IH m k E) as (d & Dd & ->). exists d. split; [|reflexivity]. replace (i + Z.of_nat (S m)) with (i + 1 + Z.of_nat m) by lia. exact Dd.
  Qed.
  Lemma map_add_inj a b : map (Z.add 48) a = map (Z.add 48) b -> a = b.
  Proof. revert b. induction a as [|x a IH]; intros [|y b] E; try discriminate; [reflexivity|]. cbn [map] in E. assert (Q : 48 + x = 48 + y) by congruence. assert (F : map (Z.add 48) a = map (Z.add 48) b) by congruence. f_equal; [lia|auto]. Qed.
  Lemma items_nodup i kids ps : shows_items r i kids ps -> 0 <= i -> NoDup (map fst kids).
  Proof.
    intros H Hi. destruct (items_keys _ _ _ H Hi) as [K _]. apply NoDup_nth_error. intros a b La E.
    destruct (nth_error (map fst kids) a) as [x|] eqn:Ea; [|apply nth_error_None in Ea; lia].
    destruct (K _ _ Ea) as (d & Dd & ->). destruct (K _ _ (eq_sym E)) as (d' & Dd' & Q). apply map_add_inj in Q. subst d'.
    destruct Dd as (_ & _ & H1 & _). destruct Dd' as (_ & _ & H2 & _). lia.
  Qed.

  Lemma single_finite bits b : single_is bits b -> finite_single bits.
  Proof.
    unfold finite_single. intros [[_ ->]|(H1 & H2 & _)]; [reflexivity|]. rewrite Z.mod_small by lia. lia.
  Qed.

  Lemma no_size p k v : size_field p k v -> exists w h f s pg hd off size ps, p = PCanvas w h f s pg hd off size ps.
  Proof. intro H. inversion H; repeat eexists. Qed.

  Lemma tidy_kids_inv ps : tidy_kids ps -> NoDup (map fst ps) /\ forall k p, In (k, p) ps -> tidy p.
  Proof. intro H. inversion H. auto. Qed.

  Lemma json_says :
    (forall n p, shows r n p -> forall nm, tidy p -> exists j, simple_json (view r nm n) = Ok j /\ says (rd_buf r) p j) /\
    (forall kids ps, shows_kids r kids ps -> (forall k p, In (k, p) ps -> tidy p) ->
       exists vs, each simple_json (viewed kids) vs /\ matched ps vs) /\
    (forall i kids ps, shows_items r i kids ps -> (forall p, In p ps -> tidy p) ->
       exists vs, each simple_json (viewed kids) vs /\ matched (combine (map fst kids) ps) vs).
  Proof.
    apply shows_mut; intros;
      try (cbn [view view_obj simple_json leaf_json]; eexists; split; [reflexivity|]; constructor; fail).
    - inversion H; subst; [|contradiction]. cbn [view view_obj simple_json leaf_json]. apply finite32_spec in H1. rewrite H1. eexists. split; [reflexivity|constructor].
    - cbn [view view_obj simple_json leaf_json]. rewrite (proj2 (finite32_spec v)) by (eapply single_finite; exact H). eexists. split; [reflexivity|]. constructor. exact H.
    - inversion H; subst; [|contradiction]. cbn [view view_obj simple_json leaf_json]. apply finite64_spec in H1. rewrite H1. eexists. split; [reflexivity|constructor].
    - cbn [view view_obj simple_json leaf_json]. rewrite H. eexists. split; [reflexivity|constructor].
    - cbn [view view_obj simple_json leaf_json]. rewrite H. eexists. split; [reflexivity|constructor].
    - eexists. split; [reflexivity|]. constructor. destruct (put2 (txt "x") (VInt x) (txt "y") (VInt y)) as [N W]; [discriminate|].
      split; [apply sorted_nodup; exact N|exact W].
    - (* sub *) inversion H1; subst; [contradiction|]. apply tidy_kids_inv in H3. destruct H3 as [N T].
      destruct (H0 T) as (vs & V & M). destruct kids as [|kc kids'].
      + inversion H; subst. eexists. split; [reflexivity|]. apply says_empty; [constructor|]. intros k v S. apply no_size in S. decompose [ex] S. discriminate.
      + eapply (inner_says nm OSub); [constructor| |discriminate|exact M|exact V|].
        * rewrite (kids_keys _ _ H). exact N.
        * intros k v. split; intro S; [inversion S|apply no_size in S; decompose [ex] S; discriminate].
    - (* convex *) inversion H1; subst; [contradiction|].
      destruct (H0 H3) as (vs & V & M). destruct kids as [|kc kids'].
      + inversion H; subst. eexists. split; [reflexivity|]. apply says_empty; [constructor; [reflexivity|]|].
        * intros [|i] k c E; discriminate.
        * intros k v S. apply no_size in S. decompose [ex] S. discriminate.
      + destruct (items_keys _ _ _ H) as [K L]; [lia|].
        eapply (inner_says nm OConvex); [| |discriminate|exact M|exact V|].
        * constructor.
          -- clear - L. revert ps L. generalize (kc :: kids'). intros l. induction l as [|x l IH]; intros [|y ps] L; cbn in *; try discriminate; [reflexivity|]. f_equal. apply IH. lia.
          -- intros i k c E. assert (E' : nth_error (map fst (kc :: kids')) i = Some k).
             { revert E. generalize (map fst (kc :: kids')) ps. clear. induction i as [|i IH]; intros [|a l] [|b ps] E; cbn in *; try discriminate; [injection E as -> ->; reflexivity|eauto]. }
             destruct (K _ _ E') as (ds & D & ->). exists ds. auto.
        * eapply items_nodup; [exact H|lia].
        * intros k v. split; intro S; [inversion S|apply no_size in S; decompose [ex] S; discriminate].
    - (* canvas *) inversion H1; subst; [contradiction|]. apply tidy_kids_inv in H3. destruct H3 as [N T].
      destruct (H0 T) as (vs & V & M).
      assert (X : forall k v, extra (JPng w h) k v <-> size_field (PCanvas w h f s pg hd off size ps) k v).
      { intros k v. split; intro S; inversion S; subst; constructor. }
      destruct kids as [|kc kids'].
      + inversion H; subst. eexists. split; [reflexivity|]. apply says_canvas.
        destruct (own_entries (JPng w h)) as [A B]. split; [exact A|]. intros k v. rewrite (B k v). apply X.
      + eapply (inner_says nm (OPng (mkPng w h f s off size hd pg))); [constructor| |discriminate|exact M|exact V|exact X].
        rewrite (kids_keys _ _ H). exact N.
    - (* sound *) eexists. split; [reflexivity|]. eapply says_sound; [exact H|].
      destruct (own_entries (JSound dur ty)) as [A B]. split; [exact A|]. intros k v. rewrite (B k v). split.
      + intro S. inversion S; subst; auto.
      + intros [[-> ->]|[-> ->]]; constructor.
    - (* raw *) inversion H1; subst; [contradiction|]. apply tidy_kids_inv in H3. destruct H3 as [N T].
      destruct (H0 T) as (vs & V & M). destruct kids as [|kc kids'].
      + inversion H; subst. eexists. split; [reflexivity|]. apply says_empty; [constructor|]. intros k v S. apply no_size in S. decompose [ex] S. discriminate.
      + eapply (inner_says nm (ORaw off size)); [constructor| |discriminate|exact M|exact V|].
        * rewrite (kids_keys _ _ H). exact N.
        * intros k v. split; intro S; [inversion S|apply no_size in S; decompose [ex] S; discriminate].
    - exists []. split; constructor.
    - destruct (H2 ltac:(intros; eapply H3; right; eassumption)) as (vs & V & M).
      destruct (H0 name) as (j & J & S); [eapply H3; left; reflexivity|].
      exists ((name, j) :: vs). split; constructor; auto.
    - exists []. split; constructor.
    - destruct (H3 ltac:(intros; eapply H4; right; eassumption)) as (vs & V & M).
      destruct (H1 (map (Z.add 48) ds)) as (j & J & S); [eapply H4; left; reflexivity|].
      exists ((map (Z.add 48) ds, j) :: vs). split; constructor; auto.
  Qed.
End View.
