(** The full JSON of a parsed image: lemmas. *)
From Coq Require Import ZArith List Bool Lia ZifyBool ZifyNat Sorted.
From Coq Require String Ascii.
From Verif.Model Require Import Base Utf Keys Reader WzStr Image Json.
From Verif.Spec Require Import PropWire Version PropView JsonView JsonProp JsonStored.
From Verif.Proofs Require Pkg1L.
From Verif.Proofs Require Import BaseL ImageL JsonL JsonFullL JsonPropL.
Import ListNotations. Import String.StringSyntax.
Open Scope Z_scope.

Lemma decimal_fun v a b : decimal v a -> decimal v b -> a = b.
Proof.
  intros (A1 & A2 & A3 & A4) (B1 & B2 & B3 & B4).
  pose proof (Pkg1L.digits_go_decimal a (length a + length b) [] A1 A2 A4 ltac:(lia)) as P.
  pose proof (Pkg1L.digits_go_decimal b (length a + length b) [] B1 B2 B4 ltac:(lia)) as Q.
  rewrite A3 in P. rewrite B3, P, !app_nil_r in Q. now apply map_add_inj in Q.
Qed.

Section Stored.
  Variable r : rd.
  Notation buf := (rd_buf r).

  Definition matched' (ps : list (list Z * prop)) (vs : list (text * json)) : Prop :=
    Forall2 (fun kp kv => fst kp = fst kv /\ told buf (fst kp) (snd kp) (snd kv)) ps vs.
  Lemma matched_in' ps vs k p : matched' ps vs -> In (k, p) ps -> exists v, In (k, v) vs /\ told buf k p v.
  Proof.
    induction 1 as [|[a x] [b v] ps vs [E F] H IH]; intro I; [destruct I|]. cbn in *. subst.
    destruct I as [Q|I]; [injection Q as -> ->; eauto|]. destruct (IH I) as (w & J & K). eauto.
  Qed.
  Lemma matched_keys' ps vs : matched' ps vs -> map fst vs = map fst ps.
  Proof. induction 1 as [|[a x] [b v] ps vs [E F] H IH]; [reflexivity|]. cbn in *. subst b. rewrite IH. reflexivity. Qed.

  (** One node whose children are done. *)
  Lemma node_told nm p word d o kids l vs : noted buf p word d ->
    obj_fields (view_obj r o) = Ok ((txt "type", VText word) :: match d with Some v => [(txt "data", v)] | None => [] end) ->
    has_parts p l -> NoDup (map fst kids) -> matched' l vs -> each to_json (viewed r kids) vs ->
    exists j, to_json (view r nm (Node o kids)) = Ok j /\ told buf nm p j.
  Proof.
    intros Nt F L N M V. rewrite view_eq by exact N. rewrite to_json_eq, F. cbn [rbind]. rewrite (loop_of _ _ _ _ V). cbn [rmap rbind].
    eexists. split; [reflexivity|]. pose proof (each_keys _ _ _ V) as Ke. rewrite viewed_keys in Ke. pose proof (matched_keys' _ _ M) as Km.
    destruct (put_nil_entries vs) as [Nv Iv]; [rewrite Ke; exact N|].
    eapply told_node with (l := l) (cs := put vs []) (word := word) (d := d); [exact Nt|exact L| |exact Nv| |].
    - unfold node_entries. apply entries_object.
      + destruct d; cbn [app map fst]; nodup.
      + intros k v. destruct d as [x|]; cbn [app]; rewrite !in_cons_pair; cbn [In].
        * split; [intros [H|[H|[[H ->]|[H|[]]]]]; auto; right; right; left; auto|].
          intros [H|[H|[[H E]|H]]]; auto. injection E as <-. auto.
        * split; [intros [H|[H|[H|[]]]]; auto|]. intros [H|[H|[[H E]|H]]]; auto. discriminate E.
    - intros k v I. apply Iv in I. rewrite <- Km. apply (in_map fst) in I. exact I.
    - intros k c I. destruct (matched_in' _ _ _ _ M I) as (v & J & T). exists v. split; [apply Iv, J|exact T].
  Qed.
  Lemma apart_inv p l : apart p -> lists p l -> NoDup (map fst l) /\ forall k c, In (k, c) l -> apart c.
  Proof. intro H. inversion H. auto. Qed.
  Lemma leaf_told nm p word d o : noted buf p word d -> (forall l, ~ lists p l) ->
    obj_fields (view_obj r o) = Ok ((txt "type", VText word) :: match d with Some v => [(txt "data", v)] | None => [] end) ->
    exists j, to_json (view r nm (Node o [])) = Ok j /\ told buf nm p j.
  Proof.
    intros Nt L F. eapply node_told with (l := []) (vs := []); [exact Nt|exact F| |constructor|constructor|constructor].
    right. auto.
  Qed.
  Lemma convex_lists kids ps : shows_items r 0 kids ps -> lists (PConvex ps) (combine (map fst kids) ps).
  Proof.
    intro H. destruct (items_keys _ _ _ _ H) as [K L]; [lia|]. constructor.
    - clear - L. revert ps L. induction kids as [|x l IH]; intros [|y ps] L; cbn in *; try discriminate; [reflexivity|]. f_equal. apply IH. lia.
    - intros i k c E. assert (E' : nth_error (map fst kids) i = Some k).
      { revert E. generalize (map fst kids) ps. clear. induction i as [|i IH]; intros [|a l] [|b ps] E; cbn in *; try discriminate; [injection E as -> ->; reflexivity|eauto]. }
      destruct (K _ _ E') as (ds & D & ->). exists ds. auto.
  Qed.

  Ltac leaf := intros; eapply leaf_told; [constructor|intros l Ll; inversion Ll|reflexivity].
  Lemma json_told :
    (forall n p, shows r n p -> forall nm, apart p -> ~ holds_raw p -> exists j, to_json (view r nm n) = Ok j /\ told buf nm p j) /\
    (forall kids ps, shows_kids r kids ps -> (forall k p, In (k, p) ps -> apart p /\ ~ holds_raw p) ->
       exists vs, each to_json (viewed r kids) vs /\ matched' ps vs) /\
    (forall i kids ps, shows_items r i kids ps -> (forall p, In p ps -> apart p /\ ~ holds_raw p) ->
       exists vs, each to_json (viewed r kids) vs /\ matched' (combine (map fst kids) ps) vs).
  Proof.
    apply shows_mut.
    - leaf.
    - leaf.
    - leaf.
    - leaf.
    - intros v nm A NR. destruct (finite32 v) eqn:F.
      + eapply leaf_told; [constructor; apply finite32_spec, F|intros l Ll; inversion Ll|]. cbn [view_obj obj_fields]. rewrite F. reflexivity.
      + eapply leaf_told; [apply noted_float_bad; rewrite <- finite32_spec, F; discriminate|intros l Ll; inversion Ll|]. cbn [view_obj obj_fields]. rewrite F. reflexivity.
    - intros v b S nm A NR. eapply leaf_told; [constructor; exact S|intros l Ll; inversion Ll|]. cbn [view_obj obj_fields].
      rewrite (proj2 (finite32_spec v)) by (eapply single_finite; exact S). reflexivity.
    - intros v nm A NR. destruct (finite64 v) eqn:F.
      + eapply leaf_told; [constructor; apply finite64_spec, F|intros l Ll; inversion Ll|]. cbn [view_obj obj_fields]. rewrite F. reflexivity.
      + eapply leaf_told; [apply noted_double_bad; rewrite <- finite64_spec, F; discriminate|intros l Ll; inversion Ll|]. cbn [view_obj obj_fields]. rewrite F. reflexivity.
    - intros m t G nm A NR. eapply leaf_told; [constructor|intros l Ll; inversion Ll|]. cbn [view_obj obj_fields]. rewrite G. reflexivity.
    - intros m t G nm A NR. eapply leaf_told; [constructor|intros l Ll; inversion Ll|]. cbn [view_obj obj_fields]. rewrite G. reflexivity.
    - leaf.
    - intros kids ps H IH nm A NR. destruct (apart_inv _ _ A (lists_sub ps)) as [N Ap].
      destruct IH as (vs & V & M); [intros k p I; split; [eapply Ap, I|intro R; apply NR; eapply raw_below; [constructor|exact I|exact R]]|].
      eapply node_told; [constructor|reflexivity|left; constructor| |exact M|exact V]. rewrite (kids_keys r _ _ H). exact N.
    - intros kids ps H IH nm A NR. pose proof (convex_lists _ _ H) as Lc. destruct (apart_inv _ _ A Lc) as [N Ap].
      destruct IH as (vs & V & M).
      { intros p I. destruct (items_keys _ _ _ _ H) as [_ L]; [lia|].
        assert (X : exists k, In (k, p) (combine (map fst kids) ps)).
        { clear - I L. revert kids L. induction ps as [|q ps IHp]; intros [|[a b] kids] L; try discriminate; [destruct I|].
          destruct I as [->|I]; [exists a; now left|]. destruct (IHp I kids) as [k K]; [cbn in L; lia|]. exists k. now right. }
        destruct X as [k K]. split; [eapply Ap, K|intro R; apply NR; eapply raw_below; [exact Lc|exact K|exact R]]. }
      eapply node_told; [constructor|reflexivity|left; exact Lc| |exact M|exact V]. eapply items_nodup; [exact H|lia].
    - intros w h f s pg hd off size kids ps H IH nm A NR.
      destruct (apart_inv _ _ A (lists_canvas w h f s pg hd off size ps)) as [N Ap].
      destruct IH as (vs & V & M); [intros k p I; split; [eapply Ap, I|intro R; apply NR; eapply raw_below; [constructor|exact I|exact R]]|].
      eapply node_told with (word := txt "PNG") (d := Some (png_json w h)); [|reflexivity|left; constructor| |exact M|exact V].
      + constructor. destruct (own_entries (JPng w h)) as [P Q]. split; [exact P|]. intros k v. rewrite (Q k v).
        split; intro S; inversion S; subst; constructor.
      + rewrite (kids_keys r _ _ H). exact N.
    - intros off size dur hoff ty Sk nm A NR. eapply leaf_told with (word := txt "Sound") (d := Some (sound_json dur ty)); [|intros l Ll; inversion Ll|reflexivity].
      eapply noted_sound; [exact Sk|]. destruct (own_entries (JSound dur ty)) as [P Q]. split; [exact P|]. intros k v. rewrite (Q k v). split.
      + intro S. inversion S; subst; auto.
      + intros [[-> ->]|[-> ->]]; constructor.
    - intros off size kids ps H IH nm A NR. elim NR. constructor.
    - intros off size nm A NR. elim NR. constructor.
    - intros _. exists []. split; constructor.
    - intros name n v kids ps H1 IH1 H2 IH2 Hp.
      destruct (IH2 ltac:(intros; eapply Hp; right; eassumption)) as (vs & V & M).
      destruct (Hp name v (or_introl eq_refl)) as [A NR]. destruct (IH1 name A NR) as (j & J & T).
      exists ((name, j) :: vs). split; constructor; auto.
    - intros i _. exists []. split; constructor.
    - intros i ds n v kids ps D H1 IH1 H2 IH2 Hp.
      destruct (IH2 ltac:(intros; eapply Hp; right; eassumption)) as (vs & V & M).
      destruct (Hp v (or_introl eq_refl)) as [A NR]. destruct (IH1 (map (Z.add 48) ds) A NR) as (j & J & T).
      exists ((map (Z.add 48) ds, j) :: vs). split; constructor; auto.
  Qed.

  (** Raw data anywhere, and nothing is written. *)
  Lemma raw_untold p : holds_raw p -> apart p -> forall n nm j, shows r n p -> to_json (view r nm n) <> Ok j.
  Proof.
    induction 1 as [off size ps|off size|p l k c L I R IH]; intros A n nm j S E.
    - inversion S; subst. cbn [view] in E. rewrite to_json_eq in E. discriminate E.
    - inversion S; subst. discriminate E.
    - destruct (apart_inv _ _ A L) as [N Ap].
      assert (X : exists o kids, n = Node o kids /\ NoDup (map fst kids) /\ exists c', In (k, c') kids /\ shows r c' c).
      { assert (G : forall kids ps, shows_kids r kids ps -> In (k, c) ps -> exists c', In (k, c') kids /\ shows r c' c).
        { clear. induction 1 as [|name n v kids ps H1 H2 IH]; intros I; [destruct I|]. destruct I as [Q|I].
          - injection Q as -> ->. exists n. split; [now left|exact H1].
          - destruct (IH I) as (c' & J & K). exists c'. split; [now right|exact K]. }
        inversion L; subst; inversion S; subst.
        - do 2 eexists. split; [reflexivity|]. split; [erewrite kids_keys by eassumption; exact N|]. eapply G; eassumption.
        - do 2 eexists. split; [reflexivity|]. split; [erewrite kids_keys by eassumption; exact N|]. eapply G; eassumption.
        - do 2 eexists. split; [reflexivity|]. split; [erewrite kids_keys by eassumption; exact N|]. eapply G; eassumption.
        - match goal with H : shows_items r 0 _ _ |- _ => rename H into Hi end.
          do 2 eexists. split; [reflexivity|]. split; [eapply items_nodup; [exact Hi|lia]|].
          destruct (items_keys _ _ _ _ Hi) as [K Len]; [lia|].
          apply In_nth_error in I. destruct I as [i I].
          match goal with H : forall i k c, nth_error l i = Some (k, c) -> _ |- _ => destruct (H i k c I) as (ds & D & ->) end.
          assert (Y : forall j kids ps, shows_items r j kids ps -> forall i c, nth_error ps i = Some c -> 0 <= j ->
            exists ds' c', nth_error kids i = Some (map (Z.add 48) ds', c') /\ decimal (j + Z.of_nat i) ds' /\ shows r c' c).
          { clear. induction 1 as [j|j ds n v kids ps D H1 H2 IH]; intros [|i] c Q Hj; try discriminate; cbn in Q.
            - injection Q as ->. exists ds, n. rewrite Z.add_0_r. auto.
            - destruct (IH i c Q) as (ds' & c' & P1 & P2 & P3); [lia|]. exists ds', c'. replace (j + Z.of_nat (S i)) with (j + 1 + Z.of_nat i) by lia. auto. }
          destruct (Y _ _ _ Hi i c) as (ds' & c' & P1 & P2 & P3).
          + rewrite nth_error_map, I. reflexivity.
          + lia.
          + exists c'. split; [|exact P3]. apply nth_error_In in P1.
            assert (ds' = ds) as <- by (eapply decimal_fun; eassumption). exact P1. }
      destruct X as (o & kids & -> & Nk & c' & I' & S'). rewrite view_eq in E by exact Nk.
      apply to_json_ok in E. destruct E as (d & vs & _ & _ & V & _).
      assert (Iv : In (k, view r k c') (viewed r kids)) by (unfold viewed; apply (in_map (fun kc => (fst kc, view r (fst kc) (snd kc)))) in I'; exact I').
      destruct (each_in_l _ _ _ _ _ V Iv) as (v & _ & T).
      exact (IH (Ap _ _ I) c' k v S' T).
  Qed.
End Stored.
