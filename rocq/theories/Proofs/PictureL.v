(** Lemmas on the picture of a canvas. *)
From Coq Require Import ZArith List Bool Lia Arith.
From Coq Require String.
Import String.StringSyntax.
From Verif.Model Require Import Base Utf Reader Image Node Picture.
From Verif.Spec Require Import PathSpec Tree PropWire Picture.
From Verif.Proofs Require Import ImageL NodeL UolL WalkL LookL.

(** * Looking up *)
Lemma nearest_up h P cb i a : (forall c, cb c = true <-> P c) -> nearest h P i a ->
  exists m, forall fuel, (m <= fuel)%nat -> filter_parent fuel h i cb = Ok (Some a).
Proof.
  intros D N. induction N as [i n a c Ch E Pc|i n p c a Ch E Np N [m IH]].
  - exists 1%nat. intros fuel Hf. unfold filter_parent. destruct Ch as [(ci & Ei & Ni & Pi) A]. rewrite Ei.
    destruct (upgrade_child h n i a ci) as [-> _]; [split; eauto|exact Ei|]. destruct fuel; [lia|]. cbn [filter_up]. rewrite E.
    apply D in Pc. rewrite Pc. reflexivity.
  - exists (S m). intros fuel Hf. destruct fuel as [|fuel]; [lia|]. specialize (IH fuel ltac:(lia)).
    unfold filter_parent in IH |- *. destruct Ch as [(ci & Ei & Ni & Pi) A]. rewrite Ei.
    destruct (upgrade_child h n i p ci) as [-> _]; [split; eauto|exact Ei|]. cbn [filter_up]. rewrite E in IH |- *.
    destruct (cb c) eqn:X; [apply D in X; contradiction|]. exact IH.
Qed.
Lemma none_up_ok h P cb i : (forall c, cb c = true <-> P c) -> none_above h P i ->
  exists m, forall fuel, (m <= fuel)%nat -> filter_parent fuel h i cb = Ok None.
Proof.
  intros D N. induction N as [i R|i n p c Ch E Np N [m IH]].
  - exists 0%nat. intros fuel _. unfold filter_parent. destruct R as (c & E & R). rewrite E.
    rewrite (upgrade_root h i c); [|exists c; auto|exact E]. destruct fuel; reflexivity.
  - exists (S m). intros fuel Hf. destruct fuel as [|fuel]; [lia|]. specialize (IH fuel ltac:(lia)).
    unfold filter_parent in IH |- *. destruct Ch as [(ci & Ei & Ni & Pi) A]. rewrite Ei.
    destruct (upgrade_child h n i p ci) as [-> _]; [split; eauto|exact Ei|]. cbn [filter_up]. rewrite E in IH |- *.
    destruct (cb c) eqn:X; [apply D in X; contradiction|]. exact IH.
Qed.
Lemma filter_up_mono h cb : forall f o v, filter_up f h cb o = Ok v -> forall f', (f <= f')%nat -> filter_up f' h cb o = Ok v.
Proof.
  induction f as [|f IH]; intros o v H f' L; destruct o as [j|]; cbn [filter_up] in H; try discriminate; try (destruct f'; exact H).
  destruct f' as [|f']; [lia|]. cbn [filter_up]. destruct (h j) as [c|]; [|discriminate]. destruct (cb c); [exact H|].
  apply (IH _ _ H). lia.
Qed.
Lemma filter_mono f h i cb v : filter_parent f h i cb = Ok v -> forall f', (f <= f')%nat -> filter_parent f' h i cb = Ok v.
Proof. unfold filter_parent. destruct (h i); [|discriminate]. apply filter_up_mono. Qed.
Lemma image_dec c : is_image c = true <-> an_image c.
Proof. unfold is_image, an_image. destruct (nd_kind c); split; intro H; try discriminate; try (destruct H; discriminate); eauto. Qed.
Lemma base_dec c : (match nd_kind c with KFile _ => text_eqb (nd_name c) [66; 97; 115; 101] | _ => false end) = true <-> base_file c.
Proof.
  unfold base_file. destruct (nd_kind c); split; intro H; try discriminate; try (destruct H as (_ & ? & ?); discriminate).
  - apply text_eqb_eq in H. eauto.
  - destruct H as [-> _]. reflexivity.
Qed.

Lemma down_fold h i p j : down h i p j -> try_fold (node_at h) i p = Some j.
Proof. induction 1 as [|i n k p j S D IH]; [reflexivity|]. cbn [try_fold]. rewrite (slot_at _ _ _ _ S). exact IH. Qed.
Lemma lost_fold h i p : lost h i p -> try_fold (node_at h) i p = None.
Proof.
  induction 1 as [i n p N|i n k p S L IH]; cbn [try_fold]; [rewrite (no_slot_at _ _ _ N); reflexivity|].
  rewrite (slot_at _ _ _ _ S). exact IH.
Qed.

(** * Reading what has been read *)
Lemma settled_parse load h lk i p : settled h i -> parse load h lk i p = Ok h.
Proof.
  intros (c & E & K). unfold parse. rewrite E. destruct (nd_kind c); try contradiction; subst; reflexivity.
Qed.

Section Shown.
  Variable load : heap -> id -> id -> option (heap * list (text * id) * list id).
  Variable picture : Type.
  Variable pixels : Z -> option (res picture).
  Variable string_of : Z -> option text.

  Lemma says_text h i n t : says string_of h i n t -> link_text string_of h i n = Some t.
  Proof.
    intros (k & c & S & E & K). unfold link_text, node_text. rewrite (slot_at _ _ _ _ S), E.
    destruct K as [-> |(w & -> & K)]; [reflexivity|exact K].
  Qed.
  Lemma silent_text h i n : silent string_of h i n -> link_text string_of h i n = None.
  Proof.
    intros [N|(k & c & S & E & A & B)]; unfold link_text, node_text.
    - rewrite (no_slot_at _ _ _ N). reflexivity.
    - rewrite (slot_at _ _ _ _ S), E. destruct (nd_kind c) as [| | | | |[t|]|w] eqn:K; try reflexivity; [destruct (A t eq_refl)|].
      specialize (B w). destruct (string_of w) as [t|]; [destruct (B t eq_refl eq_refl)|reflexivity].
  Qed.

  (** The lookups from the base file when all is read. *)
  Lemma way_lookup h lk rd b p l : forall first rest, way h b p l -> p = first :: rest ->
    (forall k, In k l -> settled h k /\ ~ In k rd /\ ~ In k lk) ->
    match node_at h b first with
    | Some n => forced_fold load lk rd h n rest
    | None => Ok (h, None)
    end = Ok (h, try_fold (node_at h) b p).
  Proof.
    intros first rest W. revert first rest. induction W as [i n|i n k m p l S W IH]; intros first rest [= <- <-] H.
    - cbn [try_fold forced_fold]. destruct (node_at h i n); reflexivity.
    - cbn [try_fold forced_fold]. rewrite (slot_at _ _ _ _ S). destruct (H k (or_introl eq_refl)) as (Sk & Rk & Lk).
      rewrite (held_out _ _ Rk), (held_out _ _ Lk). cbn [orb]. rewrite (settled_parse _ _ _ _ _ Sk).
      specialize (IH m p eq_refl (fun k' I => H k' (or_intror I))). cbn [try_fold] in IH. exact IH.
  Qed.
  Lemma fold_longer h i p q : try_fold (node_at h) i p = None -> try_fold (node_at h) i (p ++ q) = None.
  Proof. intro H. rewrite fold_app, H. reflexivity. Qed.

  Lemma forced_app lk rd h n p q : forall h', forced_fold load lk rd h n p = Ok (h', None) ->
    forced_fold load lk rd h n (p ++ q) = Ok (h', None).
  Proof.
    revert h n. induction p as [|x p IH]; intros h n h' H; [discriminate|]. cbn [app forced_fold] in *.
    destruct (_ || _); [discriminate|]. destruct (parse load h lk n n); try discriminate; [|exact H].
    destruct (node_at a n x); [apply IH, H|exact H].
  Qed.

  Lemma inlink_ok h i j : inlinked string_of h i j ->
    exists m, forall f, (m <= f)%nat ->
    match link_text string_of h i (txt "_inlink") with Some p => resolve_inlink f h p i | None => Ok None end = Ok (Some j).
  Proof.
    change (txt "_inlink") with (codes "_inlink").
    intros (p & a & T & (Pn & Pp) & N & D). destruct (nearest_up h an_image is_image i a image_dec N) as [m M].
    exists m. intros f Hf. rewrite (says_text _ _ _ _ T). unfold resolve_inlink, get_parent_wz_image. rewrite (M f Hf). cbn [rbind].
    rewrite (at_path_join _ _ _ Pn Pp), (down_fold _ _ _ _ D). reflexivity.
  Qed.
  Lemma inlink_none h i : not_inlinked string_of h i ->
    exists m, forall f, (m <= f)%nat ->
    match link_text string_of h i (txt "_inlink") with Some p => resolve_inlink f h p i | None => Ok None end = Ok None.
  Proof.
    change (txt "_inlink") with (codes "_inlink").
    intros [Q|(p & T & (Pn & Pp) & N)].
    - exists 0%nat. intros f _. rewrite (silent_text _ _ _ Q). reflexivity.
    - destruct N as [N|(a & N & L)].
      + destruct (none_up_ok h an_image is_image i image_dec N) as [m M]. exists m. intros f Hf.
        rewrite (says_text _ _ _ _ T). unfold resolve_inlink, get_parent_wz_image. rewrite (M f Hf). reflexivity.
      + destruct (nearest_up h an_image is_image i a image_dec N) as [m M]. exists m. intros f Hf.
        rewrite (says_text _ _ _ _ T). unfold resolve_inlink, get_parent_wz_image. rewrite (M f Hf). cbn [rbind].
        rewrite (at_path_join _ _ _ Pn Pp), (lost_fold _ _ _ L). reflexivity.
  Qed.

  (** A base file is no canvas. *)
  Definition canvases (h : heap) (l : list id) : Prop := forall k, In k l -> exists own, canvas picture pixels h k own.
  Lemma base_free h l i b : canvases h l -> nearest h base_file i b -> held b l = false.
  Proof.
    intros C N. apply held_out. intro I. destruct (C _ I) as (own & c & w & E & K & _).
    assert (B : exists c, h b = Some c /\ base_file c).
    { clear -N. induction N as [i n a c Ch E P|]; [exists c; auto|assumption]. }
    destruct B as (c' & E' & _ & x & K'). rewrite E in E'. injection E' as <-. congruence.
  Qed.

  Lemma outlink_ok h rd i j : canvases h rd -> outlinked string_of h rd i j ->
    exists m, forall f, (m <= f)%nat ->
    match link_text string_of h i (txt "_outlink") with
    | Some p => forced_outlink load f rd h p i | None => Ok (h, None) end = Ok (h, Some j).
  Proof.
    change (txt "_outlink") with (codes "_outlink").
    intros C (p & b & T & (Pn & Pp) & N & D & l & W & L).
    destruct (nearest_up h base_file _ i b base_dec N) as [m M]. exists m. intros f Hf.
    rewrite (says_text _ _ _ _ T). unfold forced_outlink, get_base_wz_file. rewrite (M f Hf). cbn [rbind].
    rewrite (base_free _ _ _ _ C N), (split_join _ Pn Pp). destruct p as [|x p]; [contradiction|].
    rewrite (way_lookup h [b] rd b (x :: p) l x p W eq_refl); [rewrite (down_fold _ _ _ _ D); reflexivity|].
    intros k I. destruct (L k I) as (A & B & E). repeat split; [exact A|exact B|]. intros [F|[]]. congruence.
  Qed.
  Lemma outlink_none h rd i : canvases h rd -> not_outlinked string_of h rd i ->
    exists m, forall f, (m <= f)%nat ->
    match link_text string_of h i (txt "_outlink") with
    | Some p => forced_outlink load f rd h p i | None => Ok (h, None) end = Ok (h, None).
  Proof.
    change (txt "_outlink") with (codes "_outlink").
    intros C [Q|(p & T & (Pn & Pp) & N)].
    - exists 0%nat. intros f _. rewrite (silent_text _ _ _ Q). reflexivity.
    - destruct N as [N|(b & p1 & p2 & N & -> & D & l & W & L)].
      + destruct (none_up_ok h base_file _ i base_dec N) as [m M]. exists m. intros f Hf.
        rewrite (says_text _ _ _ _ T). unfold forced_outlink, get_base_wz_file. rewrite (M f Hf). reflexivity.
      + destruct (nearest_up h base_file _ i b base_dec N) as [m M]. exists m. intros f Hf.
        rewrite (says_text _ _ _ _ T). unfold forced_outlink, get_base_wz_file. rewrite (M f Hf). cbn [rbind].
        rewrite (base_free _ _ _ _ C N), (split_join _ Pn Pp). destruct p1 as [|x p]; [inversion W|].
        cbn [app]. assert (V := way_lookup h [b] rd b (x :: p) l x p W eq_refl).
        rewrite (lost_fold _ _ _ D) in V. destruct (node_at h b x) as [n|] eqn:Nx; [|reflexivity].
        apply forced_app, V. intros k I. destruct (L k I) as (A & B & E). repeat split; [exact A|exact B|]. intros [F|[]]. congruence.
  Qed.

  Lemma canvas_kind h i own : canvas picture pixels h i own ->
    exists c, h i = Some c /\ (match nd_kind c with KOther w => pixels w | _ => None end) = Some own.
  Proof. intros (c & w & E & K & P). exists c. rewrite K. auto. Qed.

  Lemma shows_ok h seen i r : shows picture pixels string_of h seen i r -> canvases h seen ->
    exists m, forall fuel, (m <= fuel)%nat -> get_image load picture pixels string_of fuel seen h i =
      match r with None => Err (EOther 70) | Some own => rmap (fun x => (h, x)) own end.
  Proof.
    induction 1 as [seen i (c & E & K)|seen i own j r Cv In Sh IH|seen i own j r Cv Nin Out Sh IH|seen i own Cv Nin Nout]; intro C.
    - exists 1%nat. intros fuel Hf. destruct fuel; [lia|]. cbn [get_image]. rewrite E.
      destruct (nd_kind c) eqn:X; try reflexivity. rewrite (K _ eq_refl). reflexivity.
    - destruct IH as [m1 M1]; [intros k [<-|I]; [eauto|apply C, I]|]. destruct (inlink_ok _ _ _ In) as [m2 M2].
      exists (S (m1 + m2)). intros fuel Hf. destruct fuel as [|f]; [lia|]. cbn [get_image].
      destruct (canvas_kind _ _ _ Cv) as (c & -> & ->). rewrite (M2 f) by lia. cbn [rbind]. apply M1. lia.
    - assert (C' : canvases h (i :: seen)) by (intros k [<-|I]; [eauto|apply C, I]).
      destruct (IH C') as [m1 M1]. destruct (inlink_none _ _ Nin) as [m2 M2]. destruct (outlink_ok _ _ _ _ C' Out) as [m3 M3].
      exists (S (m1 + m2 + m3)). intros fuel Hf. destruct fuel as [|f]; [lia|]. cbn [get_image].
      destruct (canvas_kind _ _ _ Cv) as (c & -> & ->). rewrite (M2 f) by lia. cbn [rbind]. rewrite (M3 f) by lia.
      cbn [rbind fst snd]. apply M1. lia.
    - assert (C' : canvases h (i :: seen)) by (intros k [<-|I]; [eauto|apply C, I]).
      destruct (inlink_none _ _ Nin) as [m2 M2]. destruct (outlink_none _ _ _ C' Nout) as [m3 M3].
      exists (S (m2 + m3)). intros fuel Hf. destruct fuel as [|f]; [lia|]. cbn [get_image].
      destruct (canvas_kind _ _ _ Cv) as (c & -> & ->). rewrite (M2 f) by lia. cbn [rbind]. rewrite (M3 f) by lia. reflexivity.
  Qed.
End Shown.

(** * Reading on the way *)
Lemma resolve_other h lk im u h' m : resolve_uol h lk (Some im) u = Ok h' -> m <> im ->
  (forall q n, sits h u q n -> m <> q) -> h' m = h m.
Proof.
  unfold resolve_uol. destruct (held u lk); [discriminate|]. destruct (h u) as [c|] eqn:E; [|discriminate].
  destruct (upgrade h (nd_parent c)) as [p|] eqn:U; [|discriminate].
  assert (Hp : nd_parent c = Some p).
  { unfold upgrade in U. destruct (nd_parent c) as [q|]; [|discriminate]. destruct (h q); [|discriminate]. congruence. }
  intros R Mi H. assert (Mp : m <> p) by (apply (H p (nd_name c)); exists c; auto). revert R.
  destruct (nd_kind c) as [| | | | |[tg|]|]; try (intros [= <-]; reflexivity).
  destruct (try_fold _ p (split_slash tg)) as [t|]; [|intros [= <-]; reflexivity].
  destruct (held p lk); intros [= <-]; apply replace_cell; assumption.
Qed.
Lemma resolve_self h lk im u h' : resolve_uol h lk (Some im) u = Ok h' -> same_but_slots h h'.
Proof.
  unfold resolve_uol. destruct (held u lk); [discriminate|]. destruct (h u) as [c|] eqn:E; [|discriminate].
  destruct (upgrade h (nd_parent c)) as [p|] eqn:U; [|discriminate].
  destruct (nd_kind c) as [| | | | |[tg|]|]; try (intros [= <-]; apply same_slots_refl).
  destruct (try_fold _ p (split_slash tg)) as [t|]; [|intros [= <-]; apply same_slots_refl].
  destruct (held p lk); intros [= <-]; apply replace_ok.
Qed.
Definition uol_run lk im uols (acc : res heap) :=
  fold_left (fun acc u => rbind acc (fun h' => resolve_uol h' lk (Some im) u)) uols acc.
Lemma uol_run_bad lk im uols h acc : uol_run lk im uols acc = Ok h -> exists a, acc = Ok a.
Proof.
  revert acc. induction uols as [|u uols IH]; intros acc H; [eauto|]. cbn [uol_run fold_left] in H.
  apply IH in H. destruct H as [a H]. destruct acc; cbn in H; [eauto|discriminate..].
Qed.
Lemma uol_run_ok lk im uols : forall h h', uol_run lk im uols (Ok h) = Ok h' ->
  same_but_slots h h' /\
  forall m, m <> im -> (forall u q n, In u uols -> sits h u q n -> m <> q) -> h' m = h m.
Proof.
  induction uols as [|u uols IH]; intros h h' H; [injection H as <-; split; [apply same_slots_refl|reflexivity]|].
  cbn [uol_run fold_left rbind] in H. destruct (uol_run_bad _ _ _ _ _ H) as [a A]. rewrite A in H.
  destruct (IH _ _ H) as [S F]. pose proof (resolve_self _ _ _ _ _ A) as S1.
  split; [eapply same_slots_trans; eassumption|]. intros m Mi N. rewrite F; [|exact Mi|].
  - apply (resolve_other _ _ _ _ _ _ A Mi). intros q n. apply N. left. reflexivity.
  - intros v q n V K. apply (N v q n (or_intror V)). apply (sits_same _ _ _ _ _ S1). exact K.
Qed.

Lemma parse_frame load h lk i p h' : only_adds load -> links_inside load -> parse load h lk i p = Ok h' ->
  settled h' i /\ (settled h i -> h' = h) /\ (forall m c, m <> i -> h m = Some c -> h' m = Some c).
Proof.
  intros A F. unfold parse. destruct (h i) as [c|] eqn:E; [|discriminate].
  assert (T : settled h i -> Ok h = Ok h' ->
    settled h' i /\ (settled h i -> h' = h) /\ (forall m c, m <> i -> h m = Some c -> h' m = Some c)).
  { intros Z [= <-]. auto. }
  assert (P : ~ settled h i -> forall k, match k with KFile true | KMsFile true | KImage true | KDir true => True | _ => False end ->
     parse_as load h lk i p k = Ok h' ->
     settled h' i /\ (settled h i -> h' = h) /\ (forall m c, m <> i -> h m = Some c -> h' m = Some c)).
  { intros U k Hk. unfold parse_as. destruct (load h p i) as [[[h1 kids] uols]|] eqn:L; [|discriminate].
    destruct (h1 i) as [c1|] eqn:E1; [|discriminate]. cbv zeta.
    set (h2 := put h1 i _). intro R. fold (uol_run (i :: lk) i uols (Ok h2)) in R.
    destruct (uol_run_ok _ _ _ _ _ R) as [S K]. split; [|split; [contradiction|]].
    - specialize (S i). unfold h2 in S. rewrite put_same in S.
      destruct (h' i) as [c'|] eqn:E'; [|contradiction]. destruct S as (_ & Kd & _). cbn [nd_kind] in Kd.
      exists c'. split; [exact E'|]. rewrite Kd. destruct k as [b|b|b| |b| |]; try contradiction; destruct b; auto; contradiction.
    - intros m cm Mi Em. rewrite (K m Mi).
      + unfold h2. rewrite put_other by exact Mi. apply (A _ _ _ _ _ _ L _ _ Em).
      + intros u q n Iu Su ->. assert (S1 : sits h1 u q n).
        { destruct Su as (cu & Eu & Nu & Pu). unfold h2 in Eu. destruct (Z.eq_dec u i) as [->|Hu].
          - rewrite put_same in Eu. injection Eu as <-. cbn [nd_name nd_parent] in *. exists c1. auto.
          - rewrite put_other in Eu by exact Hu. exists cu. auto. }
        destruct (F _ _ _ _ _ _ L u q n Iu S1) as [->|Q]; [contradiction|]. congruence. }
  assert (Z : settled h i <-> match nd_kind c with
              | KFile b | KMsFile b | KImage b | KDir b => b = true | KMsImage => False | _ => True end).
  { split; [intros (c' & E' & Q); rewrite E in E'; injection E' as <-; exact Q|]. intro Q. exists c. auto. }
  destruct (nd_kind c) as [b|b|b| |b| |]; try destruct b;
    first [apply T; apply Z; exact I || reflexivity | apply P; [rewrite Z; easy|exact I]].
Qed.
Lemma parse_keeps load h lk i p h' m : only_adds load -> links_inside load -> parse load h lk i p = Ok h' ->
  settled h m -> h' m = h m.
Proof.
  intros A F P S. destruct (parse_frame _ _ _ _ _ _ A F P) as (_ & Q & K). destruct (Z.eq_dec m i) as [->|N].
  - rewrite (Q S). reflexivity.
  - destruct S as (c & E & _). rewrite E. apply K; assumption.
Qed.
Lemma settled_same h h' m : h' m = h m -> settled h m -> settled h' m.
Proof. intros E (c & Ec & K). exists c. rewrite E. auto. Qed.

Lemma forced_frame load lk rd : only_adds load -> links_inside load -> forall l h n h' o,
  forced_fold load lk rd h n l = Ok (h', o) -> forall m, settled h m -> h' m = h m.
Proof.
  intros A F. induction l as [|x l IH]; intros h n h' o H m S; cbn [forced_fold] in H; [injection H as <- <-; reflexivity|].
  destruct (_ || _); [discriminate|]. destruct (parse load h lk n n) as [h1| | |] eqn:P; try discriminate.
  - assert (K := parse_keeps _ _ _ _ _ _ m A F P S). destruct (node_at h1 n x) as [k|].
    + rewrite (IH _ _ _ _ H m (settled_same _ _ _ K S)). exact K.
    + injection H as <- _. exact K.
  - injection H as <- _. reflexivity.
Qed.
Lemma forced_goes load lk rd : only_adds load -> links_inside load -> forall l h n h' o,
  forced_fold load lk rd h n l = Ok (h', o) ->
  match o with
  | Some j => goes h' n l j
  | None => exists l1 y l2 k, l = l1 ++ y :: l2 /\ goes h' n l1 k /\ (node_at h' k y = None \/ load h' k k = None)
  end.
Proof.
  intros A F. induction l as [|x l IH]; intros h n h' o H; cbn [forced_fold] in H; [injection H as <- <-; constructor|].
  destruct (_ || _); [discriminate|]. destruct (parse load h lk n n) as [h1| | |] eqn:P; try discriminate.
  - destruct (parse_frame _ _ _ _ _ _ A F P) as (S1 & _ & _). destruct (node_at h1 n x) as [k|] eqn:N.
    + assert (K := forced_frame _ _ _ A F _ _ _ _ _ H n S1). specialize (IH _ _ _ _ H).
      assert (N' : node_at h' n x = Some k) by (unfold node_at in *; rewrite K; exact N).
      destruct o as [j|]; [econstructor; eassumption|]. destruct IH as (l1 & y & l2 & q & -> & G & D).
      exists (x :: l1), y, l2, q. split; [reflexivity|]. split; [econstructor; eassumption|exact D].
    + injection H as <- <-. exists [], x, l, n. split; [reflexivity|]. split; [constructor|auto].
  - injection H as <- <-. exists [], x, l, n. split; [reflexivity|]. split; [constructor|].
    right. clear -P. unfold parse, parse_as in P.
    assert (U : forall im us (a : res heap), (forall e, a <> Err e) -> uol_run (im :: lk) im us a <> Err e).
    { intros im us. induction us as [|u us IHu]; intros a Na; [apply Na|]. cbn [uol_run fold_left]. apply IHu. intros e'.
      destruct a as [b|e2| |]; cbn [rbind]; try discriminate; [|exact (fun X => Na e2 eq_refl)].
      unfold resolve_uol. destruct (held u _); [discriminate|]. destruct (b u); [|discriminate].
      destruct (upgrade b _); [|discriminate]. destruct (nd_kind _) as [| | | | |[t|]|]; try discriminate.
      destruct (try_fold _ _ _); [|discriminate]. destruct (held _ _); discriminate. }
    destruct (h n) as [c|]; [|discriminate].
    destruct (load h n n) as [[[h1 kids] uols]|]; [exfalso|reflexivity].
    assert (G : forall k, match h1 n with None => Panic | Some c => fold_left (fun acc u => rbind acc (fun h' => resolve_uol h' (n :: lk) (Some n) u)) uols
       (Ok (put h1 n (mkCell (nd_name c) k (nd_parent c) (fold_left (fun l e => slot_insert l (fst e) (snd e)) kids (nd_slots c))))) end <> Err e).
    { intro k. destruct (h1 n); [|discriminate]. apply U. discriminate. }
    destruct (nd_kind c) as [b|b|b| |b| |]; try destruct b; try discriminate; revert P; apply G.
Qed.

Section Read.
  Variable load : heap -> id -> id -> option (heap * list (text * id) * list id).
  Variable picture : Type.
  Variable pixels : Z -> option (res picture).
  Variable string_of : Z -> option text.
  Hypothesis Adds : only_adds load.
  Hypothesis Inside : links_inside load.

  Lemma outlink_frame fuel rd h p i h' o : forced_outlink load fuel rd h p i = Ok (h', o) ->
    forall m, settled h m -> h' m = h m.
  Proof.
    unfold forced_outlink. destruct (get_base_wz_file fuel h i) as [[b|]| | |]; cbn [rbind]; try discriminate; [|intros [= <- _]; auto].
    destruct (held b rd); [discriminate|]. destruct (split_slash p) as [|x l]; [discriminate|].
    destruct (node_at h b x); [|intros [= <- _]; auto]. apply forced_frame; assumption.
  Qed.
  Lemma image_frame : forall fuel rd h i h' x, get_image load picture pixels string_of fuel rd h i = Ok (h', x) ->
    forall m, settled h m -> h' m = h m.
  Proof.
    induction fuel as [|f IH]; intros rd h i h' x; [discriminate|]. cbn [get_image].
    destruct (h i) as [c|]; [|discriminate]. destruct (match nd_kind c with KOther w => pixels w | _ => None end) as [own|]; [|discriminate].
    match goal with |- rbind ?a _ = _ -> _ => destruct a as [[t|]| | |]; cbn [rbind]; try discriminate end; [apply IH|].
    match goal with |- rbind ?a _ = _ -> _ => destruct a as [[h1 o]| | |] eqn:O; cbn [rbind fst snd]; try discriminate end.
    assert (K : forall m, settled h m -> h1 m = h m).
    { destruct (link_text string_of h i _); [apply (outlink_frame _ _ _ _ _ _ _ O)|]. injection O as <- _. reflexivity. }
    destruct o as [t|].
    - intros H m S. rewrite (IH _ _ _ _ _ H m (settled_same _ _ _ (K m S) S)). apply K, S.
    - destruct own; cbn [rmap rbind]; try discriminate. intros [= <- <-]. exact K.
  Qed.

  Lemma outlink_read fuel rd h i own p b h' x : canvas picture pixels h i own -> not_inlinked string_of h i ->
    says string_of h i (codes "_outlink") (joined p) -> good p -> nearest h base_file i b -> settled h b ->
    get_image load picture pixels string_of fuel rd h i = Ok (h', x) ->
    (exists h1 j f, goes h1 b p j /\ (forall m, settled h m -> h1 m = h m) /\
       get_image load picture pixels string_of f (i :: rd) h1 j = Ok (h', x)) \/
    (own = Ok x /\ exists p1 y p2 k, p = p1 ++ y :: p2 /\ goes h' b p1 k /\ (node_at h' k y = None \/ load h' k k = None)).
  Proof.
    intros Cv Nin T (Pn & Pp) N Sb H. destruct fuel as [|f]; [discriminate|]. cbn [get_image] in H.
    destruct (canvas_kind _ _ _ _ _ Cv) as (c & Ec & Kc). rewrite Ec, Kc in H.
    change (txt "_inlink") with (codes "_inlink") in H. change (txt "_outlink") with (codes "_outlink") in H.
    match type of H with rbind ?a _ = _ => destruct a as [a'| | |] eqn:LI; try discriminate H end. cbn [rbind] in H.
    assert (a' = None); [|subst a'].
    { destruct (inlink_none string_of _ _ Nin) as [m M]. change (txt "_inlink") with (codes "_inlink") in M.
      specialize (M (m + f)%nat ltac:(lia)).
      destruct (link_text string_of h i (codes "_inlink")) as [t|]; [|injection LI as <-; reflexivity].
      unfold resolve_inlink, get_parent_wz_image in LI, M.
      destruct (filter_parent f h i is_image) as [v| | |] eqn:X; try discriminate LI.
      rewrite (filter_mono _ _ _ _ _ X (m + f)%nat ltac:(lia)) in M. cbn [rbind] in LI, M.
      destruct v; congruence. }
    rewrite (says_text _ _ _ _ _ T) in H. unfold forced_outlink in H.
    unfold get_base_wz_file in H. destruct (nearest_up h base_file _ i b base_dec N) as [m M]. specialize (M (m + f)%nat ltac:(lia)).
    match type of H with rbind (rbind (filter_parent f h i ?cb) _) _ = _ => destruct (filter_parent f h i cb) as [v| | |] eqn:X; try discriminate H end.
    rewrite (filter_mono _ _ _ _ _ X (m + f)%nat ltac:(lia)) in M. injection M as ->. cbn [rbind] in H.
    destruct (held b (i :: rd)); [discriminate H|]. rewrite (split_join _ Pn Pp) in H. destruct p as [|y p]; [contradiction|].
    destruct (node_at h b y) as [n|] eqn:Ny.
    - destruct (forced_fold load [b] (i :: rd) h n p) as [[h1 o]| | |] eqn:FF; try discriminate H. cbn [rbind fst snd] in H.
      pose proof (forced_frame _ _ _ Adds Inside _ _ _ _ _ FF) as K. pose proof (forced_goes _ _ _ Adds Inside _ _ _ _ _ FF) as G.
      assert (Nb : node_at h1 b y = Some n) by (unfold node_at in *; rewrite (K b Sb); exact Ny).
      destruct o as [j|].
      + left. exists h1, j, f. split; [econstructor; eassumption|]. auto.
      + right. destruct own; try discriminate H. injection H as <- <-. split; [reflexivity|].
        destruct G as (l1 & z & l2 & k & -> & G & D). exists (y :: l1), z, l2, k. split; [reflexivity|].
        split; [econstructor; eassumption|exact D].
    - right. cbn [rbind fst snd] in H. destruct own; try discriminate H. injection H as <- <-. split; [reflexivity|].
      exists [], y, p, b. split; [reflexivity|]. split; [constructor|auto].
  Qed.
End Read.
