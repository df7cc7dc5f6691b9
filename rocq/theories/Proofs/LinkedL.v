(** Lemmas on images with links. *)
From Coq Require Import ZArith List Bool Lia Arith ZifyBool ZifyNat.
From Verif.Model Require Import Base Utf Keys Reader Header Offset VersionPkg2 Directory Image Media Guess File Node Ms World.
From Verif.Spec Require Import Wire StrWire Version PropWire PropView DirWire DirView PathSpec Tree Whole Linked.
From Verif.Proofs Require Import BaseL AtL ImageL NodeL UolL WorldL WalkWL.
From Verif.Proofs Require JsonStoredL.
Import ListNotations.
Open Scope Z_scope.

(** * What was planted *)
Local Notation st0 := (fun (_ : list Z) (_ : nat) => 0).
Local Notation bl0 := (fun (_ _ : list Z) (_ : Z) => @nil Z).
(** Below [i], which is the planted tree [n], the names lead to [j], the planted tree [m]. *)
Inductive reach (w : world) (r : rd) : node -> id -> list text -> node -> id -> Prop :=
| reach_here n i p name : rp w r n i p name -> reach w r n i [] n i
| reach_down o kids i k m j path m' j' l name kd p : w_heap w i = Some (mkCell name kd p (filled l)) -> rpl w r i kids l -> In (k, m) kids -> In (k, j) l -> rp w r m j i k -> reach w r m j path m' j' ->
    reach w r (Node o kids) i (k :: path) m' j'.
Definition in_list (w : world) (r : rd) (i : id) (kids : list (text * node)) (l : list (text * id)) (path : list text) (m' : node) (j' : id) : Prop :=
  exists k m j q, path = k :: q /\ In (k, m) kids /\ In (k, j) l /\ rp w r m j i k /\ reach w r m j q m' j'.
Definition uol_at (w : world) (r : rd) (u : id) : Prop := exists m, w_thing w u = ThProp r (OUol m).

Lemma nodup_join {A} (a b : list A) : NoDup a -> NoDup b -> (forall x, In x a -> In x b -> False) -> NoDup (a ++ b).
Proof.
  induction 1 as [|x a N _ IH]; intros D X; [exact D|]. cbn [app]. constructor; [|apply IH; [exact D|]; intros y Y; apply X; right; exact Y].
  intro I. apply in_app_or in I as [I|I]; [contradiction|]. exact (X x (or_introl eq_refl) I).
Qed.
Lemma plant_keeps r n p w name w' i us : plant r p w name n = (w', i, us) -> keeps w w' /\ w_next w <= i < w_next w' /\ forall w'', has w w' w'' -> rp w'' r n i p name.
Proof. intro E. pose proof (plant_ok 0%nat st0 bl0 r n p w name) as H. rewrite E in H. destruct H as (A & B & C & _). auto. Qed.
Definition plant_fact r (n : node) : Prop := forall p w name w' i us, plant r p w name n = (w', i, us) -> forall w'', has w w' w'' ->
  NoDup us /\ (forall u, In u us <-> w_next w <= u < w_next w' /\ uol_at w'' r u) /\
  (forall j, w_next w <= j < w_next w' -> exists path m, reach w'' r n i path m j).
Lemma plant_list_more r kids : Forall (fun e => plant_fact r (snd e)) kids -> forall p w w' l us, plant_list (plant r p) w kids = (w', l, us) -> forall w'', has w w' w'' ->
  NoDup us /\ (forall u, In u us <-> w_next w <= u < w_next w' /\ uol_at w'' r u) /\
  (forall j, w_next w <= j < w_next w' -> exists path m, in_list w'' r p kids l path m j).
Proof.
  induction 1 as [|[k n] kids Fn _ IH]; intros p w w' l us.
  - cbn. intros [= <- <- <-] w'' _. split; [constructor|]. split; [intro u; split; [intros []|lia]|lia].
  - rewrite plant_list_cons. destruct (plant r p w k n) as [[w1 i] u1] eqn:E1. destruct (plant_list (plant r p) w1 kids) as [[w2 l2] u2] eqn:E2.
    intros [= <- <- <-] w'' Hs. pose proof (plant_keeps _ _ _ _ _ _ _ _ E1) as ([N1 _] & I1 & R1).
    destruct (plant_list_ok 0%nat st0 bl0 (fun w n j name => rp w r n j p name) no_uol (plant r p) kids ltac:(apply Forall_forall; intros e _ w3; apply (plant_ok 0%nat st0 bl0)) _ _ _ _ E2) as ([N2 K2] & _).
    assert (H1 : has w w1 w'').
    { destruct Hs as [A B]. split; [lia|]. intros j J. destruct (B j ltac:(lia)) as [-> ->]. apply K2. lia. }
    assert (H2 : has w1 w2 w'') by (destruct Hs as [A B]; split; [lia|]; intros j J; apply B; lia).
    destruct (Fn _ _ _ _ _ _ E1 _ H1) as (D1 & U1 & C1). destruct (IH _ _ _ _ _ E2 _ H2) as (D2 & U2 & C2). split; [|split].
    + apply nodup_join; [exact D1|exact D2|]. intros u A B. apply U1 in A. apply U2 in B. lia.
    + intro u. rewrite in_app_iff, U1, U2. split; [intros [[? ?]|[? ?]]; (split; [lia|assumption])|]. intros [A B].
      destruct (Z.lt_ge_cases u (w_next w1)); [left|right]; (split; [lia|exact B]).
    + intros j J. destruct (Z.lt_ge_cases j (w_next w1)).
      * destruct (C1 j ltac:(lia)) as (path & m & Rm). exists (k :: path), m, k, n, i, path. split; [reflexivity|]. split; [left; reflexivity|]. split; [left; reflexivity|]. split; [apply R1, H1|exact Rm].
      * destruct (C2 j ltac:(lia)) as (path & m & k' & m' & j' & q & -> & A & B & C & D). exists (k' :: q), m, k', m', j', q. repeat split; try (right; assumption); assumption.
Qed.
Lemma plant_more r n : plant_fact r n.
Proof.
  induction n as [o kids IH] using node_ind'. intros p w name w' i us E w'' Hs. pose proof (plant_keeps _ _ _ _ _ _ _ _ E) as (K & I & R). specialize (R _ Hs).
  cbn [plant] in E. destruct (fresh w name (ThProp r o) (Some p)) as [w1 i1] eqn:F. destruct (plant_list (plant r i1) w1 kids) as [[w2 l] us2] eqn:E2.
  injection E as <- <- <-. apply fresh_ok in F as (-> & N1 & K1 & C1 & T1 & _). set (i1 := w_next w) in *.
  destruct (plant_list_ok 0%nat st0 bl0 (fun w n j name => rp w r n j i1 name) no_uol (plant r i1) kids ltac:(apply Forall_forall; intros e _ w3; apply (plant_ok 0%nat st0 bl0)) _ _ _ _ E2) as ([N2 K2] & R2 & _).
  destruct (K2 i1 ltac:(lia)) as [C2 T2]. rewrite C1 in C2. rewrite T1 in T2. destruct (fill_ok w2 i1 l _ _ _ _ C2) as (Fi & Fo & Ft & Fn).
  assert (H2 : has w1 w2 w'').
  { destruct Hs as [A B]. rewrite Fn in *. split; [lia|]. intros j J. destruct (B j ltac:(lia)) as [-> ->]. rewrite Ft, Fo by lia. auto. }
  assert (T : w_thing w'' i1 = ThProp r o) by (destruct Hs as [A B]; destruct (B i1 ltac:(lia)) as [_ ->]; rewrite Ft; exact T2).
  destruct (plant_list_more r kids IH _ _ _ _ _ E2 _ H2) as (D & U & C). rewrite Fn. split; [|split].
  - assert (~ In i1 us2) by (rewrite U; lia). destruct o; try exact D. constructor; assumption.
  - intro u. assert (G : In u us2 <-> i1 < u < w_next w2 /\ uol_at w'' r u) by (rewrite U; split; intros [A B]; (split; [lia|exact B])).
    destruct (Z.eq_dec u i1) as [->|Ne].
    + split; [|].
      * intro In_. destruct o; try (apply G in In_; lia). split; [lia|]. eexists. exact T.
      * intros [_ (m & Em)]. rewrite T in Em. injection Em as ->. left. reflexivity.
    + destruct o; cbn [In]; rewrite G; (split; [|intros [A B]; try right; (split; [lia|exact B])]); try (intros [A B]; split; [lia|exact B]).
      intros [A|[A B]]; [congruence|]. split; [lia|exact B].
  - intros j J. destruct (Z.eq_dec j i1) as [->|Ne]; [exists [], (Node o kids); econstructor; exact R|].
    destruct (C j ltac:(lia)) as (path & m & k & m' & j' & q & -> & A & B & D' & Rr). exists (k :: q), m. eapply reach_down; [| |exact A|exact B|exact D'|exact Rr].
    + destruct Hs as [_ Hs]. destruct (Hs i1 ltac:(lia)) as [-> _]. exact Fi.
    + apply rpl_f2, R2, H2.
Qed.

(** * The image before its links are looked at *)
Lemma leads_snoc p P n z : leads p (P ++ [n]) z <-> exists q, leads p P q /\ inside q n z.
Proof.
  revert p. induction P as [|m P IH]; intro p; cbn [app].
  - split; [intro H; inversion H as [|? ? q ? ? I L]; subst; inversion L; subst; exists p; split; [constructor|exact I]|].
    intros (q & L & I). inversion L; subst. econstructor; [exact I|constructor].
  - split.
    + intro H. inversion H as [|? ? q ? ? I L]; subst. apply IH in L as (q' & L' & I'). exists q'. split; [econstructor; eassumption|exact I'].
    + intros (q & L & I). inversion L as [|? ? q' ? ? I' L']; subst. econstructor; [exact I'|]. apply IH. eauto.
Qed.
Lemma nodup_last {A} (l : list (list Z * A)) k x : NoDup (map fst l) -> In (k, x) l -> last_named l k x.
Proof.
  intros D I. apply in_split in I as (a & b & ->). exists a, b. split; [reflexivity|]. rewrite map_app in D. cbn [map fst] in D.
  apply NoDup_remove_2 in D. intro H. apply D, in_or_app. auto.
Qed.
Lemma shows_in r kids ps : shows_kids r kids ps -> forall k m, In (k, m) kids -> exists v, In (k, v) ps /\ shows r m v.
Proof.
  induction 1 as [|name n v kids ps S _ IH]; intros k m; [intros []|]. intros [[= <- <-]|I]; [exists v; split; [left; reflexivity|exact S]|].
  destruct (IH k m I) as (v' & A & B). exists v'. split; [right; exact A|exact B].
Qed.
Lemma rpl_names w r i kids l : rpl w r i kids l -> map fst kids = map fst l.
Proof. induction 1; cbn [map fst]; [reflexivity|]; f_equal; assumption. Qed.
Lemma shows_names r kids ps : shows_kids r kids ps -> map fst kids = map fst ps.
Proof. induction 1; cbn [map fst]; [reflexivity|]; f_equal; assumption. Qed.
Lemma filled_in l k j : NoDup (map fst l) -> In (k, j) l -> slot_get (filled l) k = Some j.
Proof. intros D I. rewrite filled_get. apply in_get; [rewrite map_rev; apply NoDup_rev, D|apply in_rev in I; exact I]. Qed.
Lemma last_in {A} (l : list (list Z * A)) k x : last_named l k x -> In k (map fst l).
Proof. intros (a & b & -> & _). apply in_map_iff. exists (k, x). split; [reflexivity|]. apply in_or_app. right. left. reflexivity. Qed.
Lemma inside_lists pl n z : inside pl n z -> (forall cs, pl <> PlDir cs) -> exists ns, lists pl ns /\ In n ns.
Proof.
  intros I Nd. inversion I as [? ? c L|? ? v L|v kids ? u B L]; subst; [destruct (Nd _ eq_refl)| |]; eexists; (split; [constructor; eassumption|]); eapply last_in, L.
Qed.

Lemma numbered_fun i vs a : numbered i vs a -> forall b, numbered i vs b -> a = b.
Proof.
  induction 1 as [|i ds v vs l D _ IH]; intros b N; inversion N as [|? ds' ? ? l' D' N']; subst; [reflexivity|].
  rewrite (JsonStoredL.decimal_fun _ _ _ D D'), (IH _ N'). reflexivity.
Qed.
Lemma below_fun v a b : below v a -> below v b -> a = b.
Proof. intros A B. inversion A; subst; inversion B; subst; try reflexivity; try contradiction. eapply numbered_fun; eassumption. Qed.

Lemma split_back t : split_slash t <> [] /\ plain (split_slash t) /\ joined (split_slash t) = t.
Proof.
  induction t as [|c t (A & B & C)]; [split; [discriminate|]; split; [repeat constructor; intros []|reflexivity]|]. cbn [split_slash].
  destruct (Z.eqb_spec c 47) as [->|Nc].
  - split; [discriminate|]. split; [constructor; [intros []|exact B]|]. rewrite joined_cons by exact A. rewrite C. reflexivity.
  - destruct (split_slash t) as [|x l] eqn:E; [contradiction|]. inversion B as [|? ? Hx Hl]; subst. split; [discriminate|]. split.
    + constructor; [|exact Hl]. intros [H|H]; [contradiction|]. exact (Hx H).
    + destruct l as [|y l]; reflexivity.
Qed.
Lemma slot_fun h j m k k' : slot h j m k -> slot h j m k' -> k = k'.
Proof. intros A B. apply slot_at in A, B. congruence. Qed.
(** The same node with the same names of children. *)
Definition like (h h' : heap) : Prop := forall j c, h j = Some c -> exists c', h' j = Some c' /\ nd_name c' = nd_name c /\ nd_kind c' = nd_kind c /\ nd_parent c' = nd_parent c /\
  map fst (nd_slots c') = map fst (nd_slots c).
Lemma like_trans a b c : like a b -> like b c -> like a c.
Proof.
  intros A B j x X. destruct (A j x X) as (y & Y & ? & ? & ? & ?). destruct (B j y Y) as (z & Z & ? & ? & ? & ?). exists z. split; [exact Z|]. repeat split; etransitivity; eassumption.
Qed.
Lemma like_replace h p n t : like h (replace_child h p n t).
Proof.
  intros j c E. unfold replace_child. destruct (node_at h p n) as [x|] eqn:G; [|exists c; auto]. unfold insert_child. destruct (h p) as [d|] eqn:F; [|exists c; auto].
  destruct (Z.eq_dec j p) as [->|Ne]; [|exists c; rewrite put_other by exact Ne; auto]. rewrite put_same. eexists. split; [reflexivity|]. rewrite F in E. injection E as <-.
  cbn [nd_name nd_kind nd_parent nd_slots]. repeat split. apply insert_fst. unfold node_at in G. rewrite F in G. congruence.
Qed.
Lemma like_no_slot h h' j m : like h h' -> no_slot h j m -> no_slot h' j m.
Proof. intros L (c & E & N). destruct (L j c E) as (c' & E' & _ & _ & _ & M). exists c'. split; [exact E'|]. rewrite M. exact N. Qed.

Section raw.
  Variable w : world.
  Variable r : rd.
  Variable i : id.
  Variables (kids : list (text * node)) (l : list (text * id)) (props : list (list Z * prop)) (us0 : list id) (lo : Z).
  Variables (nm0 : text) (p0 : option id).
  Local Notation h := (w_heap w).
  Hypothesis Hi : h i = Some (mkCell nm0 (KImage true) p0 (filled l)).
  Hypothesis Hl : rpl w r i kids l.
  Hypothesis Hs : shows_kids r kids props.
  Hypothesis Ti : forall o, w_thing w i <> ThProp r o.
  Hypothesis Ty : tidy props.
  Hypothesis Hu : forall u, In u us0 <-> lo <= u < w_next w /\ uol_at w r u.
  Hypothesis Hc : forall j, lo <= j < w_next w -> exists path m, in_list w r i kids l path m j.
  Hypothesis Hr : forall n j p name, rp w r n j p name -> lo <= j < w_next w.

  Definition stands (j : id) (pl : place) : Prop :=
    match pl with
    | PlDir _ => False
    | PlImage ps => j = i /\ ps = props
    | PlProp v => exists n p name, rp w r n j p name /\ shows r n v
    end.
  Lemma stands_read j pl : stands j pl -> exists name k p l' kids' ps, h j = Some (mkCell name k p (filled l')) /\ unread k = false /\ rpl w r j kids' l' /\ shows_kids r kids' ps /\
    (forall n z, inside pl n z <-> exists v, z = PlProp v /\ last_named ps n v) /\ (forall n, nothing pl n <-> ~ In n (map fst ps)) /\ (forall ns, lists pl ns <-> ns = map fst ps).
  Proof.
    destruct pl as [cs|ps|v]; cbn [stands].
    - intros [].
    - intros [-> ->]. exists nm0, (KImage true), p0, l, kids, props. split; [exact Hi|]. split; [reflexivity|]. split; [exact Hl|]. split; [exact Hs|]. split; [|split].
      + intros n z. split; [intro I; inversion I; subst; eauto|intros (v & -> & L); constructor; exact L].
      + intro n. split; [intro I; inversion I; subst; assumption|constructor; assumption].
      + intro ns. split; [intro I; inversion I; reflexivity|intros ->; constructor].
    - intros (n & p & name & R & S). inversion R as [o kids' ? ? ? l' H T I L]; subst. destruct (below_total v) as (ps & B).
      assert (Bf : forall ps', below v ps' -> ps' = ps) by (intros ps' B'; eapply below_fun; eassumption).
      exists name, (kind_of (ThProp r o)), (Some p), l', kids', ps. split; [exact H|]. split; [destruct o; reflexivity|]. split; [exact L|].
      split; [exact (shown_below _ _ _ _ S B)|]. split; [|split].
      + intros n z. split; [intro I'; inversion I' as [| |? ps' ? u B' La]; subst; rewrite (Bf _ B') in *; eauto|intros (u & -> & La); econstructor; eassumption].
      + intro n. split; [intro I'; inversion I' as [| |? ps' ? B' La]; subst; rewrite (Bf _ B') in *; assumption|intro N; econstructor; eassumption].
      + intro ns. split; [intro I'; inversion I' as [|? ps' B']; subst; rewrite (Bf _ B'); reflexivity|intros ->; constructor; exact B].
  Qed.
  Lemma stands_inside j pl n z : stands j pl -> inside pl n z -> exists k, slot h j n k /\ child_of h n k j /\ stands k z.
  Proof.
    intros St I. destruct (stands_read _ _ St) as (name & k & p & l' & kids' & ps & H & _ & L & S & In_ & _). apply In_ in I as (v & -> & La).
    assert (F : Forall2 (fun e d => fst e = fst d /\ (fun n v k => exists m, rp w r m k j n /\ shows r m v) (fst e) (snd e) (snd d)) ps l').
    { clear H In_ La. revert l' L. induction S as [|n' m v' kids' ps Sm _ IH]; intros l' L; inversion L; subst; constructor; cbn [fst snd]; eauto. }
    destruct (filled_last _ ps l' F n v La) as (q & G & m & Rm & Sm). destruct (filled_slot _ _ _ _ _ _ _ _ H G) as [_ B].
    exists q. split; [exact B|]. split; [eapply rp_child; eassumption|]. exists m, j, n. auto.
  Qed.
  Lemma stands_nothing j pl n : stands j pl -> nothing pl n -> no_slot h j n.
  Proof.
    intros St N. destruct (stands_read _ _ St) as (name & k & p & l' & kids' & ps & H & _ & L & S & _ & No & _). apply No in N.
    eexists. split; [exact H|]. cbn [nd_slots]. apply get_none. apply filled_none. rewrite <- (rpl_names _ _ _ _ _ L), (shows_names _ _ _ S). exact N.
  Qed.
  Lemma stands_nodir j pl : stands j pl -> forall cs, pl <> PlDir cs.
  Proof. intros S cs ->. exact S. Qed.

  (** Every place has its node. *)
  Lemma place_node P : forall pl, leads (PlImage props) P pl -> exists j, hangs h i P j /\ stands j pl.
  Proof.
    induction P as [|n P IH] using rev_ind; intros pl L.
    - inversion L; subst. exists i. split; [econstructor; exact Hi|split; reflexivity].
    - pose proof L as L0. apply leads_snoc in L as (q & L & I). destruct (IH q L) as (j & Hj & Sj). destruct (stands_inside _ _ _ _ Sj I) as (k & Sl & Ch & Sk).
      exists k. split; [|exact Sk]. destruct (inside_lists _ _ _ I (stands_nodir _ _ Sj)) as (ns & Ln & In_). destruct (Ty P q ns L Ln) as [_ F]. rewrite Forall_forall in F.
      destruct (F n In_) as (A & B & _). econstructor; [exact Hj|split; assumption|exact Ch|exact Sl].
  Qed.
  Lemma hangs_fun P j j' : hangs h i P j -> hangs h i P j' -> j = j'.
  Proof. intros A B. apply hangs_fold in A, B. congruence. Qed.
  Lemma place_here P pl j : leads (PlImage props) P pl -> hangs h i P j -> stands j pl.
  Proof. intros L H. destruct (place_node P pl L) as (j' & H' & S). rewrite (hangs_fun _ _ _ H H'). exact S. Qed.
  Lemma deep_new P n pl j : leads (PlImage props) (P ++ [n]) pl -> stands j pl -> exists v, pl = PlProp v /\ lo <= j < w_next w /\ j <> i.
  Proof.
    intros L S. apply leads_snoc in L as (q & L & I). destruct (place_node P q L) as (k & _ & Sk). destruct (stands_read _ _ Sk) as (? & ? & ? & ? & ? & ? & _ & _ & _ & _ & In_ & _).
    apply In_ in I as (v & -> & _). exists v. split; [reflexivity|]. destruct S as (m & p & name & R & _). split; [eapply Hr, R|]. intros ->. inversion R; subst. eapply Ti; eassumption.
  Qed.

  (** Every new node has its place. *)
  Lemma reach_place n j path m k : reach w r n j path m k -> forall P pl, leads (PlImage props) P pl -> hangs h i P j -> (exists v, pl = PlProp v /\ shows r n v) ->
    exists z, leads (PlImage props) (P ++ path) (PlProp z) /\ hangs h i (P ++ path) k /\ shows r m z.
  Proof.
    induction 1 as [n j p name R|o ks j k m q path m' q' l' name kd p Hj Lk Im Iq Rq _ IH]; intros P pl L H (v & -> & S).
    - exists v. rewrite app_nil_r. auto.
    - pose proof (place_here _ _ _ L H) as Sj. destruct (below_total v) as (ps & B). pose proof (shown_below _ _ _ _ S B) as SK. cbn [nd_kids] in SK.
      destruct (Ty P _ _ L (lists_prop _ _ B)) as [D F].
      destruct (shows_in _ _ _ SK k m Im) as (u & Iu & Su). pose proof (nodup_last _ _ _ D Iu) as La.
      assert (Ins : inside (PlProp v) k (PlProp u)) by (econstructor; eassumption).
      assert (L1 : leads (PlImage props) (P ++ [k]) (PlProp u)) by (apply leads_snoc; eauto).
      assert (Nk : name_ok k) by (rewrite Forall_forall in F; destruct (F k (in_map fst _ _ Iu)) as (A1 & A2 & _); split; assumption).
      assert (H1 : hangs h i (P ++ [k]) q).
      { econstructor; [exact H|exact Nk|eapply rp_child; eassumption|]. eapply filled_slot; [exact Hj|]. apply filled_in; [|exact Iq].
        rewrite <- (rpl_names _ _ _ _ _ Lk), (shows_names _ _ _ SK). exact D. }
      destruct (IH _ _ L1 H1 (ex_intro _ u (conj eq_refl Su))) as (z & A & B' & C). exists z. rewrite <- app_assoc in A, B'. auto.
  Qed.
  Lemma new_place j : lo <= j < w_next w -> exists P n v, leads (PlImage props) (P ++ [n]) (PlProp v) /\ hangs h i (P ++ [n]) j /\ stands j (PlProp v).
  Proof.
    intro J. destruct (Hc j J) as (path & m & k & m0 & j0 & q & -> & Ik & Ij & Rj & Re).
    destruct (Ty [] _ _ (leads_here _) (lists_image _)) as [D F]. destruct (shows_in _ _ _ Hs k m0 Ik) as (v & Iv & Sv). pose proof (nodup_last _ _ _ D Iv) as La.
    assert (L1 : leads (PlImage props) [k] (PlProp v)) by (econstructor; [constructor; exact La|constructor]).
    assert (H1 : hangs h i [k] j0).
    { change [k] with ([] ++ [k]). econstructor; [econstructor; exact Hi| |eapply rp_child; eassumption|].
      - rewrite Forall_forall in F; destruct (F k (in_map fst _ _ Iv)) as (A1 & A2 & _); split; assumption.
      - eapply filled_slot; [exact Hi|]. apply filled_in; [|exact Ij]. rewrite <- (rpl_names _ _ _ _ _ Hl), (shows_names _ _ _ Hs). exact D. }
    destruct (reach_place _ _ _ _ _ Re [k] _ L1 H1 (ex_intro _ v (conj eq_refl Sv))) as (z & A & B & _).
    cbn [app] in A, B. destruct (exists_last (l := k :: q) ltac:(discriminate)) as (P & n & E). assert (G : forall y, k :: q = y -> leads (PlImage props) y (PlProp z) /\ hangs h i y j) by (intros ? <-; auto). destruct (G _ E) as [A' B'].
    exists P, n, z. split; [exact A'|]. split; [exact B'|].
    eapply place_here; eassumption.
  Qed.
  Lemma link_node j pl : stands j pl -> (In j us0 <-> link pl).
  Proof.
    intro S. split.
    - intro I. apply Hu in I as [_ (m & T)]. destruct pl as [cs|ps|v]; [destruct S|destruct S as [-> _]; destruct (Ti _ T)|].
      destruct S as (n & p & name & R & Sh). inversion R as [o ks ? ? ? l' H T' I L]; subst. rewrite T in T'. injection T' as <-. inversion Sh; subst. eexists. reflexivity.
    - intros (t & ->). destruct S as (n & p & name & R & Sh). apply Hu. split; [eapply Hr, R|]. inversion R as [o ks ? ? ? l' H T' I L]; subst. inversion Sh; subst. eexists. exact T'.
  Qed.

  (** * The image while its links are looked at, one after the other *)
  Section stage.
  Variable h' : heap.
  Hypothesis Same : forall j c, h j = Some c -> exists c', h' j = Some c' /\ nd_name c' = nd_name c /\ nd_kind c' = nd_kind c /\ nd_parent c' = nd_parent c.
  Hypothesis Stay : forall j m k, slot h j m k -> ~ In k us0 -> slot h' j m k.
  Hypothesis None_ : forall j m, no_slot h j m -> no_slot h' j m.

  Lemma same_child n j k : child_of h n j k -> child_of h' n j k.
  Proof.
    intros [(c & E & A & B) (d & F)]. destruct (Same j c E) as (c' & E' & X1 & _ & X3). destruct (Same k d F) as (d' & F' & _).
    split; [exists c'; split; [exact E'|split; congruence]|eauto].
  Qed.
  Lemma route_steps P us T : route props P us T -> forall j pl, leads (PlImage props) P pl -> hangs h i P j -> exists t z, leads (PlImage props) T z /\ hangs h i T t /\ steps h' (Some i) j us t.
  Proof.
    induction 1 as [P|P n us T _ IH|P n us T pl' Nu L' Nl _ IH]; intros j pl L H.
    - exists j, pl. split; [exact L|]. split; [exact H|constructor].
    - destruct (hangs_snoc_inv _ _ _ _ _ H) as (q & Hq & _ & Ch & Sl). pose proof L as L0. apply leads_snoc in L as (pq & Lq & _).
      destruct (IH q pq Lq Hq) as (t & z & Lt & Ht & St). exists t, z. split; [exact Lt|]. split; [exact Ht|].
      destruct (deep_new _ _ _ _ L0 (place_here _ _ _ L0 H)) as (_ & _ & _ & Ne). econstructor; [congruence|apply same_child, Ch|exact St].
    - destruct (place_node _ _ L') as (k & Hk & Sk). destruct (hangs_snoc_inv _ _ _ _ _ Hk) as (q & Hq & _ & _ & Sl). rewrite (hangs_fun _ _ _ Hq H) in Sl.
      destruct (IH k pl' L' Hk) as (t & z & Lt & Ht & St). exists t, z. split; [exact Lt|]. split; [exact Ht|]. econstructor; [exact Nu| |exact St].
      apply Stay; [exact Sl|]. rewrite (link_node _ _ Sk). exact Nl.
  Qed.
  Lemma top_no_up : no_slot h i dd.
  Proof.
    destruct (Ty [] _ _ (leads_here _) (lists_image _)) as [_ F]. apply (stands_nothing i (PlImage props)); [split; reflexivity|]. constructor. intro I.
    rewrite Forall_forall in F. destruct (F _ I) as (_ & _ & N). apply N. reflexivity.
  Qed.
  Lemma astray_stuck P us : astray props P us -> forall j pl, leads (PlImage props) P pl -> hangs h i P j -> stuck h' (Some i) j us.
  Proof.
    induction 1 as [us|P n us pl' Nu L' No|P n us _ IH|P n us pl' Nu L' Nl _ IH]; intros j pl L H.
    - apply hangs_nil_inv in H as ->. apply stuck_bound; [reflexivity|]. apply None_, top_no_up.
    - apply stuck_name; [exact Nu|]. apply None_. eapply stands_nothing; [eapply place_here; [exact L'|exact H]|exact No].
    - destruct (hangs_snoc_inv _ _ _ _ _ H) as (q & Hq & _ & Ch & Sl). pose proof L as L0. apply leads_snoc in L as (pq & Lq & _).
      destruct (deep_new _ _ _ _ L0 (place_here _ _ _ L0 H)) as (_ & _ & _ & Ne). eapply stuck_up; [congruence|apply same_child, Ch|eapply IH; eassumption].
    - destruct (place_node _ _ L') as (k & Hk & Sk). destruct (hangs_snoc_inv _ _ _ _ _ Hk) as (q & Hq & _ & _ & Sl). rewrite (hangs_fun _ _ _ Hq H) in Sl.
      eapply stuck_down; [exact Nu| |eapply IH; eassumption]. apply Stay; [exact Sl|]. rewrite (link_node _ _ Sk). exact Nl.
  Qed.
  End stage.

  Hypothesis Sl : simple_links props.
  Hypothesis Du : NoDup us0.
  Lemma like_same h' : like h h' -> forall j c, h j = Some c -> exists c', h' j = Some c' /\ nd_name c' = nd_name c /\ nd_kind c' = nd_kind c /\ nd_parent c' = nd_parent c.
  Proof. intros L j c E. destruct (L j c E) as (c' & A & B & C & D & _). exists c'. auto. Qed.
  (** A link with its place, its owner and what it says. *)
  Record at_link (u : id) (P : list text) (n : text) (us : list text) (p : id) : Prop := mkAt {
    al_linked : linked props P n us; al_hangs : hangs h i (P ++ [n]) u; al_own : hangs h i P p }.
  Lemma at_link_facts u P n us p : at_link u P n us p -> child_of h n u p /\ slot h p n u /\ In u us0 /\ i <> u /\ (exists pl, leads (PlImage props) P pl) /\
    (exists c, h u = Some c /\ nd_kind c = KUol (Some (joined us))) /\ stands u (PlProp (PUol (joined us))).
  Proof.
    intros [(Ne & Pl & L) H Ho]. pose proof (place_here _ _ _ L H) as S. destruct (hangs_snoc_inv _ _ _ _ _ H) as (q & Hq & _ & Ch & Sl0). rewrite (hangs_fun _ _ _ Hq Ho) in *.
    split; [exact Ch|]. split; [exact Sl0|]. split; [apply (link_node _ _ S); eexists; reflexivity|]. destruct (deep_new _ _ _ _ L S) as (_ & _ & _ & Nu). split; [congruence|].
    split; [apply leads_snoc in L as (x & Lx & _); eauto|]. split; [|exact S]. destruct S as (m & p' & name & R & Sh). inversion R as [o ks ? ? ? l' Hc' T' I L']; subst. inversion Sh as [| | | | | | | |m0 t G| | | | | | |]; subst.
    eexists. split; [exact Hc'|]. cbn [nd_kind kind_of]. rewrite G. reflexivity.
  Qed.
  Lemma find_link u : In u us0 -> exists P n us p, at_link u P n us p.
  Proof.
    intro I. pose proof I as J. apply Hu in J as [J _]. destruct (new_place u J) as (P & n & v & L & H & S). apply (link_node _ _ S) in I as (t & E). injection E as ->.
    destruct (split_back t) as (A & B & C). destruct (hangs_snoc_inv _ _ _ _ _ H) as (q & Hq & _). exists P, n, (split_slash t), q. constructor; [|exact H|exact Hq].
    split; [exact A|]. split; [exact B|]. rewrite C. exact L.
  Qed.
  Lemma at_link_fun u P n us p P' n' us' p' : at_link u P n us p -> at_link u P' n' us' p' -> n = n' /\ us = us' /\ p = p'.
  Proof.
    intros A B. destruct (at_link_facts _ _ _ _ _ A) as (C1 & _ & _ & _ & _ & (c & E & K) & _). destruct (at_link_facts _ _ _ _ _ B) as (C2 & _ & _ & _ & _ & (c' & E' & K') & _).
    destruct (child_fun _ _ _ _ _ _ C1 C2) as [-> ->]. split; [reflexivity|]. split; [|reflexivity]. rewrite E in E'. injection E' as <-. rewrite K in K'. injection K' as J.
    destruct A as [(N & Pl & _) _ _]. destruct B as [(N' & Pl' & _) _ _]. apply joined_inj; assumption.
  Qed.
  Lemma like_refl (a : heap) : like a a.
  Proof. intros j c E. exists c. auto. Qed.
  Lemma raw_steps P us T p t : route props P us T -> (exists pl, leads (PlImage props) P pl) -> hangs h i P p -> hangs h i T t -> try_fold (uol_step h [i] (Some i)) p us = Some t.
  Proof.
    intros R (pl & L) H Ht. destruct (route_steps h (like_same _ (like_refl h)) (fun _ _ _ x _ => x) _ _ _ R p pl L H) as (t' & z & _ & Ht' & St).
    rewrite (hangs_fun _ _ _ Ht Ht'). exact (fold_steps _ (Some i) _ _ _ St).
  Qed.
  Lemma raw_stuck P us p : astray props P us -> (exists pl, leads (PlImage props) P pl) -> hangs h i P p -> try_fold (uol_step h [i] (Some i)) p us = None.
  Proof.
    intros A (pl & L) H. exact (fold_stuck _ (Some i) _ _ (astray_stuck h (like_same _ (like_refl h)) (fun _ _ _ x _ => x) (fun _ _ x => x) _ _ A p pl L H)).
  Qed.

  (** The links [done] have been looked at. *)
  Record stage (done : list id) (hk : heap) : Prop := mkStage {
    sg_like : like h hk;
    sg_stay : forall j m k, slot h j m k -> ~ In k done -> slot hk j m k;
    sg_done : forall u P n us p, In u done -> at_link u P n us p ->
      (forall T t, route props P us T -> hangs h i T t -> slot hk p n t) /\ (astray props P us -> slot hk p n u) }.
  Lemma stage_step done hk u : stage done hk -> (forall x, In x done -> In x us0) -> In u us0 -> ~ In u done ->
    exists hk', resolve_uol hk [i] (Some i) u = Ok hk' /\ stage (u :: done) hk'.
  Proof.
    intros [Lk St Dn] Sub I N. destruct (find_link u I) as (P & n & us & p & A). destruct (at_link_facts _ _ _ _ _ A) as (Ch & Slu & _ & Nu & Lp & (c & Ec & Kc) & _).
    pose proof A as [(Ne & Pl & Lu) Hg Ho]. pose proof Lp as (pl & Lpl).
    assert (Stay : forall j m k, slot h j m k -> ~ In k us0 -> slot hk j m k) by (intros j m k S Nk; apply St; [exact S|]; intro X; apply Nk, Sub, X).
    pose proof (like_same _ Lk) as Sm. pose proof (fun j m => like_no_slot _ _ j m Lk) as No.
    assert (Ch' : child_of hk n u p) by (apply same_child; assumption).
    assert (Kk : exists c', hk u = Some c' /\ nd_kind c' = KUol (Some (joined us))) by (destruct (Lk u c Ec) as (c' & E' & _ & K' & _); exists c'; split; [exact E'|rewrite K'; exact Kc]).
    assert (Nb : Some i <> Some u) by congruence.
    destruct (Sl P n us (conj Ne (conj Pl Lu))) as [(T & R)|As].
    - destruct (route_steps hk Sm Stay _ _ _ R p pl Lpl Ho) as (t & z & _ & Ht & Ste). exists (replace_child hk p n t).
      split; [exact (resolve_hit hk (Some i) u n p us t Ch' Nb Kk Ne Pl Ste)|]. destruct (replace_ok hk p n t) as (_ & Oth & Own).
      assert (Ot : forall j m k, slot h j m k -> k <> u -> forall x, slot hk j m x -> slot (replace_child hk p n t) j m x).
      { intros j m k S Nk x X. apply Oth; [|exact X]. destruct (Z.eq_dec j p) as [->|]; [|left; assumption]. right. intros ->. apply Nk. eapply slot_fun; eassumption. }
      constructor.
      + eapply like_trans; [exact Lk|apply like_replace].
      + intros j m k S Nk. cbn [In] in Nk. eapply Ot; [exact S| |apply St; [exact S|tauto]]. intros ->. tauto.
      + intros u' P' n' us' p' I' A'. destruct (Z.eq_dec u' u) as [->|Nu'].
        * destruct (at_link_fun _ _ _ _ _ _ _ _ _ A A') as (<- & <- & <-). destruct (at_link_facts _ _ _ _ _ A') as (_ & _ & _ & _ & Lp' & _). pose proof A' as [_ _ Ho'].
          split; [|intro As; pose proof (raw_stuck _ _ _ As Lp' Ho'); pose proof (raw_steps _ _ _ _ _ R Lp Ho Ht); congruence].
          intros T' t' R' Ht'. assert (t' = t) as -> by (pose proof (raw_steps _ _ _ _ _ R' Lp' Ho' Ht'); pose proof (raw_steps _ _ _ _ _ R Lp Ho Ht); congruence).
          eapply Own, St; [exact Slu|exact N].
        * destruct I' as [E|I']; [congruence|]. destruct (Dn _ _ _ _ _ I' A') as [D1 D2]. destruct (at_link_facts _ _ _ _ _ A') as (_ & S' & _).
          split; [intros T' t' R' Ht'; eapply Ot; [exact S'|exact Nu'|eapply D1; eassumption]|intro As; eapply Ot; [exact S'|exact Nu'|exact (D2 As)]].
    - exists hk. split; [exact (resolve_miss hk (Some i) u n p us Ch' Nb Kk Ne Pl (astray_stuck hk Sm Stay No _ _ As p pl Lpl Ho))|]. constructor; [exact Lk| |].
      + intros j m k S Nk. apply St; [exact S|]. cbn [In] in Nk. tauto.
      + intros u' P' n' us' p' I' A'. destruct (Z.eq_dec u' u) as [->|Nu']; [|destruct I' as [E|I']; [congruence|]; exact (Dn _ _ _ _ _ I' A')].
        destruct (at_link_fun _ _ _ _ _ _ _ _ _ A A') as (<- & <- & <-). destruct (at_link_facts _ _ _ _ _ A') as (_ & _ & _ & _ & Lp' & _). pose proof A' as [_ _ Ho'].
        split; [|intros _; apply St; [exact Slu|exact N]]. intros T' t' R' Ht'. pose proof (raw_steps _ _ _ _ _ R' Lp' Ho' Ht'). pose proof (raw_stuck _ _ _ As Lp Ho). congruence.
  Qed.
  Lemma stage_all h2 : (forall j c, h j = Some c -> h2 j = Some c) -> exists h3, resolve_all i us0 (Ok h2) = Ok h3 /\ stage us0 h3.
  Proof.
    intro Sub.
    assert (G : forall us done hk, (forall x, In x us0 <-> In x done \/ In x us) -> NoDup us -> (forall x, In x us -> ~ In x done) -> stage done hk -> exists h3, resolve_all i us (Ok hk) = Ok h3 /\ stage us0 h3).
    { induction us as [|u us IH]; intros done hk Al D X S.
      - exists hk. split; [reflexivity|]. destruct S as [A B C]. constructor; [exact A| |].
        + intros j m k Sk Nk. apply B; [exact Sk|]. intro Y. apply Nk, Al. auto.
        + intros u P n us p I. apply C. apply Al in I as [I|[]]. exact I.
      - inversion_clear D as [|? ? Nu D']. destruct (stage_step done hk u S) as (hk' & E & S'); [intros x Hx; apply Al; auto|apply Al; right; left; reflexivity|apply X; left; reflexivity|].
        cbn [resolve_all fold_left rbind]. rewrite E. apply (IH (u :: done)); [|exact D'| |exact S'].
        + intro x. rewrite Al. cbn [In]. tauto.
        + intros x Hx [->|Hd]; [contradiction|]. apply (X x); [right; exact Hx|exact Hd]. }
    apply (G us0 [] h2); [intro x; cbn [In]; tauto|exact Du|auto|]. constructor.
    - intros j c E. exists c. split; [apply Sub, E|auto].
    - intros j m k (c & E & A & B) _. exists c. split; [apply Sub, E|auto].
    - intros u P n us p [].
  Qed.

  (** * The image with its links resolved *)
  Variable w3 : world.
  Hypothesis Fin : stage us0 (w_heap w3).
  Variable stream : list Z -> nat -> Z.
  Variable block : list Z -> list Z -> Z -> list Z.
  Variable f : nat.
  Lemma no_more P pl j : leads (PlImage props) P pl -> hangs h i P j -> w_parse stream block f w3 j j = (Ok tt, w3).
  Proof.
    intros L H. destruct (stands_read _ _ (place_here _ _ _ L H)) as (name & k & p & l' & _ & _ & E & U & _). destruct (sg_like _ _ Fin _ _ E) as (c' & E' & _ & K & _).
    unfold w_parse. rewrite E', K. cbn [nd_kind]. rewrite U. reflexivity.
  Qed.
  Lemma step_down P n pl : leads (PlImage props) (P ++ [n]) pl -> ~ link pl -> forall j, hangs h i P j -> exists k, hangs h i (P ++ [n]) k /\ slot (w_heap w3) j n k.
  Proof.
    intros L Nl j H. destruct (place_node _ _ L) as (k & Hk & Sk). destruct (hangs_snoc_inv _ _ _ _ _ Hk) as (q & Hq & _ & _ & Slk). rewrite (hangs_fun _ _ _ Hq H) in Slk.
    exists k. split; [exact Hk|]. apply (sg_stay _ _ Fin); [exact Slk|]. rewrite (link_node _ _ Sk). exact Nl.
  Qed.
  Lemma step_link P n us : linked props P n us -> forall j, hangs h i P j -> exists u, at_link u P n us j /\ In u us0.
  Proof.
    intros L j H. pose proof L as (_ & _ & Lu). destruct (place_node _ _ Lu) as (u & Hu' & Su). exists u. assert (A : at_link u P n us j) by (constructor; assumption). split; [exact A|].
    exact (proj1 (proj2 (proj2 (at_link_facts _ _ _ _ _ A)))).
  Qed.
  Lemma route_ends P us T : route props P us T -> (exists pl, leads (PlImage props) P pl) -> exists z, leads (PlImage props) T z.
  Proof.
    intros R (pl & L). destruct (place_node _ _ L) as (j & Hj & _). destruct (route_steps h (like_same _ (like_refl h)) (fun _ _ _ x _ => x) _ _ _ R j pl L Hj) as (_ & z & Lz & _). eauto.
  Qed.
  Lemma follow_to P comps Q : follows props P comps Q -> forall j pl, leads (PlImage props) P pl -> hangs h i P j ->
    exists q z, leads (PlImage props) Q z /\ hangs h i Q q /\ try_fold (node_at (w_heap w3)) j comps = Some q /\ w_fold stream block f w3 j comps = (Ok q, w3).
  Proof.
    induction 1 as [P|P n rest Q pl' L' Nl _ IH|P n us T rest Q Lk R _ IH|P n us Lk As]; intros j pl L H.
    - exists j, pl. split; [exact L|]. auto.
    - destruct (step_down _ _ _ L' Nl j H) as (k & Hk & Sk). destruct (IH k pl' L' Hk) as (q & z & A & B & C & D'). exists q, z. split; [exact A|]. split; [exact B|].
      cbn [try_fold w_fold]. rewrite (no_more _ _ _ L H), (slot_at _ _ _ _ Sk). auto.
    - destruct (step_link _ _ _ Lk j H) as (u & A & I). destruct (route_ends _ _ _ R (ex_intro _ pl L)) as (zT & LT). destruct (place_node _ _ LT) as (t & Ht & _).
      destruct (sg_done _ _ Fin _ _ _ _ _ I A) as [D _]. destruct (IH t zT LT Ht) as (q & z & A' & B & C & D'). exists q, z. split; [exact A'|]. split; [exact B|].
      cbn [try_fold w_fold]. rewrite (no_more _ _ _ L H), (slot_at _ _ _ _ (D _ _ R Ht)). auto.
    - destruct (step_link _ _ _ Lk j H) as (u & A & I). destruct (sg_done _ _ Fin _ _ _ _ _ I A) as [_ D]. exists u, (PlProp (PUol (joined us))). split; [apply Lk|]. split; [apply A|].
      cbn [try_fold w_fold]. rewrite (no_more _ _ _ L H), (slot_at _ _ _ _ (D As)). auto.
  Qed.
  Lemma follow_none P comps : missing props P comps -> forall j pl, leads (PlImage props) P pl -> hangs h i P j -> try_fold (node_at (w_heap w3)) j comps = None /\ w_fold stream block f w3 j comps = (Err ENotFound, w3).
  Proof.
    pose proof (fun j m => like_no_slot _ _ j m (sg_like _ _ Fin)) as No.
    induction 1 as [P n rest pl' L' Nt|P n us m rest Lk As|P n rest pl' L' Nl _ IH|P n us T rest Lk R _ IH]; intros j pl L H; cbn [try_fold w_fold]; rewrite (no_more _ _ _ L H).
    - rewrite (no_slot_at (w_heap w3) j n); [auto|]. apply No. eapply stands_nothing; [eapply place_here; [exact L'|exact H]|exact Nt].
    - destruct (step_link _ _ _ Lk j H) as (u & A & I). destruct (sg_done _ _ Fin _ _ _ _ _ I A) as [_ D]. rewrite (slot_at _ _ _ _ (D As)).
      destruct (at_link_facts _ _ _ _ _ A) as (_ & _ & _ & _ & _ & _ & Su). pose proof A as [(_ & _ & Lu) Hgu _]. rewrite (no_more _ _ _ Lu Hgu). rewrite (no_slot_at (w_heap w3) u m); [auto|]. apply No. eapply stands_nothing; [exact Su|].
      econstructor; [constructor; exact Logic.I|intros []].
    - destruct (step_down _ _ _ L' Nl j H) as (k & Hk & Sk). rewrite (slot_at _ _ _ _ Sk). exact (IH k pl' L' Hk).
    - destruct (step_link _ _ _ Lk j H) as (u & A & I). destruct (route_ends _ _ _ R (ex_intro _ pl L)) as (zT & LT). destruct (place_node _ _ LT) as (t & Ht & _).
      destruct (sg_done _ _ Fin _ _ _ _ _ I A) as [D _]. rewrite (slot_at _ _ _ _ (D _ _ R Ht)). exact (IH t zT LT Ht).
  Qed.
End raw.

(** * From the bytes *)
Lemma hangs_join h a b p q j : hangs h a p b -> hangs h b q j -> hangs h a (p ++ q) j.
Proof.
  intros A B. induction B as [c E|q n j k _ IH N C S]; [rewrite app_nil_r; exact A|]. rewrite app_assoc. econstructor; eassumption.
Qed.
Lemma hangs_more (h h' : heap) a p j : (forall j c, h j = Some c -> h' j = Some c) -> hangs h a p j -> hangs h' a p j.
Proof.
  intro S. induction 1 as [c E|p n j k _ IH N [(c & E & A) (d & D)] (c2 & E2 & B)]; [econstructor; apply S, E|].
  econstructor; [exact IH|exact N| |]; [split; [exists c|exists d]; auto|exists c2; auto].
Qed.
Lemma full_path_same h h' : same_but_slots h h' -> forall k j, get_full_path k h' j = get_full_path k h j.
Proof.
  intro S.
  assert (U : forall p, upgrade h' p = upgrade h p).
  { intros [p|]; [|reflexivity]. unfold upgrade. pose proof (S p) as X. destruct (h p), (h' p); try contradiction; reflexivity. }
  assert (G : forall k p t, full_path_up k h' p t = full_path_up k h p t).
  { induction k as [|k IH]; intros [p|] t; try reflexivity. cbn [full_path_up]. pose proof (S p) as X. destruct (h p) as [c|], (h' p) as [c'|]; try contradiction; [|reflexivity].
    destruct X as (-> & _ & ->). rewrite U. apply IH. }
  intros k j. unfold get_full_path. pose proof (S j) as X. destruct (h j) as [c|], (h' j) as [c'|]; try contradiction; [|reflexivity]. destruct X as (-> & _ & ->). rewrite U. apply G.
Qed.

Section read.
  Variable stream : list Z -> nat -> Z.
  Variable block : list Z -> list Z -> Z -> list Z.
  Variable f : nat.

  (** The image with its links resolved, read by path. *)
  Definition resolved (w3 : world) (r : rd) (i : id) (props : list (list Z * prop)) (w : world) : Prop :=
    (exists nm off size, w_thing w3 i = ThImage r nm off size) /\ (exists c, w_heap w3 i = Some c /\ unread (nd_kind c) = false) /\
    forall comps,
      (forall Q, follows props [] comps Q -> exists j z, leads (PlImage props) Q z /\ try_fold (node_at (w_heap w3)) i comps = Some j /\
         w_fold stream block f w3 i comps = (Ok j, w3) /\
         match z with PlProp v => exists o sub, w_thing w3 j = ThProp r o /\ shows r (Node o sub) v | _ => j = i end /\
         forall root q c, hangs (w_heap w) root q i -> w_heap w root = Some c -> nd_parent c = None ->
           forall k, (length (q ++ Q) <= k)%nat -> get_full_path k (w_heap w3) j = Ok (joined (nd_name c :: q ++ Q))) /\
      (missing props [] comps -> try_fold (node_at (w_heap w3)) i comps = None /\ w_fold stream block f w3 i comps = (Err ENotFound, w3)).

  Lemma links_read w i k p name r off size props kids us0 : bounded w -> w_heap w i = Some (mkCell name k p []) -> unread k = true ->
    src stream block k (w_thing w i) r name off size -> shows_kids r kids props -> image_children f r name off size = Ok (kids, us0) -> tidy props -> simple_links props ->
    exists w3, w_parse stream block f w i i = (Ok tt, w3) /\ resolved w3 r i props w.
  Proof.
    intros B H U T S Im Ty Sl. pose proof (B _ _ H) as I.
    set (w0 := match k with KMsImage => set_thing w i (ThImage r name off size) | _ => w end).
    assert (W0 : w_heap w0 = w_heap w /\ w_next w0 = w_next w /\ w_thing w0 i = ThImage r name off size /\ forall j, j <> i -> w_thing w0 j = w_thing w j).
    { unfold w0. inversion T as [b ? ? ? ? Ek Et|buf e x Tx Ek Et]; subst; [auto|]. cbn [set_thing w_heap w_next w_thing]. rewrite Z.eqb_refl.
      repeat split. intros j Hj. apply Z.eqb_neq in Hj. rewrite Hj. reflexivity. }
    destruct W0 as (H0 & N0 & T0 & A0). destruct (plant_list (plant r i) w0 kids) as [[w1 l] us] eqn:E.
    destruct (plant_list_ok 0%nat st0 bl0 (fun w n j name => rp w r n j i name) no_uol (plant r i) kids ltac:(apply Forall_forall; intros e _ w3; apply (plant_ok 0%nat st0 bl0)) _ _ _ _ E) as (K & R' & B' & _).
    pose proof K as [N K0]. destruct (K0 i ltac:(lia)) as [Hi Ti]. rewrite H0, H in Hi. rewrite T0 in Ti.
    set (h2 := put (w_heap w1) i (mkCell name (KImage true) p (filled l))).
    set (wr := mkWorld (fun j => if (w_next w <=? j) || (j =? i) then h2 j else None) (w_thing w1) (w_next w1) (w_cache w1)).
    assert (Hs : has w0 w1 wr).
    { split; cbn [wr w_next w_heap w_thing]; [lia|]. intros j J. split; [|reflexivity]. replace (w_next w <=? j) with true by lia. cbn [orb]. unfold h2, put. replace (j =? i) with false by lia. reflexivity. }
    assert (Lr : rpl wr r i kids l) by (apply rpl_f2, R', Hs).
    assert (Hi' : w_heap wr i = Some (mkCell name (KImage true) p (filled l))).
    { cbn [wr w_heap]. rewrite Z.eqb_refl, orb_true_r. unfold h2. apply put_same. }
    assert (Tp : forall o, w_thing wr i <> ThProp r o) by (intro o; cbn [wr w_thing]; rewrite Ti; discriminate).
    assert (Hr : forall n j q nm, rp wr r n j q nm -> w_next w <= j < w_next wr).
    { intros n j q nm R. inversion R as [o ks ? ? ? l' Hc Tc Ic _]; subst. split; [|exact Ic]. cbn [wr w_heap] in Hc.
      destruct (Z.leb_spec (w_next w) j); [assumption|]. cbn [orb] in Hc. destruct (Z.eqb_spec j i) as [->|]; [|discriminate Hc]. destruct (Tp _ Tc). }
    destruct (plant_list_more r kids ltac:(apply Forall_forall; intros e _; apply plant_more) i w0 w1 l us E wr Hs) as (Du & Hu & Hc). rewrite N0 in Hu, Hc.
    assert (Sub : forall j c, w_heap wr j = Some c -> h2 j = Some c) by (intros j c; cbn [wr w_heap]; destruct (_ || _); [auto|discriminate]).
    destruct (stage_all wr r i kids l props us (w_next w) name p Hi' Lr S Tp Ty Hu Hc Hr Sl Du h2 Sub) as (h3 & Rs & St).
    set (w3 := mkWorld h3 (w_thing w1) (w_next w1) (w_cache w1)). exists w3. split.
    { unfold w_parse. rewrite H. cbn [nd_kind]. rewrite U. unfold w_load.
      assert (Pa : forall q, parse (fun _ _ _ => Some (w_heap w1, l, us)) (w_heap w) [] i q = Ok h3).
      { intro q. unfold parse. rewrite H. cbn [nd_kind]. inversion T as [b ? ? ? ? Ek Et|buf e x Tx Ek Et]; subst.
        - destruct b; [discriminate U|]. unfold parse_as. rewrite Hi. cbn [nd_name nd_parent nd_slots]. exact Rs.
        - unfold parse_as. rewrite Hi. cbn [nd_name nd_parent nd_slots]. exact Rs. }
      inversion T as [b ? ? ? ? Ek Et|buf e x Tx Ek Et]; subst.
      - rewrite Im. unfold w0 in E. rewrite E, Pa. reflexivity.
      - rewrite Tx. cbn [rbind]. rewrite Im. unfold rmap; cbn [rbind fst]. unfold w0 in E. rewrite E, Pa. reflexivity. }
    split; [exists name, off, size; exact Ti|]. split; [destruct (sg_like _ _ _ _ _ St _ _ Hi') as (c' & E' & _ & Kc & _); exists c'; split; [exact E'|rewrite Kc; reflexivity]|]. intro comps.
    assert (Top : leads (PlImage props) [] (PlImage props)) by constructor.
    assert (Ht : hangs (w_heap wr) i [] i) by (econstructor; exact Hi'). split.
    - intros Q Fo. destruct (follow_to wr r i kids l props us (w_next w) name p Hi' Lr S Tp Ty Hu Hr w3 St stream block f _ _ _ Fo i _ Top Ht) as (j & z & Lz & Hj & F1 & F2).
      exists j, z. split; [exact Lz|]. split; [exact F1|]. split; [exact F2|]. split.
      + pose proof (place_here wr r i kids l props name p Hi' Lr S Ty _ _ _ Lz Hj) as Sj. destruct z as [cs|ps|v]; [destruct Sj|apply Sj|]. destruct Sj as (n & q & nm & R & Sh).
        inversion R as [o ks ? ? ? l' Hcc Tc Ic _]; subst. exists o, ks. split; [exact Tc|exact Sh].
      + intros root q c Hq Ec Pc k' Hk. destruct (resolve_all_frame _ _ _ _ Rs) as [Sm _]. cbn [w3 w_heap]. rewrite (full_path_same _ _ Sm).
        assert (X : forall j c, w_heap w j = Some c -> exists c', h2 j = Some c' /\ nd_name c' = nd_name c /\ nd_parent c' = nd_parent c /\
                      (forall n j, NoDup (map fst (nd_slots c)) -> In (n, j) (nd_slots c) -> NoDup (map fst (nd_slots c')) /\ In (n, j) (nd_slots c'))).
        { intros x cx Ex. unfold h2, put. destruct (Z.eqb_spec x i) as [->|Nx].
          - rewrite H in Ex. injection Ex as <-. eexists. split; [reflexivity|]. split; [reflexivity|]. split; [reflexivity|]. intros ? ? _ [].
          - exists cx. destruct (K0 x) as [Kx _]; [rewrite N0; exact (B _ _ Ex)|]. rewrite Kx, H0. auto. }
        assert (Hq2 : hangs h2 root q i).
        { clear - Hq X. clearbody h2. clear - Hq X. induction Hq as [c C|q n i j _ IH Nn [(c & C & Cn & Cp) (cj & Cj)] (c2 & C2 & D & In_)].
          - destruct (X _ _ C) as (c' & C' & _). exact (hangs_top _ _ c' C').
          - destruct (X _ _ C) as (c' & C' & C'n & C'p & _). destruct (X _ _ C2) as (c2' & C2' & _ & _ & Sl).
            destruct (Sl n i D In_) as [D' In']. econstructor; [exact IH|exact Nn| |].
            + split; [exists c'; split; [exact C'|split; congruence]|eauto].
            + exists c2'. auto. }
        destruct (X _ _ Ec) as (c' & E' & Nc & Pc' & _). rewrite <- Nc. apply (full_path_ok h2 root); [| |exact E'|exact Hk].
        * exists c'. split; [exact E'|]. rewrite Pc', Pc. discriminate.
        * eapply hangs_join; [exact Hq2|]. eapply hangs_more; [exact Sub|exact Hj].
    - intro Mi. exact (follow_none wr r i kids l props us (w_next w) name p Hi' Lr S Tp Ty Hu Hr w3 St stream block f _ _ Mi i _ Top Ht).
  Qed.
End read.

(** * Every path is one or the other *)
Lemma route_place props P us T : route props P us T -> (exists pl, leads (PlImage props) P pl) -> exists z, leads (PlImage props) T z.
Proof.
  induction 1 as [P|P n us T _ IH|P n us T pl' Nu L' Nl _ IH]; intros (pl & L).
  - eauto.
  - apply IH. apply leads_snoc in L as (q & Lq & _). eauto.
  - apply IH. eauto.
Qed.
Lemma image_nodir props P pl : leads (PlImage props) P pl -> forall cs, pl <> PlDir cs.
Proof.
  revert pl. induction P as [|n P IH] using rev_ind; intros pl L cs E; [inversion L; subst; discriminate|]. apply leads_snoc in L as (q & L & I). subst pl.
  inversion I as [ks ? c La E1 E2 E'| |]; subst. exact (IH _ L ks eq_refl).
Qed.
Lemma links_total props : simple_links props -> forall comps P pl, leads (PlImage props) P pl -> (exists Q, follows props P comps Q) \/ missing props P comps.
Proof.
  intro Sl. induction comps as [|n comps IH]; intros P pl L; [left; eexists; constructor|].
  assert (E : (exists z, inside pl n z) \/ nothing pl n).
  { assert (G : forall A (ps : list (list Z * A)), (exists v, last_named ps n v) \/ ~ In n (map fst ps)).
    { intros A ps. induction ps as [|[k v] ps IHp]; [right; intros []|]. destruct IHp as [(u & a & b & -> & N)|N].
      - left. exists u, ((k, v) :: a), b. auto.
      - destruct (list_eq_dec Z.eq_dec k n) as [->|Ne]; [left; exists v, [], ps; auto|]. right. intros [X|X]; contradiction. }
    destruct pl as [cs|ps|v]; [destruct (image_nodir _ _ _ L cs eq_refl)| |].
    - destruct (G _ ps) as [(v & La)|N]; [left; eexists; constructor; exact La|right; constructor; exact N].
    - destruct (below_total v) as (ps & B). destruct (G _ ps) as [(u & La)|N]; [left; eexists; econstructor; eassumption|right; econstructor; eassumption]. }
  destruct E as [(z & I)|N]; [|right; econstructor; eassumption].
  assert (L1 : leads (PlImage props) (P ++ [n]) z) by (apply leads_snoc; eauto).
  assert (D : link z \/ ~ link z).
  { destruct z as [| |v]; try (right; intros (t & E); discriminate E). destruct v; try (right; intros (t' & E); discriminate E). left. eexists. reflexivity. }
  destruct D as [(t & ->)|Nl].
  - destruct (split_back t) as (A & B & C). rewrite <- C in L1. assert (Lk : linked props P n (split_slash t)) by (split; [exact A|split; [exact B|exact L1]]).
    destruct (Sl _ _ _ Lk) as [(T & R)|As].
    + destruct (route_place _ _ _ _ R (ex_intro _ _ L)) as (zT & LT). destruct (IH T zT LT) as [(Q & F)|M]; [left; exists Q; eapply follows_link; eassumption|right; eapply missing_link; eassumption].
    + destruct comps as [|m rest]; [left; eexists; eapply follows_dead; eassumption|right; eapply missing_dead; eassumption].
  - destruct (IH _ _ L1) as [(Q & F)|M]; [left; exists Q; eapply follows_plain; eassumption|right; eapply missing_plain; eassumption].
Qed.
