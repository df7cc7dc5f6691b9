(** Lemmas on pictures in packages. *)
From Coq Require Import ZArith List Bool Lia Arith ZifyBool ZifyNat.
From Coq Require String Ascii.
From Verif.Model Require Import Base Utf Keys Reader Header Offset VersionPkg2 Directory Image Media Guess File Png Node Ms World WorldPicture.
From Verif.Spec Require Import Wire StrWire Version PropWire PropView DirWire DirView PathSpec Tree Picture Whole Portrait.
From Verif.Proofs Require Import BaseL AtL ImageL NodeL PictureL WorldL WalkWL.
Import ListNotations. Import String.StringSyntax.
Open Scope Z_scope.

Section portrait.
  Variable f : nat.
  Hypothesis F : (0 < f)%nat.
  Variable st : list Z -> nat -> Z.
  Variable bl : list Z -> list Z -> Z -> list Z.
  Variable ok : rd -> Prop.
  Variable s : shared.
  Variable inflate : bool -> list Z -> Z -> option (list Z).
  Variable bc7 : list Z -> Z -> Z -> option (list Z).
  Variable rayon : bool.
  Local Notation at_place := (at_place f st bl ok s).
  Local Notation ext := (ext f st bl).

  Lemma fold_app : forall P Q w n, w_fold st bl f w n (P ++ Q) =
    match w_fold st bl f w n P with
    | (Ok m, w1) => w_fold st bl f w1 m Q
    | (Err e, w1) => (Err e, w1)
    | (Panic, w1) => (Panic, w1)
    | (OutOfFuel, w1) => (OutOfFuel, w1)
    end.
  Proof.
    induction P as [|c P IH]; intros Q w n; [reflexivity|]. cbn [app w_fold].
    destruct (w_parse st bl f w n n) as [[u|e| |] w1]; try reflexivity. destruct (node_at (w_heap w1) n c); [apply IH|reflexivity].
  Qed.

  (** An image that has been read. *)
  Definition read_image (w : world) (a : id) (props : list (list Z * prop)) : Prop :=
    at_place w a (PlImage props) /\ exists n p sl, w_heap w a = Some (mkCell n (KImage true) p sl).

  Lemma prop_kind w i v : at_place w i (PlProp v) -> exists c, w_heap w i = Some c /\ unread (nd_kind c) = false /\ ~ an_image c /\ ~ base_file c.
  Proof.
    intros (r & n & p & nm & _ & R & _). inversion R as [o kids ? ? ? l H T I L]; subst. eexists. split; [exact H|]. cbn [nd_kind].
    split; [destruct o; reflexivity|]. split; [intros [b E]; destruct o; discriminate E|intros (_ & b & E); destruct o; discriminate E].
  Qed.
  (** No base file at or above a node. *)
  Inductive clear (w : world) : id -> Prop :=
  | clear_top i c : w_heap w i = Some c -> nd_parent c = None -> ~ base_file c -> clear w i
  | clear_up i c p : w_heap w i = Some c -> nd_parent c = Some p -> ~ base_file c -> clear w p -> clear w i.
  Lemma clear_ext w w' i : bounded w -> ext w w' -> clear w i -> clear w' i.
  Proof.
    intros B [_ X].
    assert (Al : forall i c, w_heap w i = Some c -> ~ base_file c -> exists c', w_heap w' i = Some c' /\ nd_parent c' = nd_parent c /\ ~ base_file c').
    { intros j c C N. destruct (X j (B j c C)) as [[E _]|[(m & q & sl & E & E' & _)|(m & k & q & r' & nm & off' & size' & ks & us & l' & E & _ & _ & _ & E' & _)]].
      - exists c. rewrite E. auto.
      - rewrite C in E. injection E as ->. eexists. split; [exact E'|]. split; [reflexivity|]. intros (_ & b & Y). discriminate Y.
      - rewrite C in E. injection E as ->. eexists. split; [exact E'|]. split; [reflexivity|]. intros (_ & b & Y). discriminate Y. }
    induction 1 as [i c C P N|i c p C P N _ IH]; destruct (Al _ _ C N) as (c' & C' & P' & N').
    - eapply clear_top; [exact C'|congruence|exact N'].
    - eapply clear_up; [exact C'|rewrite P'; exact P|exact N'|exact IH].
  Qed.
  Lemma clear_in w i : clear w i -> exists c, w_heap w i = Some c.
  Proof. intros []; eauto. Qed.
  Lemma clear_above w i : clear w i -> none_above (w_heap w) base_file i.
  Proof.
    induction 1 as [i c C P N|i c p C P N Cl IH].
    - apply none_root. exists c. split; [exact C|]. rewrite P. discriminate.
    - destruct (clear_in _ _ Cl) as [d D]. apply (none_up _ _ i (nd_name c) p d).
      + split; [exists c; auto|eauto].
      + exact D.
      + inversion Cl; congruence.
      + exact IH.
  Qed.
  Lemma clear_base w i : clear w i -> exists m, forall d, (m <= d)%nat -> get_base_wz_file d (w_heap w) i = Ok None.
  Proof. intro C. unfold get_base_wz_file. eapply none_up_ok; [apply base_dec|apply clear_above, C]. Qed.
  (** Going down from a node whose inside has been read. *)
  Lemma inner_walk a : forall Q w i pl, (exists c, w_heap w i = Some c /\ unread (nd_kind c) = false) -> shows_inside f st bl ok s w i pl ->
    (forall cs, pl <> PlDir cs) -> (i = a /\ (exists c, w_heap w a = Some c /\ an_image c) \/ nearest (w_heap w) an_image i a /\ (exists v, at_place w i (PlProp v))) ->
    (forall z, leads pl Q z -> Q <> [] -> exists j u, z = PlProp u /\ w_fold st bl f w i Q = (Ok j, w) /\ try_fold (node_at (w_heap w)) i Q = Some j /\
       at_place w j z /\ nearest (w_heap w) an_image j a /\ (clear w i -> clear w j)) /\
    (fails pl Q -> try_fold (node_at (w_heap w)) i Q = None).
  Proof.
    induction Q as [|c Q IH]; intros w i pl (d & D & U) [In1 No1] Nd Ne; [split; [contradiction|intro X; inversion X]|].
    assert (Step : forall q, inside pl c q -> exists j u, q = PlProp u /\ node_at (w_heap w) i c = Some j /\ at_place w j q /\ nearest (w_heap w) an_image j a /\ (clear w i -> clear w j)).
    { intros q I. destruct (In1 c q I) as (j & G & A & _ & Ch). assert (exists u, q = PlProp u) as [u ->] by (inversion I; subst; eauto; destruct (Nd kids eq_refl)).
      exists j, u. split; [reflexivity|]. split; [exact G|]. split; [exact A|]. split.
      2: { intro Cl. destruct (prop_kind w j u A) as (x & X & _ & _ & Nb). destruct Ch as [(y & Y & _ & Py) _]. rewrite X in Y. injection Y as <-. eapply clear_up; eassumption. }
      destruct Ne as [(-> & x & X & Ix)|(N & v & V)].
      - eapply near_here; eassumption.
      - destruct (prop_kind w i v V) as (x & X & _ & Ni & _). eapply near_up; eassumption. }
    split.
    - intros z L _. inversion L as [|? ? q ? ? I L']; subst. destruct (Step q I) as (j & u & -> & G & A & N & Cl).
      cbn [w_fold try_fold]. unfold w_parse. rewrite D, U, G.
      destruct Q as [|c' Q]; [inversion L'; subst; exists j, u; repeat (split; [first [assumption|reflexivity]|]); assumption|].
      destruct (prop_kind w j u A) as (x & X & Ux & _).
      destruct (IH w j (PlProp u)) as [IH1 _]; [eauto|apply place_read; [exact A|discriminate]|discriminate|right; eauto|].
      destruct (IH1 z L' ltac:(discriminate)) as (j' & u' & Ez & E1 & E2 & A' & N' & Cl'). exists j', u'. repeat (split; [assumption|]). auto.
    - intro Fa. inversion Fa as [? ? ? Nn|? ? q ? I Fa']; subst; cbn [try_fold].
      + rewrite (No1 c Nn). reflexivity.
      + destruct (Step q I) as (j & u & -> & G & A & N & Cl). rewrite G. destruct (prop_kind w j u A) as (x & X & Ux & _).
        destruct (IH w j (PlProp u)) as [_ IH2]; [eauto|apply place_read; [exact A|discriminate]|discriminate|right; eauto|]. apply IH2, Fa'.
  Qed.
  Lemma image_walk w a props Q : read_image w a props ->
    (forall z, leads (PlImage props) Q z -> Q <> [] -> exists j u, z = PlProp u /\ w_fold st bl f w a Q = (Ok j, w) /\ try_fold (node_at (w_heap w)) a Q = Some j /\
       at_place w j z /\ nearest (w_heap w) an_image j a /\ (clear w a -> clear w j)) /\
    (fails (PlImage props) Q -> try_fold (node_at (w_heap w)) a Q = None).
  Proof.
    intros (A & n & p & sl & H). apply inner_walk; [eauto|apply place_read; [exact A|eauto]|discriminate|]. left. split; [reflexivity|]. eexists. split; [exact H|]. exists true. reflexivity.
  Qed.


  Lemma dir_child w i cs n q j : at_place w i (PlDir cs) -> inside (PlDir cs) n q -> node_at (w_heap w) i n = Some j ->
    exists c, w_heap w j = Some c /\ nd_parent c = Some i /\ ~ base_file c.
  Proof.
    intros (name & k & p & l & H & _ & _ & R) I G. apply rcl_f2 in R. inversion I as [? ? c L| |]; subst.
    destruct (filled_last (fun n c j => rc f st bl ok w s c j (Some i) n) cs l R n c L) as (j' & G' & Rj). unfold node_at in G. rewrite H in G. cbn [nd_slots] in G. rewrite G' in G. injection G as ->.
    inversion Rj as [? ? ? ? ? ? ? ? k' ? Hj Sr|]; subst; (eexists; split; [eassumption|]; split; [reflexivity|]; intros (_ & bb & E); cbn [nd_kind] in E; try discriminate E).
    rewrite E in Sr. inversion Sr.
  Qed.
  Lemma walk_clear : forall P w i pl z j w', bounded w -> at_place w i pl -> clear w i -> leads pl P z -> w_fold st bl f w i P = (Ok j, w') -> clear w' j.
  Proof.
    induction P as [|c P IH]; intros w i pl z j w' B A Cl L E; [injection E as <- <-; exact Cl|].
    destruct (parse_place f st bl ok s w i pl F B A) as (w1 & E1 & X & B1 & A1 & [In1 _] & _). cbn [w_fold] in E. rewrite E1 in E.
    inversion L as [|? ? q ? ? I L']; subst. destruct (In1 c q I) as (m & G & Am & _ & Ch). rewrite G in E.
    eapply IH; [exact B1|exact Am| |exact L'|exact E]. pose proof (clear_ext w w1 i B X Cl) as Cl1.
    assert (K : exists y, w_heap w1 m = Some y /\ nd_parent y = Some i /\ ~ base_file y).
    { destruct pl as [cs|props|v]; [eapply dir_child; eassumption| |];
      (assert (exists u, q = PlProp u) as [u ->] by (inversion I; subst; eauto); destruct (prop_kind w1 m u Am) as (y & Y & _ & _ & Nb); exists y;
       split; [exact Y|]; split; [|exact Nb]; destruct Ch as [(y' & Y' & _ & Py) _]; congruence). }
    destruct K as (y & Y & Py & Nb). eapply clear_up; eassumption.
  Qed.

  Lemma named_dec {A} (l : list (list Z * A)) name : (exists x, last_named l name x) \/ ~ In name (map fst l).
  Proof.
    induction l as [|[k x] l IH]; [right; intros []|]. destruct IH as [(y & pre & post & -> & N)|N].
    - left. exists y, ((k, x) :: pre), post. auto.
    - destruct (list_eq_dec Z.eq_dec k name) as [->|D]; [left; exists x, [], l; auto|right]. cbn [map fst In]. tauto.
  Qed.
  (** The text below a property. *)
  Lemma link_text_at w i v name : at_place w i (PlProp v) ->
    (exists t, remarks v name t /\ w_link_text w i name = Ok (Some t)) \/ ((forall t, ~ remarks v name t) /\ w_link_text w i name = Ok None).
  Proof.
    intro A. destruct (below_total v) as [kids Bl]. pose proof (place_read f st bl ok s w i (PlProp v) A ltac:(discriminate)) as [In1 No1]. unfold w_link_text.
    destruct (named_dec kids name) as [[u L]|N].
    - destruct (In1 name (PlProp u) (inside_prop _ _ _ _ Bl L)) as (j & G & (r & n & p & nm & _ & R & S) & _). rewrite G.
      inversion R as [o ks ? ? ? l H T I Lr]; subst. rewrite T.
      assert (Nt : (forall t, u <> PStr t /\ u <> PUol t) -> forall t, ~ remarks v name t).
      { intros D t (kids' & u' & B' & L' & E). assert (kids' = kids) by (eapply below_unique; eassumption). subst kids'.
        assert (u' = u) by (eapply last_unique; eassumption). subst u'. destruct (D t). tauto. }
      inversion S; subst; try (right; split; [apply Nt; intro; split; discriminate|reflexivity]).
      + left. match goal with E : get_string r ?m = Ok ?t |- _ => exists t; rewrite E end. split; [exists kids, (PStr t); auto|reflexivity].
      + left. match goal with E : get_string r ?m = Ok ?t |- _ => exists t; rewrite E end. split; [exists kids, (PUol t); auto|reflexivity].
    - rewrite (No1 name (nothing_prop _ _ _ Bl N)). right. split; [|reflexivity]. intros t (kids' & u' & B' & L' & _).
      assert (kids' = kids) by (eapply below_unique; eassumption). subst kids'. apply N. apply named_in in L'. apply (in_map fst) in L'. exact L'.
  Qed.
  Lemma remarks_fun v name t t' : remarks v name t -> remarks v name t' -> t = t'.
  Proof.
    intros (k & u & B & L & E) (k' & u' & B' & L' & E'). assert (k' = k) by (eapply below_unique; eassumption). subst k'.
    assert (u' = u) by (eapply last_unique; eassumption). subst u'. destruct E as [->| ->], E' as [E'|E']; congruence.
  Qed.

  (** What [get_image] has to give. *)
  Definition shown_as (r : option prop) (x : res (list px)) : Prop :=
    match r with
    | None => x = Err (EOther 70)
    | Some (PCanvas wd h fm sc pg hd off size kids) => exists rr, ok rr /\ x = extract_png inflate bc7 rayon rr (Png.mkPng off size fm sc hd wd h)
    | Some _ => False
    end.
  Lemma portrayed w a props : read_image w a props -> clear w a -> forall Q r, portrays props Q r -> Q <> [] -> forall j, try_fold (node_at (w_heap w)) a Q = Some j ->
    forall rd, exists d0 x, shown_as r x /\ forall d, (d0 <= d)%nat -> w_get_image st bl f inflate bc7 rayon d rd w j = (x, w).
  Proof.
    intros Rd Cl. pose proof (fun Q => image_walk w a props Q Rd) as Wk.
    assert (Own : forall j v, at_place w j (PlProp v) -> a_canvas v -> clear w j ->
      (exists m, forall d, (m <= d)%nat -> rbind (w_link_text w j (txt "_inlink")) (fun o => match o with Some p => resolve_inlink d (w_heap w) p j | None => Ok None end) = Ok None) ->
      forall rd, exists d0 x, shown_as (Some v) x /\ forall d, (d0 <= d)%nat -> w_get_image st bl f inflate bc7 rayon d rd w j = (x, w)).
    { intros j v A (wd & h & fm & sc & pg & hd & off & size & kids & ->) Clj [m M] rd. destruct (clear_base w j Clj) as [m2 M2].
      pose proof A as (rr & n & p & nm & O & R & S). inversion R as [o ks ? ? ? l H T I Lr]; subst. inversion S; subst.
      exists (Datatypes.S (Nat.max m m2)). eexists. split; [exists rr; split; [exact O|reflexivity]|]. intros [|d] Hd; [lia|]. cbn [w_get_image]. rewrite T, M by lia.
      destruct (link_text_at w j _ (txt "_outlink") A) as [(t & _ & ->)|[_ ->]]; [|reflexivity]. unfold w_outlink. rewrite M2 by lia. reflexivity. }
    induction 1 as [Q v L Nc|Q v p r L Cv Np Pl Re Po IH|Q v p L Cv Np Pl Re Fa|Q v L Cv Nt]; intros NQ j G rd;
      destruct (proj1 (Wk Q) _ L NQ) as (j' & u & Eu & _ & G' & A & N & Cj); rewrite G in G'; injection G' as <-; specialize (Cj Cl).
    - exists 1%nat. eexists. split; [reflexivity|]. intros [|d] Hd; [lia|]. cbn [w_get_image].
      destruct A as (rr & n & q & nm & O & R & S). inversion R as [o ks ? ? ? l H T I Lr]; subst. rewrite T.
      inversion S; subst; try reflexivity. destruct Nc. unfold a_canvas. eauto 12.
    - assert (Ez : exists z, leads (PlImage props) p z) by (inversion Po; eauto). destruct Ez as [z Lz].
      destruct (proj1 (Wk p) z Lz Np) as (t & u' & _ & _ & Gt & _). destruct (IH Np t Gt (j :: rd)) as (d0 & x & Sh & D).
      destruct (nearest_up _ _ _ _ _ image_dec N) as [m M]. exists (S (Nat.max d0 m)), x. split; [exact Sh|]. intros [|d] Hd; [lia|]. cbn [w_get_image].
      destruct (link_text_at w j v (txt "_inlink") A) as [(t' & Re' & ->)|[No _]]; [|destruct (No _ Re)]. rewrite (remarks_fun _ _ _ _ Re' Re). cbn [rbind].
      unfold resolve_inlink, get_parent_wz_image. rewrite M by lia. cbn [rbind]. rewrite at_path_join by assumption. rewrite Gt.
      assert (T : exists rr g, w_thing w j = ThProp rr (OPng g)).
      { destruct Cv as (wd & h & fm & sc & pg & hd & off & size & kids & ->). destruct A as (rr & n & q & nm & O & R & S). inversion R; subst. inversion S; subst. eauto. }
      destruct T as (rr & g & ->). apply D. lia.
    - apply Own; try assumption. destruct (nearest_up _ _ _ _ _ image_dec N) as [m M]. exists m. intros d Hd.
      destruct (link_text_at w j v (txt "_inlink") A) as [(t' & Re' & ->)|[No _]]; [|destruct (No _ Re)]. rewrite (remarks_fun _ _ _ _ Re' Re). cbn [rbind].
      unfold resolve_inlink, get_parent_wz_image. rewrite M by lia. cbn [rbind]. rewrite at_path_join by assumption. rewrite (proj2 (Wk p) Fa). reflexivity.
    - apply Own; try assumption. exists 0%nat. intros d _. destruct (link_text_at w j v (txt "_inlink") A) as [(t' & Re' & _)|[_ ->]]; [destruct (Nt _ Re')|reflexivity].
  Qed.
End portrait.
