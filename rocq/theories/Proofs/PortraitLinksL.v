(** Lemmas on pictures in packages whose images have links. *)
From Coq Require Import ZArith List Bool Lia Arith ZifyBool ZifyNat.
From Coq Require String Ascii.
From Verif.Model Require Import Base Utf Keys Reader Header Offset VersionPkg2 Directory Image Media Guess File Png Node Ms World WorldPicture.
From Verif.Spec Require Import Wire StrWire Version PropWire PropView DirWire DirView PathSpec Tree Picture Whole Linked WholeLinks Portrait PortraitLinks.
From Verif.Proofs Require Import BaseL AtL ImageL NodeL PictureL WorldL WalkWL PortraitL LinkedL LinkWorldL.
Import ListNotations. Import String.StringSyntax.
Open Scope Z_scope.

Lemma passes_rest w i P j Q o : passes w i P (Some j) -> passes w i (P ++ Q) o -> passes w j Q o.
Proof.
  intros A. remember (Some j) as oj eqn:E. revert Q o E. induction A as [i|i c n k rest oj H U G _ IH|i c n rest H U G]; intros Q o E B.
  - injection E as ->. exact B.
  - cbn [app] in B. inversion B as [|? ? ? k' ? ? _ _ G' B'|? ? ? ? _ _ G']; subst; [|congruence]. apply IH; [reflexivity|]. congruence.
  - discriminate E.
Qed.
Lemma within_near h i j c : h i = Some c -> an_image c -> within h i j -> nearest h an_image j i.
Proof.
  intros H I. induction 1 as [n j C|n j k ck C Ek _ N _ IH]; [eapply near_here; eassumption|]. eapply near_up; [exact C|exact Ek| |exact IH]. intros [b Y]. exact (proj1 (N b) Y).
Qed.
Lemma within_clear w i j : clear w i -> within (w_heap w) i j -> none_above (w_heap w) base_file j.
Proof.
  intro Cl. assert (Hi : exists c, w_heap w i = Some c /\ ~ base_file c) by (inversion Cl; eauto). destruct Hi as (ci & Hi & Nb).
  induction 1 as [n j C|n j k ck C Ek _ N _ IH].
  - eapply none_up; [exact C|exact Hi|exact Nb|apply clear_above, Cl].
  - eapply none_up; [exact C|exact Ek| |exact IH]. intros (_ & b & Y). exact (proj2 (N b) Y).
Qed.

Section portrait.
  Variable f : nat.
  Hypothesis F : (0 < f)%nat.
  Variable st : list Z -> nat -> Z.
  Variable bl : list Z -> list Z -> Z -> list Z.
  Variable ok : rd -> Prop.
  Variable s : shared.
  Variable inflate : bool -> list Z -> Z -> option (list Z).
  Variable bc7 : list Z -> Z -> Z -> option (list Z).
  Variable rayon : bool.
  Local Notation good := (good f ok).
  Local Notation waits := (waits f st bl ok).
  Local Notation grows := (grows f st bl ok).
  Local Notation dir_at := (dir_at f st bl ok s).

  Lemma clear_grows w w' i : bounded w -> grows w w' -> clear w i -> clear w' i.
  Proof.
    intros B [_ G].
    assert (Al : forall i c, w_heap w i = Some c -> ~ base_file c -> exists c', w_heap w' i = Some c' /\ nd_parent c' = nd_parent c /\ ~ base_file c').
    { intros j c C N. destruct (G j (B j c C)) as [[E _]|[(m & q & sl & E & E' & _)|(m & k & q & sl & E & _ & _ & E' & _)]].
      - exists c. rewrite E. auto.
      - rewrite C in E. injection E as ->. eexists. split; [exact E'|]. split; [reflexivity|]. intros (_ & b & Y). discriminate Y.
      - rewrite C in E. injection E as ->. eexists. split; [exact E'|]. split; [reflexivity|]. intros (_ & b & Y). discriminate Y. }
    induction 1 as [i c C P N|i c p C P N _ IH]; destruct (Al _ _ C N) as (c' & C' & P' & N').
    - eapply clear_top; [exact C'|congruence|exact N'].
    - eapply clear_up; [exact C'|rewrite P'; exact P|exact N'|exact IH].
  Qed.
  Lemma dirs_clear props : forall P cs w i, bounded w -> dir_at w i cs -> clear w i -> leads (PlDir cs) P (PlImage props) ->
    exists a w', w_fold st bl f w i P = (Ok a, w') /\ bounded w' /\ grows w w' /\ (waits w' a props \/ good w' a props) /\ clear w' a.
  Proof.
    induction P as [|n P IH]; intros cs w i B A Cl L; [inversion L|]. inversion L as [|? ? q ? ? In L']; subst. inversion In as [? ? c Ln| |]; subst.
    destruct (dir_parse f st bl ok s F w i cs B A) as (w1 & E & B1 & G1 & _ & In1 & _). destruct (In1 n c Ln) as (j & Nj & Lj). pose proof (clear_grows w w1 i B G1 Cl) as Cl1.
    cbn [w_fold]. rewrite E, Nj. inversion Lj as [ps ? ? ? (cj & Hj & _ & Pj) Ij Wj|d b kids ? ? ? l Hj Tj Ij Dj Rj]; subst.
    - assert (P = [] /\ ps = props) as [-> ->].
      { cbn in L'. inversion L' as [|? ? q ? ? In2 L2]; subst; [auto|]. exfalso. inversion In2; subst. clear - L2. remember (PlProp v) as x. remember (PlImage props) as y.
        revert v Heqx. induction L2 as [|? ? q ? ? I _ IH]; intros v ->; [congruence|]. inversion I; subst. eapply IH; [reflexivity|reflexivity]. }
      exists j, w1. split; [reflexivity|]. split; [exact B1|]. split; [exact G1|]. split; [exact Wj|]. eapply clear_up; [exact Hj|exact Pj| |exact Cl1].
      intros (_ & b & Y). destruct Wj as [(name & k & p & r & off & size & kids & us & Hw & _ & T & _)|(r & nm & off & size & c & _ & _ & Hw & K & _)]; rewrite Hw in Hj; injection Hj as <-.
      + cbn [nd_kind] in Y. subst k. inversion T.
      + congruence.
    - assert (Aj : dir_at w1 j kids) by (exists n, (KDir b), (Some i), l; split; [exact Hj|]; split; [exact Ij|]; split; [right; eauto|exact Rj]).
      assert (Cj : clear w1 j) by (eapply clear_up; [exact Hj|reflexivity|intros (_ & x & Y); discriminate Y|exact Cl1]).
      destruct (IH kids w1 j B1 Aj Cj L') as (a & w' & E' & B' & G' & W' & C'). exists a, w'. split; [exact E'|]. split; [exact B'|]. split; [exact (grows_trans f st bl ok F w w1 w' B B1 G1 G')|]. auto.
  Qed.

  Section image.
    Variable w : world.
    Variable a : id.
    Variable props : list (list Z * prop).
    Hypothesis Go : good w a props.
    Hypothesis Cl : clear w a.

    (** The node at the end of names that lead to a property. *)
    Lemma come_node Q v : comes_to props Q v -> exists j r o sub, ok r /\ passes w a Q (Some j) /\ w_thing w j = ThProp r o /\ PropView.shows r (Node o sub) v /\ within (w_heap w) a j.
    Proof.
      intros (T & Fo & L). pose proof Go as (r & nm & off & size & c & O & _ & _ & _ & _ & (_ & Ro) & R). destruct (proj1 (R Q) T Fo) as (j & z & Lz & Pj & _ & Z).
      rewrite (leads_unique _ _ _ Lz _ L) in Z. destruct Z as (o & sub & cj & Tj & Sh & _). exists j, r, o, sub. split; [exact O|]. split; [exact Pj|]. split; [exact Tj|]. split; [exact Sh|]. eapply Ro; eassumption.
    Qed.
    Lemma come_fun Q v v' : comes_to props Q v -> comes_to props Q v' -> exists r o sub sub', PropView.shows r (Node o sub) v /\ PropView.shows r (Node o sub') v'.
    Proof.
      intros C C'. destruct (come_node Q v C) as (j & r & o & sub & _ & P & T & S & _). destruct (come_node Q v' C') as (j' & r' & o' & sub' & _ & P' & T' & S' & _).
      pose proof (passes_det _ _ _ _ _ P P') as [= <-]. rewrite T in T'. injection T' as <- <-. eauto 8.
    Qed.
    Lemma reads_fun Q t t' : reads props Q t -> reads props Q t' -> t = t'.
    Proof.
      intros (v & C & E) (v' & C' & E'). destruct (come_fun Q v v' C C') as (r & o & sub & sub' & S & S').
      destruct E as [->| ->], E' as [->| ->]; inversion S; subst; inversion S'; subst; congruence.
    Qed.
    Lemma link_text_past Q j name : passes w a Q (Some j) ->
      (exists t, reads props (Q ++ [name]) t /\ w_link_text w j name = Ok (Some t)) \/ ((forall t, ~ reads props (Q ++ [name]) t) /\ w_link_text w j name = Ok None).
    Proof.
      intro P. pose proof Go as (r & nm & off & size & c & O & Ta & _ & _ & (_ & _ & _ & _ & _ & Nt) & _ & R). unfold w_link_text. destruct (neat_total props Nt (Q ++ [name])) as [[T Fo]|M].
      - destruct (proj1 (R _) T Fo) as (k & z & Lz & Pk & _ & Z). pose proof (passes_rest _ _ _ _ _ _ P Pk) as P1.
        inversion P1 as [|? ? ? k' ? ? _ _ Nk Pe|]; subst. inversion Pe; subst. rewrite Nk. destruct z as [cs|ps|v].
        + destruct (image_nodir _ _ _ Lz cs eq_refl).
        + subst k. rewrite Ta. right. split; [|reflexivity]. intros t (v & C & _). destruct (come_node _ _ C) as (k' & r' & o & sub & _ & P' & T' & _).
          pose proof (passes_det _ _ _ _ _ Pk P') as [= <-]. congruence.
        + destruct Z as (o & sub & ck & Tk & Sh & _). rewrite Tk. assert (Cv : comes_to props (Q ++ [name]) v) by (exists T; auto).
          assert (No : (forall t, v <> PStr t /\ v <> PUol t) -> forall t, ~ reads props (Q ++ [name]) t).
          { intros D t (v' & C' & E'). destruct (come_node _ _ C') as (k' & r' & o' & sub' & _ & P' & T' & S' & _). pose proof (passes_det _ _ _ _ _ Pk P') as [= <-].
            rewrite Tk in T'. injection T' as <- <-. destruct E' as [->| ->]; inversion S'; subst; inversion Sh; subst; specialize (D t); destruct D; congruence. }
          inversion Sh; subst; try (right; split; [apply No; intro; split; discriminate|reflexivity]); left;
            match goal with E : get_string r ?m = Ok ?t |- _ => exists t; rewrite E end; (split; [|reflexivity]); eexists; (split; [exact Cv|auto]).
      - pose proof (passes_rest _ _ _ _ _ _ P (proj2 (R _) M)) as P1. inversion P1 as [|? ? ? k' ? ? _ _ Nk Pe|? ? ? ? _ _ Nk]; subst; [inversion Pe|]. rewrite Nk. right. split; [|reflexivity].
        intros t (v & C & _). destruct (come_node _ _ C) as (k' & r' & o & sub & _ & P' & _). pose proof (passes_det _ _ _ _ _ (proj2 (R _) M) P') as Y. discriminate Y.
    Qed.

    Lemma depicted Q r : depicts props Q r -> forall j, passes w a Q (Some j) ->
      forall rd, exists d0 x, shown_as ok inflate bc7 rayon r x /\ forall d, (d0 <= d)%nat -> w_get_image st bl f inflate bc7 rayon d rd w j = (x, w).
    Proof.
      pose proof Go as (ra & nm & off & size & c & Oa & Ta & Ha & Ka & _ & _ & R).
      assert (Im : an_image c) by (exists true; exact Ka).
      assert (Own : forall Q j v, comes_to props Q v -> passes w a Q (Some j) -> a_canvas v ->
        (exists m, forall d, (m <= d)%nat -> rbind (w_link_text w j (txt "_inlink")) (fun o => match o with Some p => resolve_inlink d (w_heap w) p j | None => Ok None end) = Ok None) ->
        forall rd, exists d0 x, shown_as ok inflate bc7 rayon (Some v) x /\ forall d, (d0 <= d)%nat -> w_get_image st bl f inflate bc7 rayon d rd w j = (x, w)).
      { intros Q0 j v C P (wd & h & fm & sc & pg & hd & of & sz & kids & ->) [m M] rd. destruct (come_node _ _ C) as (j' & rr & o & sub & O & P' & T & Sh & Wi).
        pose proof (passes_det _ _ _ _ _ P P') as [= <-].
        destruct (none_up_ok (w_heap w) base_file _ j base_dec (within_clear w a j Cl Wi)) as [m2 M2].
        inversion Sh; subst. exists (Datatypes.S (Nat.max m m2)). eexists. split; [exists rr; split; [exact O|reflexivity]|]. intros [|d] Hd; [lia|]. cbn [w_get_image]. rewrite T, M by lia.
        destruct (link_text_past Q0 j (txt "_outlink") P) as [(t & _ & ->)|[_ ->]]; [|reflexivity]. unfold w_outlink, get_base_wz_file. rewrite M2 by lia. reflexivity. }
      assert (Thing : forall Q j v, comes_to props Q v -> passes w a Q (Some j) -> a_canvas v -> (exists rr g, w_thing w j = ThProp rr (OPng g)) /\ nearest (w_heap w) an_image j a).
      { intros Q0 j v C P (wd & h & fm & sc & pg & hd & of & sz & kids & ->). destruct (come_node _ _ C) as (j' & rr & o & sub & O & P' & T & Sh & Wi).
        pose proof (passes_det _ _ _ _ _ P P') as [= <-]. split; [inversion Sh; subst; eauto|eapply within_near; eassumption]. }
      induction 1 as [Q Fo|Q v C Nc|Q v p r C Cv Np Pl Re De IH|Q v p C Cv Np Pl Re Mi|Q v C Cv Nt]; intros j P rd.
      - destruct (proj1 (R Q) [] Fo) as (j' & z & Lz & P' & _ & Z). inversion Lz; subst. pose proof (passes_det _ _ _ _ _ P P') as [= <-]. exists 1%nat. eexists. split; [reflexivity|].
        intros [|d] Hd; [lia|]. cbn [w_get_image]. rewrite Z, Ta. reflexivity.
      - destruct (come_node _ _ C) as (j' & rr & o & sub & O & P' & T & Sh & Wi). pose proof (passes_det _ _ _ _ _ P P') as [= <-]. exists 1%nat. eexists. split; [reflexivity|].
        intros [|d] Hd; [lia|]. cbn [w_get_image]. rewrite T. inversion Sh; subst; try reflexivity. destruct Nc. unfold a_canvas. eauto 12.
      - assert (Ep : exists t, passes w a p (Some t)).
        { assert (Ef : exists T, follows props [] p T) by (inversion De as [? Fo|? ? (T & Fo & _)|? ? ? ? (T & Fo & _)|? ? ? (T & Fo & _)|? ? (T & Fo & _)]; subst; eauto). destruct Ef as [T Fo].
          destruct (proj1 (R p) T Fo) as (t & _ & _ & Pt & _). eauto. }
        destruct Ep as [t Pt]. destruct (IH t Pt (j :: rd)) as (d0 & x & Sh & D). destruct (Thing Q j v C P Cv) as [(rr & g & Tj) N].
        destruct (nearest_up _ _ _ _ _ image_dec N) as [m M]. exists (Datatypes.S (Nat.max d0 m)), x. split; [exact Sh|]. intros [|d] Hd; [lia|]. cbn [w_get_image]. rewrite Tj.
        destruct (link_text_past Q j (txt "_inlink") P) as [(t' & Re' & ->)|[No _]]; [|destruct (No _ Re)]. rewrite (reads_fun _ _ _ Re' Re). cbn [rbind].
        unfold resolve_inlink, get_parent_wz_image. rewrite M by lia. cbn [rbind]. rewrite at_path_join by assumption. rewrite (proj1 (passes_fold _ _ _ _ Pt st bl f)). apply D. lia.
      - eapply Own; try eassumption. destruct (Thing Q j v C P Cv) as [_ N]. destruct (nearest_up _ _ _ _ _ image_dec N) as [m M]. exists m. intros d Hd.
        destruct (link_text_past Q j (txt "_inlink") P) as [(t' & Re' & ->)|[No _]]; [|destruct (No _ Re)]. rewrite (reads_fun _ _ _ Re' Re). cbn [rbind].
        unfold resolve_inlink, get_parent_wz_image. rewrite M by lia. cbn [rbind]. rewrite at_path_join by assumption. rewrite (proj1 (passes_fold _ _ _ _ (proj2 (R p) Mi) st bl f)). reflexivity.
      - eapply Own; try eassumption. exists 0%nat. intros d _. destruct (link_text_past Q j (txt "_inlink") P) as [(t' & Re' & _)|[_ ->]]; [destruct (Nt _ Re')|reflexivity].
    Qed.
  End image.
End portrait.
