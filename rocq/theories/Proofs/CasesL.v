(** Every place gives a picture or none, waits, or goes round. *)
From Coq Require Import ZArith List Bool Lia Arith ZifyBool ZifyNat.
From Coq Require String Ascii.
From Verif.Model Require Import Base.
From Verif.Spec Require Import Wire StrWire PropWire PathSpec Whole Portrait Outlook Blocked.
From Verif.Proofs Require Import WorldL WalkWL PortraitL OutlookL.
Import ListNotations. Import String.StringSyntax.
Open Scope Z_scope.

(** * There are finitely many paths *)
Definition listed (pl : place) (U : list (list text)) : Prop := forall c z, leads pl c z -> In c U.
Lemma all_listed {A} (g : A -> place) (l : list (list Z * A)) : (forall n x, In (n, x) l -> exists U, listed (g x) U) ->
  exists U, forall n x c z, In (n, x) l -> leads (g x) c z -> In (n :: c) U.
Proof.
  induction l as [|[m y] l IH]; intro H; [exists []; intros ? ? ? ? []|].
  destruct IH as (U & HU); [intros n x I; apply (H n x); right; exact I|]. destruct (H m y (or_introl eq_refl)) as (V & HV).
  exists (map (cons m) V ++ U). intros n x c z [I|I] L; apply in_or_app.
  - injection I as <- <-. left. apply in_map. apply (HV c z L).
  - right. apply (HU n x c z I L).
Qed.
Lemma prop_listed : forall v, exists U, listed (PlProp v) U.
Proof.
  apply prop_nest. intros v IH. destruct (below_total v) as (kids & B).
  destruct (all_listed PlProp kids (fun n u I => IH kids n u B I)) as (U & HU). exists ([] :: U). intros c z L.
  inversion L as [|? n q rest ? In_ L']; subst; [left; reflexivity|]. inversion In_ as [| |? ks ? u B' La]; subst. rewrite (below_unique _ _ _ B' B) in La.
  right. exact (HU n u rest z (named_in _ _ _ La) L').
Qed.
Lemma content_listed : forall c, exists U, listed (place_of c) U.
Proof.
  fix IH 1. intro c. destruct c as [props|kids].
  - clear IH. destruct (all_listed PlProp props (fun _ u _ => prop_listed u)) as (U & HU). exists ([] :: U). intros c z L.
    inversion L as [|? n q rest ? In_ L']; subst; [left; reflexivity|]. inversion In_ as [|? ? u La|]; subst. right. exact (HU n u rest z (named_in _ _ _ La) L').
  - assert (K : Forall (fun e => exists U, listed (place_of (snd e)) U) kids) by (induction kids as [|[n x] kids IHk]; constructor; [apply IH|exact IHk]).
    clear IH. rewrite Forall_forall in K. destruct (all_listed place_of kids (fun n x I => K (n, x) I)) as (U & HU). exists ([] :: U). intros c z L.
    inversion L as [|? n q rest ? In_ L']; subst; [left; reflexivity|]. inversion In_ as [? ? u La| |]; subst. right. exact (HU n u rest z (named_in _ _ _ La) L').
Qed.

(** * Deciding *)
Lemma path_dec (X Y : list text) : {X = Y} + {X <> Y}.
Proof. apply list_eq_dec, list_eq_dec, Z.eq_dec. Qed.
Lemma beyond_dec X : forall Y, beyond X Y \/ ~ beyond X Y.
Proof.
  induction X as [|n X IH]; intros [|m Y].
  - right. intros ([|? ?] & N & E); [contradiction|discriminate E].
  - left. exists (m :: Y). split; [discriminate|reflexivity].
  - right. intros (? & _ & E). discriminate E.
  - destruct (list_eq_dec Z.eq_dec n m) as [->|N]; [|right; intros (? & _ & E); injection E as E _; congruence].
    destruct (IH Y) as [(r & Nr & ->)|N]; [left; exists r; split; [exact Nr|reflexivity]|right]. intros (r & Nr & E). injection E as E. apply N. exists r. split; assumption.
Qed.
Lemma beyond_some seen Y : (exists X, In X seen /\ beyond X Y) \/ Forall (fun X => ~ beyond X Y) seen.
Proof.
  induction seen as [|X seen IH]; [right; constructor|]. destruct (beyond_dec X Y) as [B|N]; [left; exists X; split; [left; reflexivity|exact B]|].
  destruct IH as [(X' & I & B)|Fa]; [left; exists X'; split; [right; exact I|exact B]|right; constructor; assumption].
Qed.
Lemma named_dec {A} (l : list (list Z * A)) n : (exists x, last_named l n x) \/ forall x, ~ last_named l n x.
Proof.
  induction l as [|[m y] l IH]; [right; intros x (pre & post & E & _); destruct pre; discriminate E|]. destruct IH as [(x & pre & post & -> & N)|No].
  - left. exists x, ((m, y) :: pre), post. split; [reflexivity|exact N].
  - destruct (list_eq_dec Z.eq_dec m n) as [->|Ne].
    + destruct (in_dec (list_eq_dec Z.eq_dec) n (map fst l)) as [I|Ni].
      * exfalso. clear - I No. assert (exists x, last_named l n x); [|firstorder]. clear No. induction l as [|[k z] l IH]; [destruct I|].
        destruct (in_dec (list_eq_dec Z.eq_dec) n (map fst l)) as [I'|Ni].
        { destruct (IH I') as (x & pre & post & -> & N). exists x, ((k, z) :: pre), post. split; [reflexivity|exact N]. }
        destruct I as [E|I]; [|contradiction]. cbn [fst] in E. subst k. exists z, [], l. split; [reflexivity|exact Ni].
      * left. exists y, [], l. split; [reflexivity|exact Ni].
    + right. intros x ([|e pre] & post & E & N); cbn [app] in E; injection E as E1 E2; [congruence|]. apply (No x). exists pre, post. split; assumption.
Qed.
Lemma remarks_dec v name : (exists t, remarks v name t) \/ forall t, ~ remarks v name t.
Proof.
  destruct (below_total v) as (kids & B). assert (U : forall t, remarks v name t -> exists u, last_named kids name u /\ (u = PStr t \/ u = PUol t)).
  { intros t (k & u & B' & La & E). rewrite (below_unique _ _ _ B' B) in La. eauto. }
  destruct (named_dec kids name) as [(u & La)|No]; [|right; intros t R; destruct (U t R) as (u & La & _); exact (No u La)].
  destruct u; try (right; intros t R; destruct (U t R) as (u' & La' & E); rewrite (last_unique _ _ _ _ La' La) in E; destruct E; discriminate);
    left; eexists; exists kids; eexists; (split; [exact B|]); (split; [exact La|]); [left|right]; reflexivity.
Qed.
Lemma canvas_dec v : a_canvas v \/ ~ a_canvas v.
Proof. destruct v; try (right; intros (? & ? & ? & ? & ? & ? & ? & ? & ? & E); discriminate E). left. repeat eexists. Qed.

(** A property lies in an image. *)
Lemma in_image X : forall cs v, leads (PlDir cs) X (PlProp v) -> exists P props Q, Q <> [] /\ X = P ++ Q /\ leads (PlDir cs) P (PlImage props) /\ leads (PlImage props) Q (PlProp v).
Proof.
  induction X as [|n X IH]; intros cs v L; inversion L as [|? ? q ? ? I L']; subst. inversion I as [? ? c La| |]; subst. destruct c as [props|cs']; cbn [place_of] in *.
  - exists [n], props, X. split; [intros ->; inversion L'|]. split; [reflexivity|]. split; [eapply leads_on; [exact I|constructor]|exact L'].
  - destruct (IH cs' v L') as (P & props & Q & Nq & -> & LP & LQ). exists (n :: P), props, Q. split; [exact Nq|]. split; [reflexivity|]. split; [eapply leads_on; eassumption|exact LQ].
Qed.

Section cases.
  Variable cs : list (list Z * content).
  Local Notation top := (PlDir cs).
  Hypothesis Good : path_links top.

  Definition settled (seen : list (list text)) (X : list text) : Prop := (exists r, views top seen X r) \/ jams top seen X \/ circles top seen X.
  Definition link (X Y : list text) : Prop := by_inlink top X Y \/ by_outlink top X Y.

  Lemma step seen X z : X <> [] -> leads top X z -> settled seen X \/ exists Y, Y <> [] /\ (exists z, leads top Y z) /\ link X Y /\ (settled (X :: seen) Y -> settled seen X).
  Proof.
    intros Nx L. assert (C : (forall v, z = PlProp v -> ~ a_canvas v) \/ exists v, z = PlProp v /\ a_canvas v).
    { destruct z as [| |v]; [left; discriminate|left; discriminate|]. destruct (canvas_dec v) as [C|N]; [right; eauto|left]. intros v' [= <-]. exact N. }
    destruct C as [Nc|(v & -> & Cv)]; [left; left; exists None; eapply views_other; eassumption|].
    destruct (in_image X cs v L) as (P & props & Q & Nq & -> & LP & LQ).
    assert (Ca : canvas_at_path top P props (P ++ Q) v) by (exists Q; repeat split; assumption).
    assert (Ni : no_inlink props v \/ exists p z, good_path p /\ remarks v (codes "_inlink") (joined p) /\ leads (PlImage props) p z).
    { destruct (remarks_dec v (codes "_inlink")) as [(t & R)|No]; [|left; left; exact No]. destruct (Good _ v t L Cv (or_introl R)) as (p & Gp & ->).
      destruct (place_total p (PlImage props)) as [(z & Lz)|Fa]; [right; eauto|left; right; eauto]. }
    destruct Ni as [Ni|(p & z & Gp & R & Lz)].
    - destruct (remarks_dec v (codes "_outlink")) as [(t & R)|No]; [|left; left; exists (Some v); eapply views_own; [exact Ca|exact Ni|left; exact No]].
      destruct (Good _ v t L Cv (or_intror R)) as (p & Gp & ->). destruct (beyond_some ((P ++ Q) :: seen) p) as [(Y & I & B)|Nb]; [left; right; left; eapply jams_here; eassumption|].
      destruct (place_total p top) as [(z & Lz)|Fa]; [|left; left; exists (Some v); eapply views_own; [exact Ca|exact Ni|right; eauto]].
      assert (Lo : by_outlink top (P ++ Q) p) by (exists P, props, v, z; auto).
      right. exists p. split; [apply Gp|]. split; [eauto|]. split; [right; exact Lo|]. intros [(r & V)|[J|Ci]].
      + left. exists r. eapply views_out; eassumption.
      + right. left. eapply jams_out; eassumption.
      + right. right. eapply circles_out; eassumption.
    - assert (Li : by_inlink top (P ++ Q) (P ++ p)) by (exists P, props, v, p, z; auto).
      right. exists (P ++ p). split; [destruct P, p; try discriminate; destruct Gp; contradiction|]. split; [exists z; eapply leads_join; eassumption|]. split; [left; exact Li|]. intros [(r & V)|[J|Ci]].
      + left. exists r. eapply views_in; eassumption.
      + right. left. eapply jams_in; eassumption.
      + right. right. eapply circles_in; eassumption.
  Qed.

  (** Once round. *)
  Fixpoint linked (A : list text) (l : list (list text)) : Prop := match l with [] => True | B :: r => link A B /\ linked B r end.
  Definition okstep (base : list (list text)) (A B : list text) : Prop := by_inlink top A B \/ (by_outlink top A B /\ forall Z, In Z base -> ~ beyond Z B).
  Fixpoint oksteps (base : list (list text)) (A : list text) (l : list (list text)) : Prop := match l with [] => True | B :: r => okstep base A B /\ oksteps base B r end.
  Lemma lap base : forall l A seen, (forall Z, In Z seen <-> In Z base) -> In A base -> incl l base -> linked A l -> jams top seen A \/ oksteps base A l.
  Proof using. clear Good.
    induction l as [|B l IH]; intros A seen Eq Ia Il Lk; [right; exact I|]. destruct Lk as [Lk Lr].
    assert (Eq' : forall Z, In Z (A :: seen) <-> In Z base). { intro Z. split; [intros [<-|I]; [exact Ia|apply Eq, I]|intro I; right; apply Eq, I]. }
    destruct (IH B (A :: seen) Eq' (Il B (or_introl eq_refl)) (fun x H => Il x (or_intror H)) Lr) as [J|Ok].
    - destruct Lk as [Li|Lo]; [left; eapply jams_in; eassumption|]. destruct (beyond_some (A :: seen) B) as [(Y & Iy & By)|Nb]; [|left; eapply jams_out; eassumption].
      destruct Lo as (P & props & v & z & Ca & Ni & Gp & R & _). left. eapply jams_here; eassumption.
    - destruct Lk as [Li|Lo]; [right; split; [left; exact Li|exact Ok]|]. destruct (beyond_some (A :: seen) B) as [(Y & Iy & By)|Nb].
      + destruct Lo as (P & props & v & z & Ca & Ni & Gp & R & _). left. eapply jams_here; eassumption.
      + right. split; [|exact Ok]. right. split; [exact Lo|]. intros Z Iz. rewrite Forall_forall in Nb. apply Nb, Eq', Iz.
  Qed.
  Lemma linked_snoc : forall l A B C, linked A (l ++ [B]) -> link B C -> linked A ((l ++ [B]) ++ [C]).
  Proof using. clear Good. induction l as [|D l IH]; intros A B C H Lk; cbn [app linked] in *; [destruct H; auto|]. destruct H as [H1 H2]. split; [exact H1|apply IH; assumption]. Qed.
  Fixpoint hist (X : list text) (seen : list (list text)) : Prop := match seen with [] => True | A :: r => link A X /\ hist A r end.
  Lemma hist_ring : forall l1 X A l2, hist X (l1 ++ A :: l2) -> linked A (rev l1 ++ [X]).
  Proof using. clear Good.
    induction l1 as [|B l1 IH]; intros X A l2 [Lk H]; [split; [exact Lk|exact I]|]. cbn [rev]. apply linked_snoc; [apply (IH B A l2 H)|exact Lk].
  Qed.
  Lemma ok_next base : forall u A M B v, oksteps base A (u ++ M :: B :: v) -> okstep base M B.
  Proof using. clear Good. induction u as [|C u IH]; intros A M B v H; cbn [app oksteps] in H; [apply H|]. eapply IH. apply H. Qed.
  Lemma ring_round seen X l : incl (l ++ [X]) seen -> oksteps seen X (l ++ [X]) -> goes_round top seen (fun M => In M (l ++ [X])).
  Proof using. clear Good.
    intros Il Ok M IM. assert (S : exists B, In B (l ++ [X]) /\ okstep seen M B).
    { destruct (in_split _ _ IM) as (u & v & E). destruct v as [|B v].
      - assert (M = X) as ->. { apply app_inj_tail in E as [_ E]. congruence. } destruct l as [|B l]; cbn [app] in *; [exists X|exists B]; (split; [left; reflexivity|apply Ok]).
      - exists B. split; [rewrite E; apply in_or_app; right; right; left; reflexivity|]. rewrite E in Ok. eapply ok_next. exact Ok. }
    destruct S as (B & IB & [Li|[Lo Nb]]); exists B; (split; [exact IB|]); [left; exact Li|right; split; [exact Lo|]]. intros Z [Iz|Iz]; apply Nb; [apply Il, Iz|exact Iz].
  Qed.

  Lemma all_settled : forall n R U seen X z, length R = n -> listed top U -> (forall A, In A U -> In A R \/ In A seen) -> hist X seen -> X <> [] -> leads top X z -> settled seen X.
  Proof.
    induction n as [n IH] using lt_wf_ind. intros R U seen X z Ln Us Rs Hi Nx L. destruct (in_dec path_dec X seen) as [I|Ni].
    - destruct (in_split _ _ I) as (l1 & l2 & E). pose proof Hi as Hi'. rewrite E in Hi'. apply hist_ring in Hi'.
      assert (Il : incl (rev l1 ++ [X]) seen). { intros x Ix. rewrite E. apply in_app_or in Ix as [Ix|[<-|[]]]; apply in_or_app; [left; apply in_rev, Ix|right; left; reflexivity]. }
      destruct (lap seen _ X seen ltac:(reflexivity) I Il Hi') as [J|Ok]; [right; left; exact J|]. right. right. eapply circles_here; [apply ring_round; eassumption|]. apply in_or_app. right. left. reflexivity.
    - destruct (step seen X z Nx L) as [S|(Y & Ny & (z' & LY) & Lk & Back)]; [exact S|]. apply Back.
      assert (IR : In X R) by (destruct (Rs X (Us X z L)); [assumption|contradiction]).
      eapply (IH (length (remove path_dec X R))); [subst n; apply remove_length_lt, IR|reflexivity|exact Us| |split; [exact Lk|exact Hi]|exact Ny|exact LY].
      intros A IA. destruct (path_dec A X) as [->|Ne]; [right; left; reflexivity|]. destruct (Rs A IA) as [H|H]; [left; apply in_in_remove; assumption|right; right; exact H].
  Qed.
  Lemma three_cases X z : X <> [] -> leads top X z -> settled [] X.
  Proof. intros Nx L. destruct (content_listed (CDir cs)) as (U & HU). eapply (all_settled (length U) U U); [reflexivity|exact HU|intros A I; left; exact I|exact I|exact Nx|exact L]. Qed.
End cases.
