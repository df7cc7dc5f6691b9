(** Facts about the property parser on arbitrary bytes: fuel, links, framing. *)
From Coq Require Import ZArith List Bool Lia ZifyBool ZifyNat.
From Verif.Model Require Import Base Utf Keys Reader WzStr VersionPkg1 Image.
From Verif.Spec Require Import PropView.
From Verif.Proofs Require Import BaseL WireL AtL ImageL.

(** *** more fuel never changes a result *)
Definition le_R {A} (m m' : R A) : Prop := forall p, fst (m p) = OutOfFuel \/ m' p = m p.

Lemma le_refl {A} (m : R A) : le_R m m.
Proof. intro p. right. reflexivity. Qed.
Lemma le_oof {A} (m : R A) : le_R out_of_fuel m.
Proof. intro p. left. reflexivity. Qed.
Lemma le_bind {A B} (m m' : R A) (f f' : A -> R B) :
  le_R m m' -> (forall a, le_R (f a) (f' a)) -> le_R (bind m f) (bind m' f').
Proof.
  intros H1 H2 p. unfold bind. destruct (H1 p) as [E|E].
  - left. destruct (m p) as [[]]; try discriminate. reflexivity.
  - rewrite E. destruct (m p) as [[a| | |] q]; [apply H2|right; reflexivity..].
Qed.
Lemma le_if {A} (b : bool) (m m' n n' : R A) : le_R m m' -> le_R n n' -> le_R (if b then m else n) (if b then m' else n').
Proof. destruct b; auto. Qed.
Lemma le_catch m m' e : le_R m m' -> le_R (catch_unknown m e) (catch_unknown m' e).
Proof.
  intros H p. unfold catch_unknown. destruct (H p) as [E|E].
  - left. destruct (m p) as [[]]; try discriminate. reflexivity.
  - rewrite E. right. reflexivity.
Qed.
Lemma le_trans {A} (a b c : R A) : le_R a b -> le_R b c -> le_R a c.
Proof.
  intros H1 H2 p. destruct (H1 p) as [E|E]; [left; exact E|].
  destruct (H2 p) as [F|F].
  - left. rewrite <- E. exact F.
  - right. rewrite F. exact E.
Qed.
Lemma le_ok {A} (m m' : R A) p x q : le_R m m' -> m p = (x, q) -> x <> OutOfFuel -> m' p = (x, q).
Proof. intros H E N. destruct (H p) as [F|F]; [rewrite E in F; contradiction|]. rewrite F. exact E. Qed.

Ltac mono := repeat first
  [ apply le_refl | apply le_oof | assumption
  | apply le_if | apply le_catch
  | apply le_bind; [|intro] ].

Section parser_facts.
  Variable r : rd.
  Variable origin : Z.

  Lemma fuel_step : forall f,
    (forall n, le_R (p_entries r origin f n) (p_entries r origin (S f) n)) /\
    (forall name t, le_R (p_node r origin f name t) (p_node r origin (S f) name t)) /\
    (forall name b, le_R (p_ext r origin f name b) (p_ext r origin (S f) name b)) /\
    (forall b i n, le_R (p_convex r origin f b i n) (p_convex r origin (S f) b i n)).
  Proof.
    induction f as [|f (HE & HN & HX & HC)].
    - repeat split; intros; cbn [p_entries p_node p_ext p_convex]; mono.
    - repeat split; intros.
      + cbn [p_entries]. fold (p_entries r origin). change (p_node r origin) with (p_node r origin).
        apply le_if; [apply le_refl|]. apply le_bind; [apply le_refl|intro name].
        apply le_bind; [apply le_refl|intro t]. apply le_bind; [apply HN|intro x].
        apply le_bind; [apply HE|intro]. apply le_refl.
      + cbn [p_node]. repeat (apply le_if; [apply le_refl|]).
        apply le_if; [|apply le_refl]. apply le_bind; [apply le_refl|intro].
        apply le_bind; [apply le_refl|intro]. apply le_catch, HX.
      + cbn [p_ext]. apply le_bind; [apply le_refl|intro ty].
        repeat first [apply le_refl | apply HE | apply HC | apply le_if | apply le_bind; [|intro]].
      + cbn [p_convex]. apply le_if; [apply le_refl|]. apply le_bind; [apply HX|intro].
        apply le_bind; [apply HC|intro]. apply le_refl.
  Qed.

  Lemma fuel_mono f f' : (f <= f')%nat ->
    (forall n, le_R (p_entries r origin f n) (p_entries r origin f' n)) /\
    (forall name t, le_R (p_node r origin f name t) (p_node r origin f' name t)) /\
    (forall name b, le_R (p_ext r origin f name b) (p_ext r origin f' name b)) /\
    (forall b i n, le_R (p_convex r origin f b i n) (p_convex r origin f' b i n)).
  Proof.
    induction 1 as [|f' _ (HE & HN & HX & HC)].
    - repeat split; intros; apply le_refl.
    - destruct (fuel_step f') as (SE & SN & SX & SC).
      repeat split; intros; eapply le_trans; eauto.
  Qed.

  Lemma list_mono f f' : (f <= f')%nat -> le_R (p_list r origin f) (p_list r origin f').
  Proof.
    intro H. unfold p_list. apply le_bind; [apply le_refl|intro n]. apply le_bind; [apply le_refl|intro].
    apply (fuel_mono f f' H).
  Qed.

  Lemma scan_step : forall f cur last n, le_R (scan_list r origin f cur last n) (scan_list r origin (S f) cur last n).
  Proof.
    induction f as [|f IH]; intros.
    - cbn [scan_list]. mono.
    - cbn [scan_list]. apply le_if; [apply le_refl|].
      destruct (fuel_step f) as (_ & SN & _ & _).
      repeat first [apply le_refl | apply IH | apply SN | apply le_if | apply le_bind; [|intro]].
  Qed.
  Lemma scan_mono f f' : (f <= f')%nat -> forall cur last n, le_R (scan_list r origin f cur last n) (scan_list r origin f' cur last n).
  Proof.
    induction 1 as [|f' _ IH]; intros; [apply le_refl|]. eapply le_trans; [apply IH|apply scan_step].
  Qed.
  Lemma get_loop_mono f f' : (f <= f')%nat -> forall rest cur, le_R (get_loop r origin f cur rest) (get_loop r origin f' cur rest).
  Proof.
    intro H. induction rest as [|nx rest IH]; intro cur; cbn [get_loop]; (apply le_bind; [apply le_refl|intro n]);
      (apply le_bind; [apply scan_mono, H|intro s]); destruct s; first [apply le_refl|apply IH].
  Qed.

  (** *** partial correctness *)
  Definition post {A} (m : R A) (Q : A -> Prop) : Prop := forall p a q, m p = (Ok a, q) -> Q a.
  Lemma post_bind {A B} (m : R A) (f : A -> R B) Q1 Q : post m Q1 -> (forall a, Q1 a -> post (f a) Q) -> post (bind m f) Q.
  Proof.
    intros H1 H2 p b q. unfold bind. destruct (m p) as [[a| | |] p'] eqn:E; try discriminate.
    apply H2. eapply H1. exact E.
  Qed.
  Lemma post_any {A} (m : R A) : post m (fun _ => True).
  Proof. intros p a q _. exact I. Qed.
  Lemma post_skip {A B} (m : R A) (f : A -> R B) Q : (forall a, post (f a) Q) -> post (bind m f) Q.
  Proof. intro H. eapply post_bind; [apply post_any|]. intros a _. apply H. Qed.
  Lemma post_ret {A} (a : A) (Q : A -> Prop) : Q a -> post (ret a) Q.
  Proof. intros H p x q E. injection E as <- _. exact H. Qed.
  Lemma post_if {A} (b : bool) (m n : R A) Q : post m Q -> post n Q -> post (if b then m else n) Q.
  Proof. destruct b; auto. Qed.
  Lemma post_fail {A} e (Q : A -> Prop) : post (fail e) Q.
  Proof. intros p a q E. discriminate. Qed.
  Lemma post_oof {A} (Q : A -> Prop) : post out_of_fuel Q.
  Proof. intros p a q E. discriminate. Qed.
  Lemma post_catch m e (Q : parsed -> Prop) : post m Q -> (forall n, Q (n, Node ONull [], [])) -> post (catch_unknown m e) Q.
  Proof.
    intros H1 H2 p a q. unfold catch_unknown.
    destruct (m p) as [[x|er| |] p'] eqn:E; [..|discriminate|discriminate].
    - intro F. injection F as <- _. eapply H1. exact E.
    - destruct er; try discriminate. intro F. injection F as <- _. apply H2.
  Qed.

  (** *** the links collected are the UOL nodes of the tree *)
  Definition links_ok (x : list (text * node) * list (list text)) : Prop := snd x = uol_paths_kids (fst x).
  Definition link_ok (x : parsed) : Prop :=
    let '(nm, nd, us) := x in us = map (cons nm) (uol_paths nd).

  Lemma links_cons (x : parsed) rest : link_ok x -> links_ok rest ->
    links_ok (let '(nm, nd, us) := x in ((nm, nd) :: fst rest, us ++ snd rest)).
  Proof.
    destruct x as [[nm nd] us]. unfold links_ok, link_ok. cbn [fst snd]. intros -> ->. reflexivity.
  Qed.
  Lemma link_container o name (x : list (text * node) * list (list text)) :
    match o with OUol _ => False | _ => True end -> links_ok x -> link_ok (name, Node o (fst x), under name (snd x)).
  Proof.
    unfold links_ok, link_ok, under. intros Ho ->. destruct o; try contradiction; reflexivity.
  Qed.

  Lemma links_all : forall f,
    (forall n, post (p_entries r origin f n) links_ok) /\
    (forall name t, post (p_node r origin f name t) link_ok) /\
    (forall name b, post (p_ext r origin f name b) link_ok) /\
    (forall b i n, post (p_convex r origin f b i n) links_ok).
  Proof.
    induction f as [|f (HE & HN & HX & HC)].
    - repeat split; intros; cbn [p_entries p_node p_ext p_convex];
        repeat first [apply post_if | apply post_oof | apply post_ret; reflexivity].
    - repeat split; intros.
      + cbn [p_entries]. apply post_if; [apply post_ret; reflexivity|].
        apply post_skip; intro nm. apply post_skip; intro ty. eapply post_bind; [apply HN|intros x Hx].
        eapply post_bind; [apply HE|intros rest Hr].
        pose proof (links_cons x rest Hx Hr). destruct x as [[? ?] ?]. apply post_ret. assumption.
      + cbn [p_node].
        repeat first [apply post_if | apply post_ret; reflexivity | apply post_fail].
        all: try (apply post_skip; intro; first [apply post_ret; reflexivity|idtac]).
        all: try (apply post_if; [apply post_skip; intro|]; apply post_ret; reflexivity).
        apply post_skip; intro. apply post_catch; [apply HX|reflexivity].
      + cbn [p_ext]. apply post_skip; intro ty.
        assert (HL : forall m : Z -> R (list (text * node) * list (list text)), (forall n, post (m n) links_ok) -> post (bind (read_wz_int r) (fun n => bind (reserve n) (fun _ => m n))) links_ok).
        { intros m Hm. apply post_skip; intro. apply post_skip; intro. apply Hm. }
        repeat apply post_if.
        * apply post_skip; intro. apply post_skip; intro n. apply post_skip; intro.
          eapply post_bind; [apply HE|intros x Hx]. apply post_ret. apply link_container; [exact I|exact Hx].
        * apply post_skip; intro. apply post_skip; intro hc.
          eapply post_bind with (Q1 := links_ok).
          { apply post_if; [|apply post_ret; reflexivity]. apply post_skip; intro. apply HL, HE. }
          intros x Hx. apply post_skip; intro. apply post_ret. apply link_container; [exact I|exact Hx].
        * apply post_skip; intro n. apply post_skip; intro.
          eapply post_bind; [apply HC|intros x Hx]. apply post_ret. apply link_container; [exact I|exact Hx].
        * apply post_skip; intro. apply post_skip; intro. apply post_ret. reflexivity.
        * apply post_skip; intro. apply post_ret. reflexivity.
        * apply post_skip; intro. apply post_skip; intro. apply post_ret. reflexivity.
        * apply post_skip; intro. apply post_skip; intro hc.
          eapply post_bind with (Q1 := links_ok).
          { apply post_if; [|apply post_ret; reflexivity]. apply post_skip; intro. apply HL, HE. }
          intros x Hx. apply post_skip; intro. apply post_skip; intro. apply post_ret. apply link_container; [exact I|exact Hx].
        * apply post_skip; intro. apply post_skip; intro. apply post_skip; intro. apply post_ret. reflexivity.
        * apply post_fail.
      + cbn [p_convex]. apply post_if; [apply post_ret; reflexivity|].
        eapply post_bind; [apply HX|intros x Hx].
        eapply post_bind; [apply HC|intros rest Hr].
        pose proof (links_cons x rest Hx Hr). destruct x as [[? ?] ?]. apply post_ret. assumption.
  Qed.
End parser_facts.
