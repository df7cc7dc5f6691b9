(** Lemmas on walks that read nothing. *)
From Coq Require Import ZArith List Bool Lia Arith Permutation.
From Verif.Model Require Import Base Node Ms World.
From Verif.Spec Require Import Stroll.
From Verif.Proofs Require Import NodeL.
Import ListNotations.
Open Scope Z_scope.

Lemma app_split {A} (a b c d : list A) x : a ++ b = c ++ x :: d -> (exists e, a = c ++ x :: e /\ d = e ++ b) \/ (exists e, c = a ++ e /\ b = e ++ x :: d).
Proof.
  revert c. induction a as [|y a IH]; intros c E; [right; exists c; auto|]. destruct c as [|z c]; cbn [app] in E.
  - injection E as -> <-. left. exists a. auto.
  - injection E as -> E. destruct (IH _ E) as [(e & -> & ->)|(e & -> & ->)]; [left; exists e; auto|right; exists e; auto].
Qed.
Lemma fold_cons_nodup (n : text) ps : NoDup ps -> NoDup (map (cons n) ps).
Proof.
  induction 1 as [|p ps N _ IH]; cbn [map]; constructor; [|exact IH]. intro I. apply in_map_iff in I as (q & E & I). injection E as ->. contradiction.
Qed.
Lemma NoDup_join {A} (a b : list A) : NoDup a -> NoDup b -> (forall x, In x a -> ~ In x b) -> NoDup (a ++ b).
Proof.
  induction 1 as [|x a N _ IH]; intros B D; [exact B|]. cbn [app]. constructor; [|apply IH; [exact B|intros y Y; apply D; right; exact Y]].
  intro I. apply in_app_or in I as [I|I]; [contradiction|]. exact (D x (or_introl eq_refl) I).
Qed.

Section stroll.
  Variable st : list Z -> nat -> Z.
  Variable bl : list Z -> list Z -> Z -> list Z.
  Variable f : nat.
  Variable order : list (text * id) -> list (text * id).
  Hypothesis Ord : forall l, Permutation (order l) l.
  Variable w : world.
  Hypothesis Ap : told_apart (w_heap w).
  Let walk := w_walk_in st bl f order.

  (** Nothing changes, whatever the result. *)
  Lemma still d : forall rd i, snd (walk rd d false w i) = w.
  Proof using.
    clear Ord Ap. induction d as [|d IH]; intros rd i; [reflexivity|]. unfold walk in *. cbn [w_walk_in andb]. destruct (w_heap w i) as [c|] eqn:H; [|reflexivity].
    assert (L : forall l, snd (w_loop (w_walk_in st bl f order (i :: rd) d false) w l) = w).
    { induction l as [|[n k] l IHl]; [reflexivity|]. cbn [w_loop]. specialize (IH (i :: rd) k). destruct (w_walk_in st bl f order (i :: rd) d false w k) as [[a| | |] w1]; cbn [snd] in *; subst; try reflexivity.
      destruct (w_loop _ w l) as [b w2]. exact IHl. }
    specialize (L (order (nd_slots c))). destruct (w_loop _ w (order (nd_slots c))) as [[l| | |] w2]; cbn [snd] in *; subst; try reflexivity. rewrite H. reflexivity.
  Qed.
  Definition right (i : id) (tr : list (id * world)) : Prop :=
    exists ps, Forall2 (fun e p => snd e = w /\ stands (w_heap w) i p (fst e)) tr ps /\ all_paths (w_heap w) i ps.
  Definition right_below (l : list (text * id)) (tr : list (id * world)) : Prop :=
    exists ps, Forall2 (fun e p => snd e = w /\ exists n k q, p = n :: q /\ In (n, k) l /\ stands (w_heap w) k q (fst e)) tr ps /\
      NoDup ps /\ (forall n k q j, In (n, k) l -> stands (w_heap w) k q j -> In (n :: q) ps) /\
      forall a p n b, ps = a ++ (p ++ [n]) :: b -> p = [] \/ In p a.
  Lemma loop_right rec l : NoDup (map fst l) -> (forall k, snd (rec w k) = w) -> (forall k tr, rec w k = (Ok tr, w) -> right k tr) ->
    forall tr, w_loop rec w l = (Ok tr, w) -> right_below l tr.
  Proof using.
    clear Ord Ap. intros Nd St R. induction l as [|[n k] l IH]; intros tr E.
    - injection E as <-. exists []. split; [constructor|]. split; [constructor|]. split; [intros ? ? ? ? []|]. intros [|] ? ? ? X; discriminate X.
    - cbn [w_loop] in E. inversion Nd as [|? ? Nn Nl]; subst. cbn [map fst] in *. specialize (St k). destruct (rec w k) as [[a| | |] w1] eqn:Ek; cbn [snd] in St; subst w1; try discriminate E.
      destruct (w_loop rec w l) as [b w2] eqn:El. destruct b as [b| | |]; try discriminate E. injection E as <- ->.
      destruct (R k a Ek) as (pa & Fa & Na & Ca & Oa). destruct (IH Nl b eq_refl) as (pb & Fb & Nb & Cb & Ob). exists (map (cons n) pa ++ pb).
      assert (Hb : forall q, In q pb -> exists m r, q = m :: r /\ In m (map fst l)).
      { clear - Fb. intros q I. induction Fb as [|e p tr ps (_ & m & k & r & -> & I2 & _) _ IHf]; [destruct I|]. destruct I as [<-|I]; [|auto]. exists m, r. split; [reflexivity|]. apply in_map_iff. exists (m, k). auto. }
      split; [|split; [|split]].
      + apply Forall2_app.
        * clear - Fa. induction Fa as [|e p tr ps [E S] _ IHf]; cbn [map]; constructor; [|exact IHf]. split; [exact E|]. exists n, k, p. split; [reflexivity|]. split; [left; reflexivity|exact S].
        * clear - Fb. induction Fb as [|e p tr ps (E & m & j & r & -> & I & S) _ IHf]; constructor; [|exact IHf]. split; [exact E|]. exists m, j, r. split; [reflexivity|]. split; [right; exact I|exact S].
      + apply NoDup_join; [apply fold_cons_nodup, Na|exact Nb|]. intros q I1 I2. apply in_map_iff in I1 as (r & <- & _). destruct (Hb _ I2) as (m & r' & E & Im). injection E as <- _. contradiction.
      + intros m j q x [E|I] S; apply in_or_app.
        * injection E as <- <-. left. apply in_map, (Ca q x S).
        * right. exact (Cb m j q x I S).
      + intros u p m v E. destruct (app_split _ _ _ _ _ E) as [(e & Ea & _)|(e & -> & Eb)].
        * destruct p as [|n0 p]; [left; reflexivity|right]. cbn [app] in Ea.
          assert (X : exists a1 b1, pa = a1 ++ (p ++ [m]) :: b1 /\ u = map (cons n) a1 /\ n0 = n).
          { clear - Ea. revert u Ea. induction pa as [|q pa IHp]; intros u Ea; [destruct u; discriminate Ea|]. cbn [map] in Ea. destruct u as [|u0 u]; cbn [app] in Ea.
            - injection Ea as -> <- _. exists [], pa. auto.
            - injection Ea as <- Ea. destruct (IHp u Ea) as (a1 & b1 & -> & -> & ->). exists (q :: a1), b1. auto. }
          destruct X as (a1 & b1 & -> & -> & ->). apply in_map, (Oa a1 p m b1 eq_refl).
        * destruct (Ob e p m v Eb) as [->|I]; [left; reflexivity|right; apply in_or_app; right; exact I].
  Qed.
  Lemma order_in l x : In x (order l) <-> In x l.
  Proof using Ord. split; apply Permutation_in; [apply Ord|apply Permutation_sym, Ord]. Qed.
  Lemma order_names l : NoDup (map fst l) -> NoDup (map fst (order l)).
  Proof using Ord. intro N. eapply Permutation_NoDup; [|exact N]. apply Permutation_map, Permutation_sym, Ord. Qed.
  Lemma walk_right d : forall rd i tr, walk rd d false w i = (Ok tr, w) -> right i tr.
  Proof using Ap Ord.
    induction d as [|d IH]; intros rd i tr E; [discriminate E|]. pose proof (still d) as St. unfold walk in *. cbn [w_walk_in andb] in E. destruct (w_heap w i) as [c|] eqn:H; [|discriminate E].
    destruct (w_loop _ w (order (nd_slots c))) as [[l| | |] w2] eqn:El; try discriminate E.
    assert (w2 = w).
    { injection E as _ E. destruct (w_heap w2 i); exact E. }
    subst w2. injection E as <- _.
    destruct (loop_right _ _ (order_names _ (Ap i c H)) (fun k => St (i :: rd) k) (fun k t E2 => IH (i :: rd) k t E2) l El) as (ps & Fp & Np & Cp & Op).
    exists ([] :: ps). split; [|split; [|split]].
    - constructor; [split; [reflexivity|constructor]|]. clear - Fp H Ord. induction Fp as [|e p tr ps (E & n & k & q & -> & I & S) _ IHf]; constructor; [|exact IHf]. split; [exact E|]. econstructor; [exact H|apply order_in, I|exact S].
    - constructor; [|exact Np]. intro I. clear - Fp I. induction Fp as [|e p tr ps (_ & n & k & q & -> & _) _ IHf]; [destruct I|]. destruct I as [E|I]; [discriminate E|auto].
    - intros p j S. inversion S as [|? c' n k q ? H' I S']; subst; [left; reflexivity|right]. rewrite H in H'. injection H' as <-. eapply Cp; [apply order_in; exact I|exact S'].
    - intros [|a0 a] p n b E; cbn [app] in E; [destruct p; discriminate E|]. injection E as <- E. destruct (Op a p n b E) as [->|I]; [left; reflexivity|right; exact I].
  Qed.
  (** It returns when it may go deep enough. *)
  Lemma walk_ends d : forall rd i, (forall p j, stands (w_heap w) i p j -> (length p < d)%nat /\ w_heap w j <> None) -> exists tr, walk rd d false w i = (Ok tr, w).
  Proof using Ord.
    induction d as [|d IH]; intros rd i B; [destruct (B [] i (stands_here _ _)) as [X _]; inversion X|]. unfold walk in *. cbn [w_walk_in andb]. destruct (w_heap w i) as [c|] eqn:H.
    2: { destruct (B [] i (stands_here _ _)) as [_ X]. contradiction. }
    assert (L : forall l, incl l (nd_slots c) -> exists tr, w_loop (w_walk_in st bl f order (i :: rd) d false) w l = (Ok tr, w)).
    { induction l as [|[n k] l IHl]; intro In_; [exists []; reflexivity|]. cbn [w_loop].
      destruct (IH (i :: rd) k) as [a Ea].
      { intros p j S. destruct (B (n :: p) j) as [L1 L2]; [econstructor; [exact H|apply In_; left; reflexivity|exact S]|]. cbn [length] in L1. split; [lia|exact L2]. }
      rewrite Ea. destruct IHl as [b Eb]; [intros x X; apply In_; right; exact X|]. rewrite Eb. eexists. reflexivity. }
    destruct (L (order (nd_slots c))) as [tr E]; [intros x X; apply order_in, X|]. rewrite E, H. eexists. reflexivity.
  Qed.
  (** It does not when it may not. *)
  Lemma walk_short d : forall rd i p j tr, stands (w_heap w) i p j -> (d <= length p)%nat -> walk rd d false w i <> (Ok tr, w).
  Proof using Ord.
    induction d as [|d IH]; intros rd i p j tr S L E; [discriminate E|]. inversion S as [|? c n k q ? H I S']; subst; [cbn in L; lia|]. cbn [length] in L.
    pose proof (still d) as St. unfold walk in *. cbn [w_walk_in andb] in E. rewrite H in E. apply order_in in I. revert tr E. generalize dependent (order (nd_slots c)). intros l I tr E.
    assert (X : forall tr w2, w_loop (w_walk_in st bl f order (i :: rd) d false) w l <> (Ok tr, w2)).
    { clear E tr. revert I. induction l as [|[m x] l IHl]; intros I tr w2 E; [destruct I|]. cbn [w_loop] in E. pose proof (St (i :: rd) x) as Sx.
      destruct (w_walk_in st bl f order (i :: rd) d false w x) as [[a| | |] w1] eqn:Ex; cbn [snd] in Sx; subst w1; try discriminate E.
      destruct I as [I|I]; [injection I as -> ->; eapply IH; [exact S'|lia|exact Ex]|].
      specialize (IHl I). destruct (w_loop _ w l) as [[b| | |] w3]; try discriminate E. exact (IHl b w3 eq_refl). }
    destruct (w_loop _ w l) as [[b| | |] w2]; try discriminate E. exact (X b w2 eq_refl).
  Qed.
  (** With nothing lost it returns or goes too deep. *)
  Lemma walk_or d : none_lost (w_heap w) -> forall rd i, w_heap w i <> None ->
    match fst (walk rd d false w i) with Ok _ => True | OutOfFuel => exists p j, stands (w_heap w) i p j /\ length p = d | _ => False end.
  Proof using Ord.
    intro N. induction d as [|d IH]; intros rd i T; [exists [], i; split; [constructor|reflexivity]|].
    pose proof (still d) as St. unfold walk in *. cbn [w_walk_in andb]. destruct (w_heap w i) as [c|] eqn:H; [|contradiction].
    assert (L : forall l, incl l (nd_slots c) -> match fst (w_loop (w_walk_in st bl f order (i :: rd) d false) w l) with
      | Ok _ => True | OutOfFuel => exists p j, stands (w_heap w) i p j /\ length p = Datatypes.S d | _ => False end).
    { induction l as [|[n k] l IHl]; intro In_; [exact I|]. cbn [w_loop]. assert (Ik : In (n, k) (nd_slots c)) by (apply In_; left; reflexivity).
      pose proof (IH (i :: rd) k (N i c n k H Ik)) as K. pose proof (St (i :: rd) k) as Sk. destruct (w_walk_in st bl f order (i :: rd) d false w k) as [[a| | |] w1]; cbn [fst snd] in *; try contradiction.
      - subst w1. assert (Il : incl l (nd_slots c)) by (intros x X; apply In_; right; exact X). specialize (IHl Il). destruct (w_loop _ w l) as [[b| | |] w2]; exact IHl.
      - destruct K as (p & j & S & <-). exists (n :: p), j. split; [econstructor; eassumption|reflexivity]. }
    specialize (L (order (nd_slots c)) (fun x X => proj1 (order_in _ _) X)). destruct (w_loop _ w (order (nd_slots c))) as [[l| | |] w2]; exact L.
  Qed.
End stroll.

(** Paths and [at_path]. *)
Lemma stands_fold h : told_apart h -> forall p i j, stands h i p j <-> try_fold (node_at h) i p = Some j.
Proof.
  intro A. induction p as [|n p IH]; intros i j; cbn [try_fold].
  - split; [intro S; inversion S; reflexivity|intros [= <-]; constructor].
  - unfold node_at at 1. split.
    + intro S. inversion S as [|? c ? k ? ? H I S']; subst. rewrite H, (in_get _ _ _ (A i c H) I). apply IH, S'.
    + destruct (h i) as [c|] eqn:H; [|discriminate]. destruct (slot_get (nd_slots c) n) as [k|] eqn:G; [|discriminate]. intro T. econstructor; [exact H|apply get_in, G|apply IH, T].
Qed.
