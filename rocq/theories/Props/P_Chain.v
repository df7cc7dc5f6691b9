(** C233: all answers of the chained version generator. *)
From Coq Require Import ZArith List Bool Lia ZifyBool ZifyNat.
From Verif.Model Require Import Base VersionPkg2.
From Verif.Spec Require Import Version.
Import ListNotations.
Open Scope Z_scope.

(** The first [n] answers of [next]. *)
Fixpoint answers (n : nat) (g : vgen) : list (option Z) :=
  match n with O => [] | S k => let (x, g') := vgen_next g in x :: answers k g' end.
(** The answers for one scheme: its candidates, or one [None] if it has none. *)
Definition turn (l : list Z) : list (option Z) := match l with [] => [None] | _ => map Some l end.

Lemma firstn_repeat {A} (x : A) : forall n m, (n <= m)%nat -> firstn n (repeat x m) = repeat x n.
Proof. induction n as [|n IH]; intros [|m] H; try reflexivity; [lia|]. cbn [repeat firstn]. rewrite IH by lia. reflexivity. Qed.
Lemma answers_tail gens : forall n cur, (cur = None \/ cur = Some []) ->
  answers n (mkVgen cur gens) = firstn n (concat (map turn gens) ++ repeat None n).
Proof.
  assert (Go : forall gens, (forall n cur, (cur = None \/ cur = Some []) -> answers n (mkVgen cur gens) = firstn n (concat (map turn gens) ++ repeat None n)) ->
    forall l n, answers n (mkVgen (Some l) gens) = firstn n (map Some l ++ concat (map turn gens) ++ repeat None n)).
  { clear gens. intros gens IH. induction l as [|x l IHl]; intro n; [cbn [map app]; apply IH; auto|].
    destruct n as [|n]; [reflexivity|]. cbn [answers vgen_next vg_cur vg_gens map app firstn]. f_equal. rewrite IHl.
    rewrite !app_assoc, !(firstn_app n). f_equal. rewrite !firstn_repeat by lia. reflexivity. }
  induction gens as [|g gens IH]; intros n cur H.
  - cbn [map concat app]. rewrite firstn_repeat by lia. revert cur H. induction n as [|n IHn]; intros cur H; [reflexivity|].
    cbn [answers]. replace (vgen_next (mkVgen cur [])) with (@None Z, mkVgen None []) by (destruct H as [-> | ->]; reflexivity).
    cbn [repeat]. f_equal. apply IHn. auto.
  - destruct n as [|n]; [reflexivity|]. cbn [map concat].
    assert (E : answers (S n) (mkVgen cur (g :: gens)) = match g with [] => None :: answers n (mkVgen (Some []) gens) | x :: g' => Some x :: answers n (mkVgen (Some g') gens) end)
      by (destruct g; destruct H as [-> | ->]; reflexivity).
    rewrite E. destruct g as [|x g].
    + cbn [turn app firstn]. f_equal. rewrite (IH n (Some [])) by auto. rewrite !(firstn_app n). f_equal. rewrite !firstn_repeat by lia. reflexivity.
    + cbn [turn map app firstn]. f_equal. rewrite (Go gens IH). rewrite <- app_assoc, !app_assoc, !(firstn_app n). f_equal. rewrite !firstn_repeat by lia. reflexivity.
Qed.

(** C233: who asks on after a [None] gets all candidates: V3, then V2, then V1, a scheme without candidates giving one [None]; then only [None]. *)
Theorem C233_asking_on : forall h1 h2 n,
  answers n (vgen_new h1 h2) = firstn n (turn (calc_v3 h1 h2) ++ turn (calc_v2 h1 h2) ++ turn (calc_v1 h1 h2) ++ repeat None n).
Proof.
  intros h1 h2 n. unfold vgen_new. rewrite answers_tail by auto. cbn [map concat]. rewrite app_nil_r, <- !app_assoc. reflexivity.
Qed.
Print Assumptions C233_asking_on.
Example C233_example : calc_v3 0 0 = [] /\ answers 6 (vgen_new 0 0) = [None; Some 1338939011; Some 0; None; None; None].
Proof. vm_compute. repeat split. Qed.
