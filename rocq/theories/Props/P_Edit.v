(** C78, C104-C107: paths without an image, adding children, unparsing. *)
From Coq Require Import ZArith List Bool Lia Arith.
From Coq Require String.
Import String.StringSyntax.
From Verif.Model Require Import Base Utf Image Node.
From Verif.Spec Require Import PathSpec Tree.
From Verif.Proofs Require Import ImageL NodeL UolL WalkL MoveL LookL.
From Verif.Props Require Import P_Node.
Local Open Scope string_scope.
Local Open Scope Z_scope.

(** C78: a node with no image above it has the empty path from its image. *)
Lemma image_up_none h a : rootless h a -> forall q i, hangs h a q i -> forall fuel s, (length q < fuel)%nat ->
  (forall q1 q2 m c, q = q1 ++ q2 -> hangs h a q1 m -> h m = Some c -> is_image c = false) ->
  image_path_up fuel h (Some i) s = Ok [].
Proof.
  intros R. induction 1 as [c0 E | p n i j H IH N C S]; intros fuel s Hf Hn.
  - destruct fuel as [|f]; [lia|]. cbn [image_path_up]. rewrite E.
    rewrite (Hn [] [] a c0); [|reflexivity|econstructor; eassumption|exact E]. rewrite (upgrade_root _ _ _ R E). reflexivity.
  - destruct fuel as [|f]; [lia|]. cbn [image_path_up]. destruct (proj1 C) as (c & E & _). rewrite E.
    rewrite (Hn (p ++ [n]) [] i c); [|symmetry; apply app_nil_r|econstructor; eassumption|exact E].
    destruct (upgrade_child _ _ _ _ _ C E) as [-> _].
    apply IH; [rewrite app_length in Hf; cbn in Hf; lia|].
    intros q1 q2 m cm Q. apply (Hn q1 (q2 ++ [n])). rewrite Q, app_assoc. reflexivity.
Qed.
Theorem C78_no_image : forall h root q i, rootless h root -> hangs h root q i ->
  (forall q1 q2 m, q = q1 ++ q2 -> q2 <> [] -> hangs h root q1 m -> ~ image_node h m) ->
  forall fuel, (length q <= fuel)%nat -> get_path_from_image fuel h i = Ok [].
Proof.
  intros h root q i R H B fuel Hf. unfold get_path_from_image. destruct H as [c0 E | p n i j H N C S].
  - rewrite E, (upgrade_root _ _ _ R E). reflexivity.
  - destruct (proj1 C) as (c & E & _). rewrite E. destruct (upgrade_child _ _ _ _ _ C E) as [-> _].
    apply (image_up_none h root R p j H); [rewrite app_length in Hf; cbn in Hf; lia|].
    intros q1 q2 m cm Q Hm Em. destruct (is_image cm) eqn:I; [|reflexivity]. exfalso.
    apply (B q1 (q2 ++ [n]) m); [rewrite Q, app_assoc; reflexivity|apply app_ne|exact Hm|].
    unfold is_image in I. destruct (nd_kind cm) eqn:K; try discriminate. exists cm. eexists. split; [exact Em|exact K].
Qed.
Print Assumptions C78_no_image.
Example C78_no_image_example : get_path_from_image 9 demo 2 = Ok [] /\ get_path_from_image 9 demo 0 = Ok [].
Proof. split; reflexivity. Qed.

(** C104: adding a child puts it below the node under its own name and changes nothing else. *)
Theorem C104_add : forall h i j n ci, h i = Some ci -> NoDup (map fst (nd_slots ci)) ->
  (exists cj, h j = Some cj /\ nd_name cj = n) ->
  slot (add h i j) i n j /\ node_at (add h i j) i n = Some j /\
  (forall m k, m <> n -> slot h i m k <-> slot (add h i j) i m k) /\
  (forall x m k, x <> i -> slot h x m k <-> slot (add h i j) x m k) /\
  same_but_slots h (add h i j).
Proof.
  intros h i j n ci Ei ND (cj & Ej & En).
  assert (A : add h i j = put h i (mkCell (nd_name ci) (nd_kind ci) (nd_parent ci) (slot_insert (nd_slots ci) n j)))
    by (unfold add; rewrite Ej; unfold insert_child; rewrite Ei, En; reflexivity).
  assert (Ai : add h i j i = Some (mkCell (nd_name ci) (nd_kind ci) (nd_parent ci) (slot_insert (nd_slots ci) n j)))
    by (rewrite A; unfold put; rewrite Z.eqb_refl; reflexivity).
  assert (Ax : forall x, x <> i -> add h i j x = h x)
    by (intros x D; rewrite A; unfold put; destruct (Z.eqb_spec x i); congruence).
  assert (InIns : forall l m k, In (m, k) (slot_insert l n j) -> (m = n /\ k = j) \/ (In (m, k) l)).
  { clear. induction l as [|[a b] l IH]; cbn; intros m k H.
    - destruct H as [[= <- <-]|[]]; auto.
    - destruct (text_eqb a n) eqn:T.
      + destruct H as [[= <- <-]|H]; [|auto]. left. split; [|reflexivity]. apply text_eqb_eq. exact T.
      + destruct H as [[= <- <-]|H]; [auto|]. destruct (IH _ _ H); auto. }
  assert (InSelf : forall l, In (n, j) (slot_insert l n j)).
  { clear. induction l as [|[a b] l IH]; cbn; auto. destruct (text_eqb a n) eqn:T; [|right; exact IH].
    apply text_eqb_eq in T. subst. left. reflexivity. }
  assert (InOld : forall l m k, m <> n -> In (m, k) l -> In (m, k) (slot_insert l n j)).
  { clear. induction l as [|[a b] l IH]; cbn; intros m k D H; [destruct H|]. destruct (text_eqb a n) eqn:T.
    - destruct H as [[= <- <-]|H]; [|right; exact H]. apply text_eqb_eq in T. congruence.
    - destruct H as [H|H]; [left; exact H|right; auto]. }
  assert (S : slot (add h i j) i n j).
  { eexists. split; [exact Ai|]. cbn. split; [apply insert_nodup; exact ND|apply InSelf]. }
  split; [exact S|]. split.
  { unfold node_at. rewrite Ai. cbn. clear. induction (nd_slots ci) as [|[a b] l IH]; cbn.
    - replace (text_eqb n n) with true by (symmetry; apply text_eqb_eq; reflexivity). reflexivity.
    - destruct (text_eqb a n) eqn:T; cbn; rewrite T; [reflexivity|exact IH]. }
  split.
  { intros m k D. split; intros (c & E & N1 & I).
    - assert (c = ci) by congruence. subst c. eexists. split; [exact Ai|]. cbn. split; [apply insert_nodup; exact N1|apply InOld; assumption].
    - rewrite Ai in E. injection E as <-. cbn in *. exists ci. split; [exact Ei|]. split; [exact ND|].
      destruct (InIns _ _ _ I) as [[-> _]|I']; [congruence|exact I']. }
  split.
  { intros x m k D. unfold slot. rewrite (Ax x D). reflexivity. }
  intros x. destruct (Z.eq_dec x i) as [->|D].
  - rewrite Ei, Ai. auto.
  - rewrite (Ax x D). destruct (h x); auto.
Qed.
Print Assumptions C104_add.
Example C104_add_example :
  let h := add (put demo 7 (mkCell (txt "new") (KOther 3) None [])) 1 7 in
  at_path h 0 (txt "dir/new") = Some 7 /\ at_path h 0 (txt "dir/a.img/x/y") = Some 4.
Proof. split; reflexivity. Qed.

(** C105 (refuted): the path of a child that was added leads back to it. *)
Theorem C105_added_path_refuted : exists h i j n p, rootless h i /\ tree h i [i] /\
  (exists cj, h j = Some cj /\ nd_name cj = n /\ name_ok n) /\
  node_at (add h i j) i n = Some j /\ parent_of (add h i j) j = None /\
  get_full_path 9 (add h i j) j = Ok p /\ p = n.
Proof.
  exists (mem [(0, mkCell (txt "Base") (KFile true) None []); (7, mkCell (txt "new") (KOther 3) None [])]), 0, 7, (txt "new"), (txt "new").
  split; [cell; discriminate|]. split.
  { exists (Shape 0 []). split; [reflexivity|]. split.
    - econstructor; [reflexivity|constructor|reflexivity|intros ? ? []].
    - split; [repeat constructor; auto|reflexivity]. }
  split; [eexists; split; [reflexivity|]; split; [reflexivity|name_tac]|]. repeat split; reflexivity.
Qed.
Print Assumptions C105_added_path_refuted.

(** C106: unparsing a directory, file or image leaves it without children and unread; it has no other effect. *)
Definition unread (k : kind) : option kind :=
  match k with KDir _ => Some (KDir false) | KFile _ => Some (KFile false) | KImage _ => Some (KImage false) | _ => None end.
Theorem C106_unparse : forall h i c, h i = Some c ->
  (forall k, unread (nd_kind c) = Some k -> exists c', unparse h i i = Some c' /\ nd_kind c' = k /\ nd_slots c' = [] /\
     nd_name c' = nd_name c /\ nd_parent c' = nd_parent c /\ ~ settled (unparse h i) i) /\
  (unread (nd_kind c) = None -> unparse h i i = h i) /\
  (forall j, j <> i -> unparse h i j = h j).
Proof.
  intros h i c E. split; [|split].
  - intros k K. unfold unparse, settled. rewrite E. unfold unread in K.
    destruct (nd_kind c) eqn:Kc; try discriminate; injection K as <-; unfold put; rewrite Z.eqb_refl;
      (eexists; split; [reflexivity|]; cbn; repeat split; intros (c' & Ec & B); injection Ec as <-; discriminate).
  - intros K. unfold unparse. rewrite E. unfold unread in K. destruct (nd_kind c); try discriminate; congruence.
  - intros j D. apply unparse_other. exact D.
Qed.
Print Assumptions C106_unparse.
Example C106_unparse_example : node_at (unparse demo 1) 1 (txt "a.img") = None /\ node_at (unparse demo 1) 2 (txt "x") = Some 3.
Proof. split; reflexivity. Qed.

(** C107 (refuted): unparsing clears the children of every container. *)
Theorem C107_ms_file_refuted : exists h i c, h i = Some c /\ nd_kind c = KMsFile true /\ settled (unparse h i) i /\
  nd_slots c <> [] /\ unparse h i i = Some c.
Proof.
  exists (mem [(0, mkCell (txt "a.ms") (KMsFile true) None [(txt "x.img", 1)])]), 0. eexists.
  split; [reflexivity|]. split; [reflexivity|]. split; [cell; reflexivity|]. split; [discriminate|reflexivity].
Qed.
Print Assumptions C107_ms_file_refuted.
