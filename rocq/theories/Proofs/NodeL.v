(** Lemmas on heaps, slots, descents and paths. *)
From Coq Require Import ZArith List Bool Lia Arith.
From Verif.Model Require Import Base Utf Image Node.
From Verif.Spec Require Import PathSpec Tree.
From Verif.Proofs Require Import ImageL.

Lemma get_in l n j : slot_get l n = Some j -> In (n, j) l.
Proof.
  induction l as [|[k x] l IH]; cbn [slot_get]; [discriminate|].
  destruct (text_eqb k n) eqn:E.
  - intros [= ->]. apply text_eqb_eq in E. subst. left. reflexivity.
  - intro H. right. auto.
Qed.
Lemma get_none l n : slot_get l n = None <-> ~ In n (map fst l).
Proof.
  induction l as [|[k x] l IH]; cbn [slot_get map fst In]; [tauto|].
  destruct (text_eqb k n) eqn:E.
  - apply text_eqb_eq in E. split; [discriminate|]. intro H. destruct H. left. exact E.
  - rewrite IH. split; [|tauto]. intros H [A|A]; [|tauto]. subst. rewrite text_eqb_refl in E. discriminate.
Qed.
Lemma in_get l n j : NoDup (map fst l) -> In (n, j) l -> slot_get l n = Some j.
Proof.
  induction l as [|[k x] l IH]; [contradiction|]. cbn [slot_get map fst]. intro D. inversion_clear D as [|? ? N D'].
  intros [[= -> ->]|H]; [rewrite text_eqb_refl; reflexivity|].
  destruct (text_eqb k n) eqn:E; [|auto]. apply text_eqb_eq in E. subst k. destruct N.
  apply in_map_iff. exists (n, j). auto.
Qed.

Lemma slot_at h i n j : slot h i n j -> node_at h i n = Some j.
Proof. intros (c & E & D & I). unfold node_at. rewrite E. apply in_get; assumption. Qed.
Lemma no_slot_at h i n : no_slot h i n -> node_at h i n = None.
Proof. intros (c & E & I). unfold node_at. rewrite E. apply get_none. exact I. Qed.
Lemma child_parent h n i p : child_of h n i p -> parent_of h i = Some p.
Proof. intros [(c & E & _ & P) (d & F)]. unfold parent_of, upgrade. rewrite E, P, F. reflexivity. Qed.
Lemma root_parent h i : rootless h i -> parent_of h i = None.
Proof.
  intros (c & E & P). unfold parent_of, upgrade. rewrite E. destruct (nd_parent c) as [p|]; [|reflexivity].
  rewrite (P p eq_refl). reflexivity.
Qed.

(** * Splitting and joining *)
Definition plain (l : list text) : Prop := Forall (fun c => ~ In 47 c) l.

Lemma split_plain c : ~ In 47 c -> split_slash c = [c].
Proof.
  induction c as [|x c IH]; intro H; [reflexivity|]. cbn [split_slash].
  replace (x =? 47) with false by (cbn [In] in H; lia). rewrite IH by (cbn [In] in H; tauto). reflexivity.
Qed.
Lemma split_cons c s : ~ In 47 c -> split_slash (c ++ 47 :: s) = c :: split_slash s.
Proof.
  induction c as [|x c IH]; intro H; [reflexivity|]. cbn [app split_slash].
  replace (x =? 47) with false by (cbn [In] in H; lia). rewrite IH by (cbn [In] in H; tauto). reflexivity.
Qed.
Lemma split_join l : l <> [] -> plain l -> split_slash (joined l) = l.
Proof.
  induction l as [|c l IH]; [contradiction|]. intros _ P. inversion_clear P as [|? ? Hc Hr].
  destruct l as [|d l]; [apply split_plain, Hc|]. cbn [joined]. rewrite split_cons by exact Hc.
  f_equal. apply IH; [discriminate|exact Hr].
Qed.
Lemma join_model l : join_slash l = joined l.
Proof. induction l as [|a [|b l] IH]; [reflexivity..|]. cbn [join_slash joined] in *. rewrite IH. reflexivity. Qed.
Lemma joined_cons a l : l <> [] -> joined (a :: l) = a ++ 47 :: joined l.
Proof. destruct l; [contradiction|reflexivity]. Qed.
Lemma joined_inj l m : l <> [] -> m <> [] -> plain l -> plain m -> joined l = joined m -> l = m.
Proof. intros A B C D E. rewrite <- (split_join l A C), <- (split_join m B D), E. reflexivity. Qed.
Lemma plain_app a b : plain (a ++ b) <-> plain a /\ plain b.
Proof. apply Forall_app. Qed.

Lemma app_ne {A} (p : list A) x : p ++ [x] <> [].
Proof. destruct p; discriminate. Qed.

Lemma hangs_plain h r p i : hangs h r p i -> plain p /\ Forall (fun n => n <> []) p.
Proof.
  induction 1 as [|p n i j _ [A B] [N S] _ _]; [split; constructor|].
  split; apply Forall_app; split; auto; repeat constructor; auto.
Qed.
Lemma hangs_alive h r p i : hangs h r p i -> exists c, h i = Some c.
Proof. intros [c E | ? ? ? ? _ _ [(c & E & _) _] _]; eauto. Qed.
Lemma hangs_top_alive h r p i : hangs h r p i -> exists c, h r = Some c.
Proof. induction 1; eauto. Qed.

Lemma hangs_snoc_inv h r p n i : hangs h r (p ++ [n]) i ->
  exists j, hangs h r p j /\ name_ok n /\ child_of h n i j /\ slot h j n i.
Proof.
  intro H. remember (p ++ [n]) as q eqn:Q. destruct H as [|p' n' i j H N C S].
  - destruct p; discriminate.
  - apply app_inj_tail in Q as [-> ->]. eauto.
Qed.
Lemma hangs_nil_inv h r i : hangs h r [] i -> i = r.
Proof. intro H. remember [] as q eqn:Q. destruct H; [reflexivity|]. destruct p; discriminate. Qed.

Lemma fold_app {A B} (f : A -> B -> option A) a l m :
  try_fold f a (l ++ m) = match try_fold f a l with Some b => try_fold f b m | None => None end.
Proof. revert a. induction l as [|x l IH]; intro a; [reflexivity|]. cbn [app try_fold]. destruct (f a x); auto. Qed.

Lemma hangs_fold h r p i : hangs h r p i -> try_fold (node_at h) r p = Some i.
Proof.
  induction 1 as [|p n i j _ IH _ _ S]; [reflexivity|]. rewrite fold_app, IH. cbn [try_fold].
  rewrite (slot_at _ _ _ _ S). reflexivity.
Qed.
Lemma at_path_join h i l : l <> [] -> plain l -> at_path h i (joined l) = try_fold (node_at h) i l.
Proof. intros A B. unfold at_path. rewrite split_join by assumption. destruct l; [contradiction|reflexivity]. Qed.
Lemma at_rel_join h i l : l <> [] -> plain l -> at_path_relative h i (joined l) = try_fold (at_relative h) i l.
Proof. intros A B. unfold at_path_relative. rewrite split_join by assumption. destruct l; [contradiction|reflexivity]. Qed.
Lemma at_path_split h i s : at_path h i s = try_fold (node_at h) i (split_slash s).
Proof. unfold at_path. destruct (split_slash s) eqn:E; [|reflexivity].
  exfalso. destruct s as [|c s]; [discriminate|]. cbn [split_slash] in E.
  destruct (c =? 47); [discriminate|]. destruct (split_slash s); discriminate. Qed.

(** * Going up *)
Lemma upgrade_child h n i p c : child_of h n i p -> h i = Some c -> upgrade h (nd_parent c) = Some p /\ nd_name c = n.
Proof.
  intros [(c' & E & N & P) (d & F)] E'. rewrite E in E'. injection E' as <-. unfold upgrade. rewrite P, F. auto.
Qed.
Lemma upgrade_root h i c : rootless h i -> h i = Some c -> upgrade h (nd_parent c) = None.
Proof.
  intros (c' & E & P) E'. rewrite E in E'. injection E' as <-. unfold upgrade.
  destruct (nd_parent c') as [p|]; [|reflexivity]. rewrite (P p eq_refl). reflexivity.
Qed.

Lemma full_up h r : rootless h r -> forall p i, hangs h r p i -> forall fuel c cr s, (length p < fuel)%nat ->
  h i = Some c -> h r = Some cr ->
  full_path_up fuel h (Some i) s = Ok (joined (nd_name cr :: p) ++ 47 :: s).
Proof.
  intro R. induction 1 as [c0 E | p n i j H IH [N1 N2] C S]; intros fuel c cr s Hf Ec Er.
  - destruct fuel as [|f]; [cbn in Hf; lia|]. cbn [full_path_up]. rewrite Ec. rewrite Ec in Er. injection Er as <-.
    rewrite (upgrade_root _ _ _ R Ec). destruct f; reflexivity.
  - destruct fuel as [|f]; [lia|]. cbn [full_path_up]. rewrite Ec.
    destruct (upgrade_child _ _ _ _ _ C Ec) as [-> ->].
    destruct (hangs_alive _ _ _ _ H) as [cj Ej].
    rewrite (IH f cj cr _ ltac:(rewrite app_length in Hf; cbn in Hf; lia) Ej Er).
    f_equal. change (nd_name cr :: p ++ [n]) with ((nd_name cr :: p) ++ [n]).
    assert (J : forall l x, l <> [] -> joined (l ++ [x]) = joined l ++ 47 :: x).
    { clear. induction l as [|a l IH]; [contradiction|]. intros x _. destruct l as [|b l]; [reflexivity|].
      cbn [app]. change (joined (a :: b :: l ++ [x])) with (a ++ 47 :: joined ((b :: l) ++ [x])).
      rewrite IH by discriminate. cbn [joined]. rewrite <- app_assoc. reflexivity. }
    rewrite J by discriminate. rewrite <- app_assoc. reflexivity.
Qed.

Lemma joined_snoc l x : l <> [] -> joined (l ++ [x]) = joined l ++ 47 :: x.
Proof.
  induction l as [|a l IH]; [contradiction|]. intros _. destruct l as [|b l]; [reflexivity|].
  cbn [app]. change (joined (a :: b :: l ++ [x])) with (a ++ 47 :: joined ((b :: l) ++ [x])).
  rewrite IH by discriminate. cbn [joined]. rewrite <- app_assoc. reflexivity.
Qed.

Lemma full_path_ok h r p i cr : rootless h r -> hangs h r p i -> h r = Some cr ->
  forall fuel, (length p <= fuel)%nat -> get_full_path fuel h i = Ok (joined (nd_name cr :: p)).
Proof.
  intros R H Er fuel Hf. unfold get_full_path. destruct H as [c0 E | p n i j H [N1 N2] C S].
  - rewrite E. rewrite E in Er. injection Er as <-. rewrite (upgrade_root _ _ _ R E). destruct fuel; reflexivity.
  - destruct (proj1 C) as (c & E & N & P). rewrite E. destruct (upgrade_child _ _ _ _ _ C E) as [-> ->].
    destruct (hangs_alive _ _ _ _ H) as [cj Ej].
    rewrite (full_up _ _ R _ _ H fuel cj cr n ltac:(rewrite app_length in Hf; cbn in Hf; lia) Ej Er).
    change (nd_name cr :: p ++ [n]) with ((nd_name cr :: p) ++ [n]). rewrite joined_snoc by discriminate. reflexivity.
Qed.

Lemma root_up h r : rootless h r -> forall p i, hangs h r p i -> forall fuel s, (length p < fuel)%nat ->
  root_path_up fuel h (Some i) s = Ok (match p with [] => s | _ => joined p ++ 47 :: s end).
Proof.
  intro R. induction 1 as [c0 E | p n i j H IH [N1 N2] C S]; intros fuel s Hf.
  - destruct fuel as [|f]; [cbn in Hf; lia|]. cbn [root_path_up]. rewrite E.
    rewrite (upgrade_root _ _ _ R E). destruct f; reflexivity.
  - destruct fuel as [|f]; [lia|]. cbn [root_path_up]. destruct (proj1 C) as (c & E & _). rewrite E.
    cbv zeta. destruct (upgrade_child _ _ _ _ _ C E) as [-> ->].
    rewrite IH by (rewrite app_length in Hf; cbn in Hf; lia). f_equal.
    destruct p as [|a p]; [reflexivity|]. cbn [app]. change (a :: p ++ [n]) with ((a :: p) ++ [n]).
    rewrite joined_snoc by discriminate. rewrite <- app_assoc. reflexivity.
Qed.

Lemma root_path_ok h r p i : rootless h r -> hangs h r p i ->
  forall fuel, (length p <= fuel)%nat -> get_path_from_root fuel h i = Ok (joined p).
Proof.
  intros R H fuel Hf. unfold get_path_from_root. destruct H as [c0 E | p n i j H [N1 N2] C S].
  - rewrite E, (upgrade_root _ _ _ R E). reflexivity.
  - destruct (proj1 C) as (c & E & N & P). rewrite E. destruct (upgrade_child _ _ _ _ _ C E) as [-> ->].
    rewrite (root_up _ _ R _ _ H fuel n ltac:(rewrite app_length in Hf; cbn in Hf; lia)).
    destruct p; [reflexivity|]. rewrite joined_snoc by discriminate. reflexivity.
Qed.

(** * Relative paths *)
Lemma dd_plain : ~ In 47 dd. Proof. cbn. lia. Qed.
Lemma plain_dots m : plain (repeat dd m).
Proof. apply Forall_forall. intros x H. apply repeat_spec in H. subst. apply dd_plain. Qed.

Lemma climb h a q i : hangs h a q i -> try_fold (at_relative h) i (repeat dd (length q)) = Some a.
Proof.
  induction 1 as [|p n i j H IH N C S]; [reflexivity|]. rewrite app_length, Nat.add_1_r. cbn [repeat try_fold].
  unfold at_relative at 1. cbn [text_eqb dd Z.eqb Pos.eqb andb]. rewrite (child_parent _ _ _ _ C). exact IH.
Qed.
Lemma rel_names h i l : Forall (fun n => n <> dd) l -> try_fold (at_relative h) i l = try_fold (node_at h) i l.
Proof.
  revert i. induction l as [|n l IH]; intros i H; [reflexivity|]. inversion_clear H as [|? ? Hn Hr].
  cbn [try_fold]. unfold at_relative at 1. destruct (text_eqb n [46; 46]) eqn:E.
  { apply text_eqb_eq in E. contradiction. }
  destruct (node_at h i n); [apply IH, Hr|reflexivity].
Qed.

(** * Nearest ancestor *)
Lemma filter_up_ok h cb a : forall q i, hangs h a q i -> forall fuel ca, (length q < fuel)%nat ->
  h a = Some ca -> cb ca = true ->
  (forall q1 q2 m c, q = q1 ++ q2 -> q1 <> [] -> hangs h a q1 m -> h m = Some c -> cb c = false) ->
  filter_up fuel h cb (Some i) = Ok (Some a).
Proof.
  induction 1 as [c0 E | p n i j H IH N C S]; intros fuel ca Hf Ea Ca Hn.
  - destruct fuel as [|f]; [cbn in Hf; lia|]. cbn [filter_up]. rewrite Ea, Ca. reflexivity.
  - destruct fuel as [|f]; [lia|]. cbn [filter_up]. destruct (proj1 C) as (c & E & _). rewrite E.
    rewrite (Hn (p ++ [n]) [] i c); [|symmetry; apply app_nil_r|apply app_ne|econstructor; eassumption|exact E].
    destruct (upgrade_child _ _ _ _ _ C E) as [-> _].
    apply (IH f ca); [rewrite app_length in Hf; cbn in Hf; lia|assumption..|].
    intros q1 q2 m cm Q. apply (Hn q1 (q2 ++ [n])). rewrite Q, app_assoc. reflexivity.
Qed.

Lemma filter_parent_ok h cb a q i ca : hangs h a q i -> q <> [] -> h a = Some ca -> cb ca = true ->
  between h a q (fun c => cb c = false) ->
  forall fuel, (length q <= fuel)%nat -> filter_parent fuel h i cb = Ok (Some a).
Proof.
  intros H Hq Ea Ca B fuel Hf. unfold filter_parent. destruct H as [c0 E | p n i j H N C S]; [contradiction|].
  destruct (proj1 C) as (c & E & _). rewrite E. destruct (upgrade_child _ _ _ _ _ C E) as [-> _].
  apply (filter_up_ok h cb a p j H fuel ca); [rewrite app_length in Hf; cbn in Hf; lia|assumption..|].
  intros q1 q2 m cm Q. intros Q1. apply (B q1 (q2 ++ [n])); [rewrite Q, app_assoc; reflexivity|exact Q1|apply app_ne].
Qed.

Lemma filter_up_none h cb a : rootless h a -> forall q i, hangs h a q i -> forall fuel, (length q < fuel)%nat ->
  (forall q1 q2 m c, q = q1 ++ q2 -> hangs h a q1 m -> h m = Some c -> cb c = false) ->
  filter_up fuel h cb (Some i) = Ok None.
Proof.
  intro R. induction 1 as [c0 E | p n i j H IH N C S]; intros fuel Hf Hn.
  - destruct fuel as [|f]; [cbn in Hf; lia|]. cbn [filter_up]. rewrite E.
    rewrite (Hn [] [] a c0 eq_refl (hangs_top _ _ _ E) E), (upgrade_root _ _ _ R E). destruct f; reflexivity.
  - destruct fuel as [|f]; [lia|]. cbn [filter_up]. destruct (proj1 C) as (c & E & _). rewrite E.
    rewrite (Hn (p ++ [n]) [] i c); [|symmetry; apply app_nil_r|econstructor; eassumption|exact E].
    destruct (upgrade_child _ _ _ _ _ C E) as [-> _].
    apply IH; [rewrite app_length in Hf; cbn in Hf; lia|].
    intros q1 q2 m cm Q. apply (Hn q1 (q2 ++ [n])). rewrite Q, app_assoc. reflexivity.
Qed.
Lemma filter_parent_none h cb a q i : rootless h a -> hangs h a q i ->
  (forall q1 q2 m c, q = q1 ++ q2 -> q2 <> [] -> hangs h a q1 m -> h m = Some c -> cb c = false) ->
  forall fuel, (length q <= fuel)%nat -> filter_parent fuel h i cb = Ok None.
Proof.
  intros R H B fuel Hf. unfold filter_parent. destruct H as [c0 E | p n i j H N C S].
  - rewrite E, (upgrade_root _ _ _ R E). destruct fuel; reflexivity.
  - destruct (proj1 C) as (c & E & _). rewrite E. destruct (upgrade_child _ _ _ _ _ C E) as [-> _].
    apply (filter_up_none h cb a R p j H); [rewrite app_length in Hf; cbn in Hf; lia|].
    intros q1 q2 m cm Q. apply (B q1 (q2 ++ [n])); [rewrite Q, app_assoc; reflexivity|apply app_ne].
Qed.

Lemma image_up h a ca : h a = Some ca -> is_image ca = true -> forall q i, hangs h a q i -> forall fuel s,
  (length q < fuel)%nat ->
  (forall q1 q2 m c, q = q1 ++ q2 -> q1 <> [] -> hangs h a q1 m -> h m = Some c -> is_image c = false) ->
  image_path_up fuel h (Some i) s = Ok (match q with [] => s | _ => joined q ++ 47 :: s end).
Proof.
  intros Ea Ca. induction 1 as [c0 E | p n i j H IH N C S]; intros fuel s Hf Hn.
  - destruct fuel as [|f]; [cbn in Hf; lia|]. cbn [image_path_up]. rewrite Ea, Ca. reflexivity.
  - destruct fuel as [|f]; [lia|]. cbn [image_path_up]. destruct (proj1 C) as (c & E & _). rewrite E.
    rewrite (Hn (p ++ [n]) [] i c); [|symmetry; apply app_nil_r|apply app_ne|econstructor; eassumption|exact E].
    destruct (upgrade_child _ _ _ _ _ C E) as [-> ->].
    rewrite IH; [|rewrite app_length in Hf; cbn in Hf; lia|].
    2:{ intros q1 q2 m cm Q. apply (Hn q1 (q2 ++ [n])). rewrite Q, app_assoc. reflexivity. }
    f_equal. destruct p as [|b p]; [reflexivity|]. cbn [app]. change (b :: p ++ [n]) with ((b :: p) ++ [n]).
    rewrite joined_snoc by discriminate. rewrite <- app_assoc. reflexivity.
Qed.
Lemma image_path_ok h a ca q i : hangs h a q i -> q <> [] -> h a = Some ca -> is_image ca = true ->
  between h a q (fun c => is_image c = false) ->
  forall fuel, (length q <= fuel)%nat -> get_path_from_image fuel h i = Ok (joined q).
Proof.
  intros H Hq Ea Ca B fuel Hf. unfold get_path_from_image. destruct H as [c0 E | p n i j H N C S]; [contradiction|].
  destruct (proj1 C) as (c & E & _). rewrite E. destruct (upgrade_child _ _ _ _ _ C E) as [-> ->].
  rewrite (image_up h a ca Ea Ca p j H); [|rewrite app_length in Hf; cbn in Hf; lia|].
  - destruct p; [reflexivity|]. rewrite joined_snoc by discriminate. reflexivity.
  - intros q1 q2 m cm Q. intros Q1. apply (B q1 (q2 ++ [n])); [rewrite Q, app_assoc; reflexivity|exact Q1|apply app_ne].
Qed.
