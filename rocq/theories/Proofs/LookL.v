(** Lemmas on parsing lookups and on finding the image on a path. *)
From Coq Require Import ZArith List Bool Lia Arith.
From Verif.Model Require Import Base Utf Image Node.
From Verif.Spec Require Import PathSpec Tree.
From Verif.Proofs Require Import ImageL NodeL UolL WalkL.

Lemma replace_cell h p n t m : m <> p -> replace_child h p n t m = h m.
Proof.
  intro H. unfold replace_child, node_at, insert_child. destruct (h p) as [c|]; [|reflexivity].
  destruct (slot_get (nd_slots c) n); [apply put_other, H|reflexivity].
Qed.
Lemma resolve_cell h im u h' m : resolve_uol h [im] (Some im) u = Ok h' ->
  (forall q n, sits h u q n -> m <> q) -> h' m = h m.
Proof.
  unfold resolve_uol. destruct (held u [im]); [discriminate|]. destruct (h u) as [c|] eqn:E; [|discriminate].
  destruct (upgrade h (nd_parent c)) as [p|] eqn:U; [|discriminate].
  assert (Hp : nd_parent c = Some p).
  { unfold upgrade in U. destruct (nd_parent c) as [q|]; [|discriminate]. destruct (h q); [|discriminate]. congruence. }
  intros R H. assert (Mp : m <> p) by (apply (H p (nd_name c)); exists c; auto). revert R.
  destruct (nd_kind c) as [| | | | |[tg|]|]; try (intros [= <-]; reflexivity).
  destruct (try_fold _ p (split_slash tg)) as [t|]; [|intros [= <-]; reflexivity].
  destruct (held p [im]) eqn:X; [apply held_in in X; destruct X as [->|[]]|]; intros [= <-]; apply replace_cell, Mp.
Qed.
Lemma resolve_all_cell im uols m : forall h h', resolve_all im uols (Ok h) = Ok h' ->
  (forall u q n, In u uols -> sits h u q n -> m <> q) -> h' m = h m.
Proof.
  induction uols as [|u uols IH]; intros h h' H N; [injection H as <-; reflexivity|].
  cbn [resolve_all fold_left rbind] in H. destruct (resolve_all_bad _ _ _ _ H) as [a A]. rewrite A in H.
  rewrite (IH _ _ H).
  - apply (resolve_cell _ _ _ _ _ A). intros q n. apply N. left. reflexivity.
  - intros v q n V K. apply (N v q n (or_intror V)). apply (sits_same _ _ _ _ _ (proj1 (resolve_frame _ _ _ _ A))). exact K.
Qed.

Lemma parse_settled load h i p h' : only_adds load -> links_inside load -> parse load h [] i p = Ok h' ->
  settled h' i /\ (forall m, settled h m -> h' m = h m).
Proof.
  intros A F. unfold parse. destruct (h i) as [c|] eqn:E; [|discriminate].
  assert (T : settled h i -> Ok h = Ok h' -> settled h' i /\ (forall m, settled h m -> h' m = h m)).
  { intros Z [= <-]. auto. }
  assert (P : ~ settled h i -> forall k, match k with KFile true | KMsFile true | KImage true | KDir true => True | _ => False end ->
     parse_as load h [] i p k = Ok h' -> settled h' i /\ (forall m, settled h m -> h' m = h m)).
  { intros U k Hk. unfold parse_as. destruct (load h p i) as [[[h1 kids] uols]|] eqn:L; [|discriminate].
    destruct (h1 i) as [c1|] eqn:E1; [|discriminate]. cbv zeta.
    set (h2 := put h1 i _). intro R. fold (resolve_all i uols (Ok h2)) in R. split.
    - destruct (resolve_all_frame _ _ _ _ R) as [S _]. specialize (S i). unfold h2 in S. rewrite put_same in S.
      destruct (h' i) as [c'|] eqn:E'; [|contradiction]. destruct S as (_ & K & _). cbn [nd_kind] in K.
      exists c'. split; [exact E'|]. rewrite K. destruct k as [b|b|b| |b| |]; try contradiction; destruct b; auto; contradiction.
    - intros m Sm. assert (Mi : m <> i) by (intros ->; contradiction).
      rewrite (resolve_all_cell _ _ m _ _ R).
      + unfold h2. rewrite put_other by exact Mi. destruct Sm as (cm & Em & _). rewrite Em. apply (A _ _ _ _ _ _ L _ _ Em).
      + intros u q n Iu Su ->. assert (S1 : sits h1 u q n).
        { destruct Su as (cu & Eu & Nu & Pu). unfold h2 in Eu. destruct (Z.eq_dec u i) as [->|Hu].
          - rewrite put_same in Eu. injection Eu as <-. cbn [nd_name nd_parent] in *. exists c1. auto.
          - rewrite put_other in Eu by exact Hu. exists cu. auto. }
        destruct (F _ _ _ _ _ _ L u q n Iu S1) as [->|Q]; [contradiction|]. destruct Sm as (cm & Em & _). congruence. }
  assert (Z : settled h i <-> match nd_kind c with
              | KFile b | KMsFile b | KImage b | KDir b => b = true | KMsImage => False | _ => True end).
  { split; [intros (c' & E' & Q); rewrite E in E'; injection E' as <-; exact Q|]. intro Q. exists c. auto. }
  destruct (nd_kind c) as [b|b|b| |b| |]; try destruct b;
    first [apply T; apply Z; exact I || reflexivity | apply P; [rewrite Z; easy|exact I]].
Qed.

Lemma parsed_fold_ok load : only_adds load -> links_inside load -> forall l h n h' j,
  parsed_fold load h n l = Ok (h', j) ->
  (forall m, settled h m -> h' m = h m) /\ try_fold (node_at h') n l = Some j.
Proof.
  intros A F. induction l as [|x l IH]; intros h n h' j H; cbn [parsed_fold] in H.
  - injection H as <- <-. split; [auto|reflexivity].
  - destruct (parse load h [] n n) as [h1| | |] eqn:P; try discriminate. cbn [rbind] in H.
    destruct (node_at h1 n x) as [m|] eqn:N; [|discriminate].
    destruct (parse_settled _ _ _ _ _ A F P) as [S1 K1]. destruct (IH _ _ _ _ H) as [K2 G]. split.
    + intros y Y. rewrite K2; [apply K1, Y|]. destruct Y as (c & E & Y). exists c. rewrite K1; [auto|]. exists c. auto.
    + cbn [try_fold]. unfold node_at at 1. rewrite (K2 n S1). unfold node_at in N. rewrite N. exact G.
Qed.

(** * Cutting at ".img" *)
Lemma starts_app pat s : starts pat s = true <-> exists y, s = pat ++ y.
Proof.
  revert s. induction pat as [|x pat IH]; intro s; cbn [starts app].
  - split; [eauto|reflexivity].
  - destruct s as [|y s]; [split; [discriminate|intros (z & [=])]|].
    rewrite andb_true_iff, IH, Z.eqb_eq. split.
    + intros [-> (z & ->)]. eauto.
    + intros (z & [= -> ->]). eauto.
Qed.
Lemma cut_some s : forall a b, cut_after dot_img s = Some (a, b) -> exists a', a = a' ++ dot_img /\ s = a ++ b /\ first_img a'.
Proof.
  induction s as [|x s IH]; intros a b; [discriminate|]. cbn [cut_after].
  destruct (starts dot_img (x :: s)) eqn:E.
  - intros [= <- <-]. apply starts_app in E as [y E]. cbn [dot_img app] in E. injection E as -> ->.
    exists []. split; [reflexivity|].
    split; [reflexivity|]. intros u v H. cbn [app] in H.
    assert (L := f_equal (@length Z) H). rewrite !app_length in L. cbn in L. destruct v; [reflexivity|cbn in L; lia].
  - destruct (cut_after dot_img s) as [[a1 b1]|] eqn:C; [|discriminate]. intros [= <- <-].
    destruct (IH _ _ eq_refl) as (a' & -> & -> & F). exists (x :: a'). split; [reflexivity|]. split; [reflexivity|].
    intros u v H. destruct u as [|w u].
    + exfalso. assert (starts dot_img (x :: (a' ++ dot_img) ++ b1) = true); [|congruence].
      apply starts_app. exists (v ++ b1). change (x :: (a' ++ dot_img) ++ b1) with (((x :: a') ++ dot_img) ++ b1).
      rewrite H. cbn [app]. reflexivity.
    + injection H as _ H. apply (F u v H).
Qed.
Lemma cut_none s : cut_after dot_img s = None <-> img_free s.
Proof.
  split.
  - induction s as [|x s IH]; intros H a b E; [destruct a; discriminate|]. cbn [cut_after] in H.
    destruct (starts dot_img (x :: s)) eqn:St; [discriminate|].
    destruct (cut_after dot_img s) as [[a1 b1]|] eqn:C; [discriminate|].
    destruct a as [|y a].
    + assert (starts dot_img (x :: s) = true) by (apply starts_app; exists b; exact E). congruence.
    + injection E as _ E. apply (IH eq_refl a b E).
  - intro F. destruct (cut_after dot_img s) as [[a b]|] eqn:C; [|reflexivity].
    destruct (cut_some _ _ _ C) as (a' & -> & -> & _). destruct (F a' b). rewrite <- app_assoc. reflexivity.
Qed.
Lemma cut_first a rest : first_img a -> cut_after dot_img (a ++ dot_img ++ rest) = Some (a ++ dot_img, rest).
Proof.
  intro F. destruct (cut_after dot_img (a ++ dot_img ++ rest)) as [[u v]|] eqn:C.
  - destruct (cut_some _ _ _ C) as (u' & -> & E & F').
    assert (H : a = u').
    2:{ subst u'. rewrite <- app_assoc in E. apply app_inv_head in E.
apply app_inv_head in E. subst v. reflexivity. }
    rewrite <- app_assoc in E.
    assert (P : forall (p q r t : text), p ++ r = q ++ t -> (length p <= length q)%nat -> exists z, q = p ++ z).
    { clear. induction p as [|x p IH]; intros q r t H L; [exists q; reflexivity|].
      destruct q as [|y q]; [cbn in L; lia|]. cbn [app length] in *. injection H as -> H.
      destruct (IH q r t H ltac:(lia)) as [z ->]. exists z. reflexivity. }
    assert (E2 : (a ++ dot_img) ++ rest = (u' ++ dot_img) ++ v) by (rewrite <- !app_assoc; exact E).
    destruct (Nat.le_ge_cases (length (a ++ dot_img)) (length (u' ++ dot_img))) as [L|L].
    + destruct (P _ _ _ _ E2 L) as [z Hz]. rewrite <- app_assoc in Hz. rewrite (F' a z Hz) in Hz.
      rewrite app_nil_r in Hz. apply app_inv_tail in Hz. congruence.
    + destruct (P _ _ _ _ (eq_sym E2) L) as [z Hz]. rewrite <- app_assoc in Hz. rewrite (F u' z Hz) in Hz.
      rewrite app_nil_r in Hz. apply app_inv_tail in Hz. exact Hz.
  - apply cut_none in C. destruct (C a rest eq_refl).
Qed.

Lemma image_found h n a rest : first_img a -> img_free rest -> 
  get_image_node_from_path h n (a ++ dot_img ++ 47 :: rest) =
  Ok (match at_path h n (a ++ dot_img) with Some t => Some (t, rest) | None => None end).
Proof.
  intros F R. unfold get_image_node_from_path. destruct (a ++ dot_img ++ 47 :: rest) eqn:E; [destruct a; discriminate|].
  rewrite <- E. clear E. fold dot_img. rewrite (cut_first _ _ F). cbv zeta.
  replace (cut_after dot_img (47 :: rest)) with (@None (text * text)).
  - destruct (at_path h n (a ++ dot_img)); reflexivity.
  - symmetry. apply cut_none. intros x y E. destruct x as [|w x]; [discriminate|]. injection E as _ E. apply (R x y E).
Qed.

Lemma joined_app a b : a <> [] -> b <> [] -> joined (a ++ b) = joined a ++ 47 :: joined b.
Proof.
  intros A B. induction a as [|x a IH]; [destruct (A eq_refl)|]. destruct a as [|y a].
  - cbn [app]. rewrite joined_cons by exact B. reflexivity.
  - cbn [app] in *. rewrite joined_cons by discriminate. rewrite (joined_cons x (y :: a)) by discriminate.
    rewrite IH by discriminate. rewrite <- app_assoc. reflexivity.
Qed.
Lemma skip_add {A} (a b : nat) (l : list A) : skipn (a + b) l = skipn b (skipn a l).
Proof. revert l. induction a as [|a IH]; intro l; [reflexivity|]. destruct l; cbn [Nat.add skipn]; [rewrite skipn_nil; reflexivity|apply IH]. Qed.
Lemma skip_comp (c s : text) : skipn (length c + 1) (c ++ 47 :: s) = s.
Proof.
  replace (length c + 1)%nat with (length (c ++ [47])) by (rewrite app_length; reflexivity).
  change (c ++ 47 :: s) with (c ++ [47] ++ s). rewrite app_assoc, skipn_app, skipn_all, Nat.sub_diag. reflexivity.
Qed.

Lemma on_way h path : forall before n m, plain_down h n before m -> forall c t rest at_, slot h m c t -> image_node h t ->
  rest <> [] -> plain (before ++ c :: rest) -> skipn at_ path = joined (before ++ c :: rest) ->
  image_on_way h n path at_ (before ++ c :: rest) = Ok (Some (t, joined rest)).
Proof.
  induction before as [|b before IH]; intros n m H c t rest at_ S (ct & bt & Et & Kt) Hr P E.
  - inversion H; subst. cbn [app image_on_way] in *. rewrite (slot_at _ _ _ _ S). cbv zeta. rewrite Et.
    unfold is_image. rewrite Kt. rewrite joined_cons in E by exact Hr.
    assert (L := f_equal (@length Z) E). rewrite skipn_length, app_length in L. cbn [length] in L.
    destruct (Nat.ltb_spec (length path) (at_ + (length c + 1))%nat) as [X|X]; [lia|].
    rewrite skip_add, E, skip_comp. reflexivity.
  - inversion H as [|? ? k ? ? Sk (ck & Ek & Nk) H']; subst. cbn [app image_on_way]. rewrite (slot_at _ _ _ _ Sk). cbv zeta.
    rewrite Ek. replace (is_image ck) with false.
    2:{ unfold is_image. destruct (nd_kind ck) eqn:Q; try reflexivity. destruct (Nk _ eq_refl). }
    cbn [app] in P. inversion_clear P as [|? ? Pb Pr].
    apply (IH k m H' c t rest _ S); [exists ct, bt; auto|exact Hr|exact Pr|].
    cbn [app] in E. rewrite joined_cons in E by (destruct before; discriminate).
    rewrite skip_add, E. apply skip_comp.
Qed.
