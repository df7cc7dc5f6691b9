(** JSON of node trees: lemmas. *)
From Coq Require Import ZArith List Bool Lia ZifyBool Permutation Sorted.
From Coq Require String Ascii.
From Verif.Model Require Import Base Utf Keys Reader WzStr Image Json.
From Verif.Spec Require Import PropWire JsonView.
From Verif.Proofs Require Import BaseL.
Import ListNotations. Import String.StringSyntax.
Open Scope Z_scope.

Lemma jnode_ind' (P : jnode -> Prop) :
  (forall nm o kids, Forall (fun kc => P (snd kc)) kids -> P (JNode nm o kids)) -> forall n, P n.
Proof.
  intro H. fix IH 1. intros [nm o kids]. apply H. induction kids as [|[k c] l IHl]; constructor; [apply IH|exact IHl].
Qed.

Lemma json_ind' (P : json -> Prop) :
  P VNull -> (forall b, P (VBool b)) -> (forall v, P (VInt v)) -> (forall v, P (VF32 v)) -> (forall v, P (VF64 v)) ->
  (forall t, P (VText t)) -> (forall l, Forall P l -> P (VArr l)) ->
  (forall m, Forall (fun kv => P (snd kv)) m -> P (VObj m)) -> forall j, P j.
Proof.
  intros H1 H2 H3 H4 H5 H6 H7 H8. fix IH 1.
  intros [|b|v|v|v|t|l|m]; [exact H1|apply H2|apply H3|apply H4|apply H5|apply H6| |].
  - apply H7. induction l as [|c l IHl]; constructor; [apply IH|exact IHl].
  - apply H8. induction m as [|[k c] l IHl]; constructor; [apply IH|exact IHl].
Qed.

(** ** Keys in order *)
Lemma cmp_refl a : text_cmp a a = Eq.
Proof. induction a as [|x a IH]; [reflexivity|]. cbn. rewrite Z.compare_refl. exact IH. Qed.
Lemma cmp_eq a b : text_cmp a b = Eq -> a = b.
Proof.
  revert b. induction a as [|x a IH]; intros [|y b] E; try discriminate; [reflexivity|]. cbn in E.
  destruct (Z.compare_spec x y); try discriminate. subst. f_equal. auto.
Qed.
Lemma cmp_flip a b : text_cmp b a = CompOpp (text_cmp a b).
Proof.
  revert b. induction a as [|x a IH]; intros [|y b]; try reflexivity. cbn. rewrite (Z.compare_antisym x y).
  destruct (x ?= y); cbn; [apply IH|reflexivity|reflexivity].
Qed.
Lemma cmp_trans a b c : text_cmp a b = Lt -> text_cmp b c = Lt -> text_cmp a c = Lt.
Proof.
  revert b c. induction a as [|x a IH]; intros [|y b] [|z c] E F; try discriminate; try reflexivity.
  cbn in *. destruct (Z.compare_spec x y); try discriminate; destruct (Z.compare_spec y z); try discriminate; subst.
  - rewrite Z.compare_refl. eauto.
  - destruct (Z.compare_spec y z); try lia. reflexivity.
  - destruct (Z.compare_spec x z); try lia. reflexivity.
  - destruct (Z.compare_spec x z); try lia. reflexivity.
Qed.
Lemma cmp_irrefl a : text_cmp a a = Lt -> False.
Proof. rewrite cmp_refl. discriminate. Qed.

Definition key_lt (a b : text * json) : Prop := text_cmp (fst a) (fst b) = Lt.
Notation sorted := (StronglySorted key_lt).

Lemma sorted_nodup m : sorted m -> NoDup (map fst m).
Proof.
  induction 1 as [|[k v] m Hm IH F]; cbn; constructor; [|assumption].
  intro I. apply in_map_iff in I. destruct I as ([k' v'] & E & I). cbn in E. subst.
  rewrite Forall_forall in F. apply F in I. red in I. cbn in I. rewrite cmp_refl in I. discriminate.
Qed.

Lemma jinsert_in m k v : sorted m -> forall k' v',
  In (k', v') (jinsert m k v) <-> (k' = k /\ v' = v) \/ (k' <> k /\ In (k', v') m).
Proof.
  induction 1 as [|[a x] m Hm IH F]; intros k' v'; cbn [jinsert].
  - cbn. split; [intros [E|[]]; injection E as <- <-; auto|]. intros [[-> ->]|[_ []]]. auto.
  - rewrite Forall_forall in F.
    assert (G : forall q w, In (q, w) m -> text_cmp a q = Lt) by (intros q w I; apply (F _ I)).
    destruct (text_cmp k a) eqn:E.
    + apply cmp_eq in E. subst a. cbn. split.
      * intros [Q|I]; [injection Q as <- <-; auto|]. right. split; [|auto]. intros ->. apply G in I. rewrite cmp_refl in I. discriminate.
      * intros [[-> ->]|[N [Q|I]]]; auto. injection Q as -> ->. congruence.
    + cbn. split.
      * intros [Q|[Q|I]]; [injection Q as <- <-; auto| |].
        -- injection Q as <- <-. right. split; [|auto]. intros ->. rewrite cmp_refl in E. discriminate.
        -- right. split; [|auto]. intros ->. apply G in I. pose proof (cmp_trans _ _ _ E I) as T. rewrite cmp_refl in T. discriminate.
      * intros [[-> ->]|[N [Q|I]]]; auto.
    + cbn. rewrite IH. split.
      * intros [Q|[[-> ->]|[N I]]]; auto. injection Q as <- <-. right. split; [|auto]. intros ->. rewrite cmp_refl in E. discriminate.
      * intros [[-> ->]|[N [Q|I]]]; auto.
Qed.

Lemma jinsert_sorted m k v : sorted m -> sorted (jinsert m k v).
Proof.
  induction 1 as [|[a x] m Hm IH F]; cbn [jinsert].
  - repeat constructor.
  - destruct (text_cmp k a) eqn:E.
    + apply cmp_eq in E. subst. constructor; [assumption|]. revert F. apply Forall_impl. intros [? ?] L. exact L.
    + constructor; [constructor; assumption|]. constructor; [exact E|]. revert F. apply Forall_impl. intros [q ?] L.
      red in L |- *. cbn in *. eapply cmp_trans; eassumption.
    + constructor; [assumption|]. apply Forall_forall. intros [q w] I. apply jinsert_in in I; [|assumption].
      destruct I as [[-> ->]|[_ I]]; [red; cbn; rewrite cmp_flip, E; reflexivity|].
      rewrite Forall_forall in F. apply F. assumption.
Qed.

Lemma sorted_ext m m' : sorted m -> sorted m' -> (forall k v, In (k, v) m <-> In (k, v) m') -> m = m'.
Proof.
  intro H. revert m'. induction H as [|[a x] m Hm IH F]; intros m' H' E.
  - destruct m' as [|[a x] m']; [reflexivity|]. exfalso. apply (E a x). left. reflexivity.
  - rewrite Forall_forall in F. destruct H' as [|[b y] m' Hm' F'].
    + exfalso. apply (E a x). left. reflexivity.
    + rewrite Forall_forall in F'.
      assert (Q : (a, x) = (b, y)).
      { destruct (proj1 (E a x)) as [Q|I]; [left; reflexivity|congruence|].
        destruct (proj2 (E b y)) as [Q|I']; [left; reflexivity|congruence|].
        exfalso. apply F' in I. apply F in I'. red in I, I'. cbn in I, I'. rewrite cmp_flip, I in I'. discriminate. }
      rewrite <- Q in *. injection Q as -> ->. f_equal. apply IH; [assumption|]. intros k v. specialize (E k v). cbn in E. split; intro I.
      * destruct (proj1 E) as [W|J]; auto. injection W as -> ->. apply F in I. destruct (cmp_irrefl _ I).
      * destruct (proj2 E) as [W|J]; auto. injection W as -> ->. apply F' in I. destruct (cmp_irrefl _ I).
Qed.

(** ** Inserting a list *)
Definition put (l m : list (text * json)) : list (text * json) :=
  fold_left (fun m kv => jinsert m (fst kv) (snd kv)) l m.
Lemma put_sorted l m : sorted m -> sorted (put l m).
Proof. revert m. induction l as [|[k v] l IH]; intros m H; [exact H|]. apply IH, jinsert_sorted, H. Qed.
Lemma put_in l : forall m, sorted m -> NoDup (map fst l) -> forall k v,
  In (k, v) (put l m) <-> In (k, v) l \/ (~ In k (map fst l) /\ In (k, v) m).
Proof.
  induction l as [|[a x] l IH]; intros m H N k v; cbn [put fold_left].
  - cbn. tauto.
  - apply NoDup_cons_iff in N. destruct N as [N D]. cbn [map fst snd] in *. fold (put l (jinsert m a x)).
    rewrite IH by (try apply jinsert_sorted; assumption). rewrite jinsert_in by assumption. cbn. split.
    + intros [I|[I [[-> ->]|[Q J]]]]; auto. right. split; [|auto]. intros [->|W]; auto.
    + intros [[Q|I]|[I J]]; auto.
      * injection Q as -> ->. right. split; auto.
      * right. split; [auto|]. right. split; [|auto]. intros ->. auto.
Qed.
Lemma put_perm l l' m : sorted m -> NoDup (map fst l) -> Permutation l l' -> put l m = put l' m.
Proof.
  intros H N P. pose proof (Permutation_map fst P) as Q.
  assert (N' : NoDup (map fst l')) by (eapply Permutation_NoDup; eassumption).
  apply sorted_ext; try apply put_sorted; auto. intros k v. rewrite !put_in by assumption.
  assert (A : In (k, v) l <-> In (k, v) l') by (split; apply Permutation_in; [|apply Permutation_sym]; assumption).
  assert (B : In k (map fst l) <-> In k (map fst l')) by (split; apply Permutation_in; [|apply Permutation_sym]; assumption).
  tauto.
Qed.
Lemma object_put l : jobject l = VObj (put l []).
Proof. reflexivity. Qed.
Lemma put_nil_entries l : NoDup (map fst l) -> entries (put l []) (fun k v => In (k, v) l).
Proof.
  intro N. split; [apply sorted_nodup, put_sorted; constructor|]. intros k v. rewrite put_in by (first [apply SSorted_nil | assumption]). cbn. tauto.
Qed.

(** ** The loop over the children *)
Section Loop.
  Context {A : Type} (f : A -> res json).
  Fixpoint loop (l : list (text * A)) (m : list (text * json)) {struct l} : res (list (text * json)) :=
    match l with
    | [] => Ok m
    | (k, c) :: r => rbind (f c) (fun v => loop r (jinsert m k v))
    end.
  Definition each (l : list (text * A)) (vs : list (text * json)) : Prop :=
    Forall2 (fun kc kv => fst kc = fst kv /\ f (snd kc) = Ok (snd kv)) l vs.
  Lemma loop_ok l : forall m m', loop l m = Ok m' -> exists vs, each l vs /\ m' = put vs m.
  Proof.
    induction l as [|[k c] l IH]; intros m m' E; cbn in E.
    - injection E as <-. exists []. split; [constructor|reflexivity].
    - destruct (f c) as [v| | |] eqn:F; try discriminate. cbn in E. apply IH in E. destruct E as (vs & G & ->).
      exists ((k, v) :: vs). split; [constructor; auto|reflexivity].
  Qed.
  Lemma loop_of l vs m : each l vs -> loop l m = Ok (put vs m).
  Proof.
    intro H. revert m. induction H as [|[k c] [k' v] l vs [E F] H IH]; intro m; [reflexivity|].
    cbn in *. subst. rewrite F. cbn. apply IH.
  Qed.
  Lemma each_keys l vs : each l vs -> map fst vs = map fst l.
  Proof. induction 1 as [|[k c] [k' v] l vs [E F] H IH]; [reflexivity|]. cbn in *. congruence. Qed.
  Lemma each_in l vs k v : each l vs -> In (k, v) vs -> exists c, In (k, c) l /\ f c = Ok v.
  Proof.
    induction 1 as [|[a c] [a' w] l vs [E F] H IH]; intros I; [destruct I|]. cbn in *. subst.
    destruct I as [Q|I]; [injection Q as <- <-; eauto|]. destruct (IH I) as (d & J & K). eauto.
  Qed.
  Lemma each_in_l l vs k c : each l vs -> In (k, c) l -> exists v, In (k, v) vs /\ f c = Ok v.
  Proof.
    induction 1 as [|[a d] [a' w] l vs [E F] H IH]; intros I; [destruct I|]. cbn in *. subst.
    destruct I as [Q|I]; [injection Q as <- <-; eauto|]. destruct (IH I) as (v & J & K). eauto.
  Qed.
  Lemma each_all l : (forall k c, In (k, c) l -> exists v, f c = Ok v) -> exists vs, each l vs.
  Proof.
    induction l as [|[k c] l IH]; intro H; [exists []; constructor|].
    destruct (H k c) as [v V]; [left; reflexivity|]. destruct IH as [vs W]; [intros; eapply H; right; eassumption|].
    exists ((k, v) :: vs). constructor; auto.
  Qed.
End Loop.

Lemma simple_inner nm o kids : kids <> [] ->
  simple_json (JNode nm o kids) = rmap VObj (loop simple_json kids (own_fields o)).
Proof. destruct kids; [congruence|reflexivity]. Qed.
Lemma to_json_eq nm o kids :
  to_json (JNode nm o kids) = rbind (obj_fields o) (fun fs =>
    rmap (fun cs => jobject ((txt "name", VText nm) :: fs ++ [(txt "children", VObj cs)])) (loop to_json kids [])).
Proof. reflexivity. Qed.

(** ** Simple JSON *)
Lemma below_distinct n k c : distinct n -> In (k, c) (jkids n) -> distinct c.
Proof. intros H I p m B. apply (H (k :: p)). econstructor; eassumption. Qed.

Lemma nodup2 (a b : text) : a <> b -> NoDup [a; b].
Proof. intro. repeat constructor; cbn; intuition. Qed.

Lemma put2 a x b y : a <> b -> sorted (put [(a, x); (b, y)] []) /\
  forall k v, In (k, v) (put [(a, x); (b, y)] []) <-> (k = a /\ v = x) \/ (k = b /\ v = y).
Proof.
  intro N. split; [apply put_sorted, SSorted_nil|]. intros k v. destruct (put_nil_entries [(a, x); (b, y)] (nodup2 a b N)) as [_ W].
  rewrite (W k v). cbn. split; [intros [Q|[Q|[]]]; injection Q as <- <-; auto|intros [[-> ->]|[-> ->]]; auto].
Qed.
Lemma own_extra o : sorted (own_fields o) /\ forall k v, In (k, v) (own_fields o) <-> extra o k v.
Proof.
  destruct o; cbn [own_fields]; try (split; [constructor|]; intros k0 v0; split; [intros []|intro X; inversion X]).
  - destruct (put2 (txt "duration") (VInt duration) (txt "sound_type") (VText (sound_type_name ty))) as [S W]; [discriminate|].
    split; [exact S|]. intros k v. rewrite (W k v). split.
    + intros [[-> ->]|[-> ->]]; [apply ex_duration|destruct ty; apply (ex_type duration)].
    + intro X. inversion X; subst; [left|right; destruct ty]; split; reflexivity.
  - destruct (put2 (txt "width") (VInt width) (txt "height") (VInt height)) as [S W]; [discriminate|].
    split; [exact S|]. intros k v. rewrite (W k v). split.
    + intros [[-> ->]|[-> ->]]; constructor.
    + intro X. inversion X; subst; auto.
Qed.
Lemma own_entries o : entries (own_fields o) (extra o).
Proof. destruct (own_extra o) as [S E]. split; [apply sorted_nodup; exact S|exact E]. Qed.

Lemma finite32_spec b : finite32 b = true <-> finite_single b.
Proof.
  unfold finite32, finite_single. rewrite Z.shiftr_div_pow2 by lia. change 255 with (Z.ones 8) at 1. rewrite Z.land_ones by lia.
  replace ((b mod 2 ^ 31) / 2 ^ 23) with ((b / 2 ^ 23) mod 2 ^ 8).
  - pose proof (Z.mod_pos_bound (b / 2 ^ 23) (2 ^ 8)). change (Z.ones 8) with 255. lia.
  - Z.div_mod_to_equations. lia.
Qed.
Lemma finite64_spec b : finite64 b = true <-> finite_double b.
Proof.
  unfold finite64, finite_double. rewrite Z.shiftr_div_pow2 by lia. change 2047 with (Z.ones 11) at 1. rewrite Z.land_ones by lia.
  replace ((b mod 2 ^ 63) / 2 ^ 52) with ((b / 2 ^ 52) mod 2 ^ 11).
  - pose proof (Z.mod_pos_bound (b / 2 ^ 52) (2 ^ 11)). change (Z.ones 11) with 2047. lia.
  - Z.div_mod_to_equations. lia.
Qed.
Lemma text_or_default_reads s t : text_or_default s = Ok t <-> reads_as s t.
Proof.
  destruct s; cbn; split; intro E; inversion E; subst; try constructor; reflexivity.
Qed.

Lemma leaf_plain o v : leaf_json o = Ok v -> plain o v.
Proof.
  destruct o; cbn [leaf_json]; intro E; try (injection E as <-; constructor; exact I); try (injection E as <-; constructor).
  - apply (own_entries (JSound duration ty)).
  - apply (own_entries (JPng width height)).
  - destruct (finite32 bits) eqn:F; [|discriminate]. injection E as <-. constructor. apply finite32_spec, F.
  - destruct (finite64 bits) eqn:F; [|discriminate]. injection E as <-. constructor. apply finite64_spec, F.
  - destruct (put2 (txt "x") (VInt x) (txt "y") (VInt y)) as [N W]; [discriminate|].
    split; [apply sorted_nodup; exact N|exact W].
  - destruct (text_or_default s) as [t| | |] eqn:T; try discriminate. injection E as <-. constructor. apply text_or_default_reads, T.
  - destruct (text_or_default s) as [t| | |] eqn:T; try discriminate. injection E as <-. constructor. apply text_or_default_reads, T.
Qed.

Lemma leaf_ok o : (exists v, leaf_json o = Ok v) <-> printable o.
Proof.
  destruct o; cbn [leaf_json printable]; try (split; [intros _; exact I|intros _; eexists; reflexivity]).
  - rewrite <- finite32_spec. destruct (finite32 bits); split; intro H; try reflexivity; try discriminate; [eexists; reflexivity|destruct H; discriminate].
  - rewrite <- finite64_spec. destruct (finite64 bits); split; intro H; try reflexivity; try discriminate; [eexists; reflexivity|destruct H; discriminate].
  - split; intros [t T].
    + destruct (text_or_default s) as [x| | |] eqn:Q; try discriminate. exists x. apply text_or_default_reads, Q.
    + exists (VText t). apply text_or_default_reads in T. rewrite T. reflexivity.
  - split; intros [t T].
    + destruct (text_or_default s) as [x| | |] eqn:Q; try discriminate. exists x. apply text_or_default_reads, Q.
    + exists (VText t). apply text_or_default_reads in T. rewrite T. reflexivity.
Qed.

Lemma rmap_ok {A B} (f : A -> B) x b : rmap f x = Ok b -> exists a, x = Ok a /\ b = f a.
Proof. destruct x; cbn; intro E; try discriminate. injection E as <-. eauto. Qed.

Lemma simple_pictures n j : distinct n -> simple_json n = Ok j -> pictures n j.
Proof.
  revert j. induction n as [nm o kids IH] using jnode_ind'. intros j D E.
  destruct kids as [|kc kids0]; [constructor; apply leaf_plain, E|].
  remember (kc :: kids0) as kids. assert (NE : kids <> []) by (subst; discriminate). clear kc kids0 Heqkids.
  rewrite simple_inner in E by exact NE. apply rmap_ok in E. destruct E as (m & E & ->).
  apply loop_ok in E. destruct E as (vs & Ev & ->). destruct (own_extra o) as [S X].
  pose proof (D [] _ (below_here _)) as N. cbn [jkids] in N.
  pose proof (each_keys _ _ _ Ev) as K.
  rewrite Forall_forall in IH.
  assert (W : forall k v, In (k, v) (put vs (own_fields o)) <-> In (k, v) vs \/ (~ In k (map fst kids) /\ extra o k v)).
  { intros k v. rewrite put_in by (rewrite ?K; assumption). rewrite K, X. reflexivity. }
  apply pic_inner.
  - exact NE.
  - apply sorted_nodup, put_sorted, S.
  - intros k c I. destruct (each_in_l _ _ _ k c Ev I) as (v & Iv & Sv). exists v. split; [apply W; auto|].
    apply (IH (k, c) I); [|exact Sv]. eapply below_distinct; [exact D|exact I].
  - intros k v H1 H2. apply W. auto.
  - intros k v I. apply W in I. destruct I as [I|[_ I]]; [|auto]. left. rewrite <- K. apply (in_map fst) in I. exact I.
Qed.

Lemma simple_total n : (exists j, simple_json n = Ok j) <->
  (forall p m, below n p m -> jkids m = [] -> printable (jthing m)).
Proof.
  induction n as [nm o kids IH] using jnode_ind'. rewrite Forall_forall in IH.
  destruct kids as [|kc kids0].
  - cbn [simple_json]. rewrite leaf_ok. split; [intros P p m B _|intro H; apply (H [] _ (below_here _) eq_refl)].
    inversion B; subst; [exact P|]. contradiction.
  - remember (kc :: kids0) as kids. assert (NE : kids <> []) by (subst; discriminate). clear kc kids0 Heqkids.
    rewrite simple_inner by exact NE. split.
    + intros [j E] p m B L. apply rmap_ok in E. destruct E as (x & E & _). apply loop_ok in E. destruct E as (vs & Ev & _).
      inversion B; subst; [cbn in L; congruence|]. cbn [jkids] in *. destruct (each_in_l _ _ _ k c Ev H) as (v & _ & V).
      exact (proj1 (IH _ H) (ex_intro _ v V) p0 m H0 L).
    + intro H. destruct (each_all simple_json kids) as [vs V].
      * intros k c I. apply (IH _ I). intros p m B L. apply (H (k :: p)); [econstructor; eassumption|exact L].
      * rewrite (loop_of _ _ _ _ V). eexists; reflexivity.
Qed.

(** ** Order of the children *)
Lemma reorder_inv nm o kids n' : reorder (JNode nm o kids) n' ->
  exists mid kids', n' = JNode nm o kids' /\ Permutation kids mid /\ reorder_kids mid kids'.
Proof. intro H. inversion H; subst. eauto. Qed.
Lemma reorder_kids_f2 l l' : reorder_kids l l' <-> Forall2 (fun a b => fst a = fst b /\ reorder (snd a) (snd b)) l l'.
Proof.
  split.
  - induction 1; constructor; auto.
  - induction 1 as [|[k c] [k' c'] l l' [E R] F IH]; [constructor|]. cbn in *. subst. constructor; auto.
Qed.

Lemma each_reorder f kids mid kids' vs :
  (forall k c c' v, In (k, c) kids -> reorder c c' -> f c = Ok v -> f c' = Ok v) ->
  Permutation kids mid -> reorder_kids mid kids' -> each f kids vs ->
  exists vs', each f kids' vs' /\ Permutation vs vs'.
Proof.
  intros H P R V.
  destruct (Permutation_Forall2 P V) as (vs' & Pv & V').
  exists vs'. split; [|exact Pv].
  assert (H' : forall k c c' v, In (k, c) mid -> reorder c c' -> f c = Ok v -> f c' = Ok v).
  { intros k c c' v I. apply (H k). eapply Permutation_in; [apply Permutation_sym; exact P|exact I]. }
  clear - H' R V'. revert vs' V'. induction R as [|k c c' l l' Rc Rl IH]; intros vs V; inversion V; subst; constructor.
  - destruct H1 as [E F]. split; [exact E|]. eapply H'; [left; reflexivity|exact Rc|exact F].
  - apply IH; [|assumption]. intros; eapply H'; [right; eassumption|eassumption|assumption].
Qed.

Lemma reorder_nil l mid : Permutation [] mid -> reorder_kids mid l -> l = [].
Proof. intros P R. apply Permutation_nil in P. subst. inversion R. reflexivity. Qed.
Lemma reorder_cons kids mid l : kids <> [] -> Permutation kids mid -> reorder_kids mid l -> l <> [].
Proof. intros N P R ->. inversion R; subst. apply Permutation_sym, Permutation_nil in P. congruence. Qed.

Lemma simple_reorder n n' j : distinct n -> reorder n n' -> simple_json n = Ok j -> simple_json n' = Ok j.
Proof.
  revert n' j. induction n as [nm o kids IH] using jnode_ind'. intros n' j D R E. rewrite Forall_forall in IH.
  apply reorder_inv in R. destruct R as (mid & kids' & -> & P & R).
  destruct kids as [|kc kids0]; [rewrite (reorder_nil _ _ P R); exact E|].
  remember (kc :: kids0) as kids. assert (NE : kids <> []) by (subst; discriminate). clear kc kids0 Heqkids.
  rewrite simple_inner in E by exact NE. apply rmap_ok in E. destruct E as (m & E & ->).
  apply loop_ok in E. destruct E as (vs & Ev & ->).
  destruct (each_reorder simple_json kids mid kids' vs) as (vs' & Ev' & Pv); auto.
  { intros k c c' v I Rc Sc. apply (IH _ I); auto. eapply below_distinct; [exact D|exact I]. }
  rewrite simple_inner by (eapply reorder_cons; eassumption). rewrite (loop_of _ _ _ _ Ev').
  rewrite (put_perm vs vs'); auto; [apply own_extra|].
  rewrite (each_keys _ _ _ Ev). apply (D [] _ (below_here _)).
Qed.
Lemma full_reorder n n' j : distinct n -> reorder n n' -> to_json n = Ok j -> to_json n' = Ok j.
Proof.
  revert n' j. induction n as [nm o kids IH] using jnode_ind'. intros n' j D R E. rewrite Forall_forall in IH.
  apply reorder_inv in R. destruct R as (mid & kids' & -> & P & R).
  rewrite to_json_eq in *. destruct (obj_fields o) as [fs| | |]; try discriminate. cbn [rbind] in *.
  apply rmap_ok in E. destruct E as (m & E & ->).
  apply loop_ok in E. destruct E as (vs & Ev & ->).
  destruct (each_reorder to_json kids mid kids' vs) as (vs' & Ev' & Pv); auto.
  { intros k c c' v I Rc Sc. apply (IH _ I); auto. eapply below_distinct; [exact D|exact I]. }
  rewrite (loop_of _ _ _ _ Ev').
  rewrite (put_perm vs vs'); auto; [constructor|].
  rewrite (each_keys _ _ _ Ev). apply (D [] _ (below_here _)).
Qed.
