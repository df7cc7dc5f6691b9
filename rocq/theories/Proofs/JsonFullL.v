(** The full JSON and reading it back: lemmas. *)
From Coq Require Import ZArith List Bool Lia ZifyBool Permutation Sorted.
From Coq Require String Ascii.
From Verif.Model Require Import Base Utf Keys Reader WzStr Image Json.
From Verif.Spec Require Import Wire Stream PropWire JsonView.
From Verif.Proofs Require Import BaseL KeysL StringL ReaderL ImageL JsonL.
Import ListNotations. Import String.StringSyntax.
Open Scope Z_scope.

Ltac nodup := repeat (constructor; [cbn [In map fst]; intuition discriminate|]); constructor.

Lemma entries_object l P : NoDup (map fst l) -> (forall k v, In (k, v) l <-> P k v) -> entries (put l []) P.
Proof.
  intros N H. destruct (put_nil_entries l N) as [A B]. split; [exact A|]. intros k v. rewrite B. apply H.
Qed.

Lemma in_cons_pair (k a : text) (v x : json) l : In (k, v) ((a, x) :: l) <-> (k = a /\ v = x) \/ In (k, v) l.
Proof. cbn. split; (intros [H|H]; [left|right; exact H]); [injection H as <- <-; auto|destruct H; subst; reflexivity]. Qed.

Definition dfields (o : jobj) (d : option json) : list (text * json) :=
  (txt "type", VText (kind_word o)) :: match d with Some v => [(txt "data", v)] | None => [] end.

Lemma fields_payload o fs : obj_fields o = Ok fs -> exists d, payload o d /\ fs = dfields o d.
Proof.
  assert (U : forall x, payload o (Some x) -> Ok fs = Ok [(txt "type", VText (kind_word o)); (txt "data", x)] ->
    exists d, payload o d /\ fs = dfields o d).
  { intros x P E. injection E as E. exists (Some x). auto. }
  assert (U0 : payload o None -> Ok fs = Ok [(txt "type", VText (kind_word o))] -> exists d, payload o d /\ fs = dfields o d).
  { intros P E. injection E as E. exists None. auto. }
  destruct o; cbn [obj_fields]; intro E; try discriminate.
  - eapply U; [|symmetry; exact E]. apply pay_file. apply entries_object; [nodup|].
    intros k v. rewrite !in_cons_pair. cbn [In]. tauto.
  - eapply U; [|symmetry; exact E]. apply pay_ms. apply entries_object; [nodup|].
    intros k v. rewrite !in_cons_pair. cbn [In]. tauto.
  - eapply U; [|symmetry; exact E]. apply pay_empty; auto.
  - eapply U; [|symmetry; exact E]. apply pay_empty; auto.
  - eapply U; [|symmetry; exact E]. apply pay_empty; auto.
  - apply U0; [apply pay_none; auto|symmetry; exact E].
  - apply U0; [apply pay_none; auto|symmetry; exact E].
  - eapply U; [|symmetry; exact E]. apply pay_fields; [right; eauto|]. apply (own_entries (JSound duration ty)).
  - eapply U; [|symmetry; exact E]. apply pay_fields; [left; eauto|]. apply (own_entries (JPng width height)).
  - eapply U; [|symmetry; exact E]. apply pay_plain; try discriminate. constructor.
  - eapply U; [|symmetry; exact E]. apply pay_plain; try discriminate. constructor.
  - eapply U; [|symmetry; exact E]. apply pay_plain; try discriminate. constructor.
  - eapply U; [|symmetry; exact E]. destruct (finite32 bits) eqn:F.
    + apply pay_plain; try discriminate. constructor. apply finite32_spec, F.
    + apply pay_single. rewrite <- finite32_spec, F. discriminate.
  - eapply U; [|symmetry; exact E]. destruct (finite64 bits) eqn:F.
    + apply pay_plain; try discriminate. constructor. apply finite64_spec, F.
    + apply pay_double. rewrite <- finite64_spec, F. discriminate.
  - eapply U; [|symmetry; exact E]. apply pay_pair.
  - destruct (text_or_default s) as [t| | |] eqn:T; try discriminate. cbn [rbind] in E.
    eapply U; [|symmetry; exact E]. apply pay_plain; try discriminate. constructor. apply text_or_default_reads, T.
  - destruct (text_or_default s) as [t| | |] eqn:T; try discriminate. cbn [rbind] in E.
    eapply U; [|symmetry; exact E]. apply pay_plain; try discriminate. constructor. apply text_or_default_reads, T.
  - eapply U; [|symmetry; exact E]. apply pay_plain; try discriminate. constructor.
  - apply U0; [apply pay_none; auto|symmetry; exact E].
Qed.

(** What can be written out at all. *)
Definition writable (o : jobj) : Prop :=
  match o with
  | JRaw | JVideo | JLua => False
  | JUol s | JStr s => exists t, reads_as s t
  | _ => True
  end.
Lemma fields_ok o : (exists fs, obj_fields o = Ok fs) <-> writable o.
Proof.
  destruct o; cbn [obj_fields writable]; try (split; [intros _; exact I|intros _; eexists; reflexivity]);
    try (split; [intros [? ?]; discriminate|intros []]).
  all: split; intros [t T]; [destruct (text_or_default s) as [x| | |] eqn:Q; try discriminate; exists x; apply text_or_default_reads, Q|];
    apply text_or_default_reads in T; rewrite T; eexists; reflexivity.
Qed.

Lemma node_keys nm o d cs :
  NoDup (map fst ((txt "name", VText nm) :: dfields o d ++ [(txt "children", VObj cs)])).
Proof. unfold dfields. destruct d; cbn [app map fst]; nodup. Qed.

Lemma to_json_ok nm o kids j : to_json (JNode nm o kids) = Ok j ->
  exists d vs, obj_fields o = Ok (dfields o d) /\ payload o d /\ each to_json kids vs /\
    j = VObj (put ((txt "name", VText nm) :: dfields o d ++ [(txt "children", VObj (put vs []))]) []).
Proof.
  rewrite to_json_eq. intro E. destruct (obj_fields o) as [fs| | |] eqn:F; try discriminate. cbn [rbind] in E.
  apply rmap_ok in E. destruct E as (cs & L & ->). apply loop_ok in L. destruct L as (vs & V & ->).
  destruct (fields_payload _ _ F) as (d & P & ->). exists d, vs. auto.
Qed.

Lemma full_records n j : distinct n -> to_json n = Ok j -> records n j.
Proof.
  revert j. induction n as [nm o kids IH] using jnode_ind'. intros j D E. rewrite Forall_forall in IH.
  apply to_json_ok in E. destruct E as (d & vs & _ & P & V & ->).
  pose proof (each_keys _ _ _ V) as K. pose proof (D [] _ (below_here _)) as N. cbn [jkids] in N.
  destruct (put_nil_entries vs) as [Nv Iv]; [rewrite K; exact N|].
  apply rec_node with (d := d) (cm := put vs []).
  - apply entries_object; [apply node_keys|]. intros k v. unfold dfields. destruct d; cbn [app].
    + rewrite !in_cons_pair. cbn [In]. split; [intuition; subst; auto|].
      intros [A|[A|[[A B]|A]]]; try tauto. injection B as ->. tauto.
    + rewrite !in_cons_pair. cbn [In]. split; [intuition|]. intros [A|[A|[[A B]|A]]]; try tauto. discriminate.
  - exact P.
  - exact Nv.
  - intros k I. rewrite <- K. apply in_map_iff in I. destruct I as ([k' v] & Q & I). cbn in Q. subst k'. apply Iv in I. apply (in_map fst) in I. exact I.
  - intros k c I. destruct (each_in_l _ _ _ _ _ V I) as (v & J & T). exists v. split; [apply Iv, J|].
    apply (IH _ I); [|exact T]. eapply below_distinct; [exact D|exact I].
Qed.

Lemma full_total n : (exists j, to_json n = Ok j) <-> (forall p m, below n p m -> writable (jthing m)).
Proof.
  induction n as [nm o kids IH] using jnode_ind'. rewrite Forall_forall in IH. split.
  - intros [j E]. apply to_json_ok in E. destruct E as (d & vs & F & _ & V & _). intros p m B.
    inversion B; subst; [apply fields_ok; eauto|]. cbn [jkids] in *.
    destruct (each_in_l _ _ _ _ _ V H) as (v & _ & T). exact (proj1 (IH _ H) (ex_intro _ v T) _ _ H0).
  - intro H. destruct (proj2 (fields_ok o) (H [] _ (below_here _))) as [fs F].
    destruct (each_all to_json kids) as [vs V].
    + intros k c I. apply (IH _ I). intros p m B. apply (H (k :: p)). econstructor; eassumption.
    + rewrite to_json_eq, F. cbn [rbind]. rewrite (loop_of _ _ _ _ V). eexists; reflexivity.
Qed.

(** ** Reading back *)
Lemma field_in m k v : NoDup (map fst m) -> In (k, v) m -> field m k = Some v.
Proof.
  induction m as [|[a x] m IH]; intros N I; [destruct I|]. cbn in *. apply NoDup_cons_iff in N. destruct N as [N D].
  destruct (text_eqb a k) eqn:E.
  - apply text_eqb_eq in E. subst. destruct I as [Q|I]; [congruence|]. apply (in_map fst) in I. contradiction.
  - destruct I as [Q|I]; [injection Q as -> ->; rewrite text_eqb_refl in E; discriminate|]. auto.
Qed.
Lemma field_none m k : ~ In k (map fst m) -> field m k = None.
Proof.
  induction m as [|[a x] m IH]; intro N; [reflexivity|]. cbn in *. destruct (text_eqb a k) eqn:E; [apply text_eqb_eq in E; tauto|]. tauto.
Qed.
Lemma field_put l k : NoDup (map fst l) -> field (put l []) k = field l k.
Proof.
  intro N. destruct (put_nil_entries l N) as [A B].
  destruct (in_dec (list_eq_dec Z.eq_dec) k (map fst l)) as [I|I].
  - apply in_map_iff in I. destruct I as ([k' v] & Q & I). cbn in Q. subst k'. rewrite (field_in l k v N I). apply field_in; [exact A|]. apply B, I.
  - rewrite (field_none l k I). apply field_none. intro J. apply I. apply in_map_iff in J. destruct J as ([k' v] & Q & J). cbn in Q. subst k'.
    apply B in J. apply (in_map fst) in J. exact J.
Qed.

Section Back.
  Variables (aes : list Z -> list Z) (to32 to64 : json -> Z).
  Notation from_json := (from_json aes to32 to64).
  Notation obj_of := (obj_of aes to32 to64).

  Definition obj_td (t : text) (d : option json) : option jobj :=
    match main_of t d with
    | Some o => Some o
    | None => match sub_of t d with Some o => Some o | None => value_of aes to32 to64 t d end
    end.
  Lemma obj_of_fields m t d : field m (txt "type") = Some (VText t) -> field m (txt "data") = d -> obj_of m = obj_td t d.
  Proof. intros E <-. unfold Json.obj_of. rewrite E. reflexivity. Qed.

  Fixpoint from_kids (l : list (text * json)) : option (list (text * jnode)) :=
    match l with
    | [] => Some []
    | (k, v) :: r => obind (from_json v) (fun n => obind (from_kids r) (fun ns => Some ((k, n) :: ns)))
    end.
  Lemma from_json_eq m : from_json (VObj m) =
    obind (need m (txt "name") get_text) (fun name =>
    obind (match field m (txt "children") with Some (VObj cm) => from_kids cm | _ => None end) (fun ns =>
    obind (obj_of m) (fun o => Some (JNode name o ns)))).
  Proof.
    cbn [Json.from_json]. destruct (need m (txt "name") get_text) as [name|]; [|reflexivity]. cbn [obind].
    assert (F : forall l, (fix find (l : list (text * json)) : option (list (text * jnode)) :=
                match l with
                | [] => None
                | (k, c) :: r =>
                  if text_eqb k (txt "children") then
                    match c with
                    | VObj cm => from_kids cm
                    | _ => None
                    end
                  else find r
                end) l = match field l (txt "children") with Some (VObj cm) => from_kids cm | _ => None end).
    { induction l as [|[k c] r IH]; [reflexivity|]. cbn [field]. destruct (text_eqb k (txt "children")); [destruct c; reflexivity|exact IH]. }
    rewrite <- F. reflexivity.
  Qed.

  Lemma from_kids_of l ns : Forall2 (fun kv kn => fst kv = fst kn /\ from_json (snd kv) = Some (snd kn)) l ns -> from_kids l = Some ns.
  Proof. induction 1 as [|[k v] [k' n] l ns [E F] H IH]; [reflexivity|]. cbn in *. subst. rewrite F, IH. reflexivity. Qed.

  Lemma get_int_in lo hi v : within lo hi v -> get_int lo hi (VInt v) = Some v.
  Proof. unfold within, get_int. intro H. replace ((lo <=? v) && (v <? hi)) with true by lia. reflexivity. Qed.

  Lemma text_back t : block_cipher aes -> Forall (fun c => 0 <= c < 0xD800 \/ 0xE000 <= c < 0x10000) t ->
    Z.of_nat (length t) < 2 ^ 31 -> get_wz_string aes (VText t) = Some (Ok t).
  Proof.
    intros A B L. unfold get_wz_string. cbn [get_text obind]. rewrite from_str_roundtrip; [reflexivity|exact A|reflexivity| | |exact L].
    - repeat constructor; lia.
    - revert B. apply Forall_impl. unfold is_scalar. intros; split; lia.
  Qed.

  Lemma obj_back o d : block_cipher aes -> typed o -> portable o -> obj_fields o = Ok (dfields o d) -> obj_td (kind_word o) d = Some o.
  Proof.
    intros A T P E.
    assert (G : forall x, obj_fields o = Ok [(txt "type", VText (kind_word o)); (txt "data", x)] -> d = Some x).
    { intros x F. rewrite F in E. injection E as E. destruct d; [injection E as ->; reflexivity|discriminate]. }
    assert (G0 : obj_fields o = Ok [(txt "type", VText (kind_word o))] -> d = None).
    { intro F. rewrite F in E. injection E as E. destruct d; [discriminate|reflexivity]. }
    clear E. destruct o; cbn [typed portable] in T, P; try contradiction; cbn [obj_fields] in G, G0.
    - erewrite (G _ eq_refl). clear G G0. destruct T as (T1 & T2 & T3).
      cbv -[get_int get_i32 get_u32 get_usize get_u8 Z.opp Z.pow]. unfold get_i32, get_usize. rewrite !get_int_in by assumption. reflexivity.
    - erewrite (G _ eq_refl). clear G G0. destruct T as (T1 & T2 & T3 & T4 & T5 & T6).
      cbv -[get_int get_i32 get_u32 get_usize get_u8 Z.opp Z.pow]. unfold get_i32, get_usize, get_u8. rewrite !get_int_in by assumption. reflexivity.
    - erewrite (G _ eq_refl). reflexivity.
    - erewrite (G _ eq_refl). reflexivity.
    - erewrite (G _ eq_refl). reflexivity.
    - rewrite (G0 eq_refl). reflexivity.
    - rewrite (G0 eq_refl). reflexivity.
    - erewrite (G _ eq_refl). clear G G0. cbv -[get_int get_i32 get_u32 get_usize get_u8 Z.opp Z.pow]. unfold get_u32. rewrite get_int_in by assumption. destruct ty; reflexivity.
    - erewrite (G _ eq_refl). clear G G0. destruct T. cbv -[get_int get_i32 get_u32 get_usize get_u8 Z.opp Z.pow]. unfold get_u32. rewrite !get_int_in by assumption. reflexivity.
    - erewrite (G _ eq_refl). cbv -[get_int get_i32 get_u32 get_usize get_u8 Z.opp Z.pow]. rewrite get_int_in by assumption. reflexivity.
    - erewrite (G _ eq_refl). cbv -[get_int get_i32 get_u32 get_usize get_u8 Z.opp Z.pow]. rewrite get_int_in by assumption. reflexivity.
    - erewrite (G _ eq_refl). cbv -[get_int get_i32 get_u32 get_usize get_u8 Z.opp Z.pow]. rewrite get_int_in by assumption. reflexivity.
    - apply finite32_spec in P. rewrite P in G. erewrite (G _ eq_refl). reflexivity.
    - apply finite64_spec in P. rewrite P in G. erewrite (G _ eq_refl). reflexivity.
    - erewrite (G _ eq_refl). destruct T. cbv -[get_int get_i32 get_u32 get_usize get_u8 Z.opp Z.pow]. unfold get_i32. rewrite !get_int_in by assumption. reflexivity.
    - destruct P as (t & -> & B & L). erewrite (G _ eq_refl). cbv -[get_wz_string]. rewrite text_back by assumption. reflexivity.
    - destruct P as (t & -> & B & L). erewrite (G _ eq_refl). cbv -[get_wz_string]. rewrite text_back by assumption. reflexivity.
    - erewrite (G _ eq_refl). reflexivity.
  Qed.

  Lemma roundtrip n : block_cipher aes -> distinct n ->
    (forall p m, below n p m -> typed (jthing m) /\ portable (jthing m)) ->
    exists j n', to_json n = Ok j /\ from_json j = Some n' /\ reorder n n'.
  Proof.
    intro A. induction n as [nm o kids IH] using jnode_ind'. intros D H. rewrite Forall_forall in IH.
    destruct (H [] _ (below_here _)) as [T P]. cbn [jthing] in T, P.
    assert (W : exists fs, obj_fields o = Ok fs).
    { apply fields_ok. destruct o; cbn in *; auto; destruct P as (t & -> & _); eexists; constructor. }
    destruct W as [fs F]. destruct (fields_payload _ _ F) as (d & _ & ->).
    assert (K : forall k c, In (k, c) kids -> exists j c', to_json c = Ok j /\ from_json j = Some c' /\ reorder c c').
    { intros k c I. apply (IH _ I).
      - eapply below_distinct; [exact D|exact I].
      - intros p m B. apply (H (k :: p)). econstructor; [exact I|exact B]. }
    destruct (each_all to_json kids) as [vs V]; [intros k c I; destruct (K k c I) as (j & _ & J & _); eauto|].
    pose proof (each_keys _ _ _ V) as Ks. pose proof (D [] _ (below_here _)) as N. cbn [jkids] in N. rewrite <- Ks in N.
    destruct (put_nil_entries vs N) as [Nv Iv].
    assert (Pv : Permutation vs (put vs [])).
    { apply NoDup_Permutation; [eapply NoDup_map_inv; exact N|eapply NoDup_map_inv; exact Nv|]. intros [k v]. symmetry. apply Iv. }
    assert (V' : Forall2 (fun kv kc => fst kc = fst kv /\ to_json (snd kc) = Ok (snd kv)) vs kids).
    { clear - V. induction V; constructor; auto. }
    destruct (Permutation_Forall2 Pv V') as (mid & Pm & Vm).
    assert (B : exists kids', from_kids (put vs []) = Some kids' /\ reorder_kids mid kids').
    { assert (K' : forall k c, In (k, c) mid -> exists j c', to_json c = Ok j /\ from_json j = Some c' /\ reorder c c').
      { intros k c I. apply (K k). eapply Permutation_in; [apply Permutation_sym; exact Pm|exact I]. }
      clear - Vm K'. induction Vm as [|[k v] [k' c] l m [E F] V IH].
      - exists []. split; [reflexivity|constructor].
      - cbn in E, F. subst k'. destruct IH as (kids' & I1 & I2); [intros; eapply K'; right; eassumption|].
        destruct (K' k c) as (j & c' & J1 & J2 & J3); [left; reflexivity|]. rewrite F in J1. injection J1 as ->.
        exists ((k, c') :: kids'). cbn [from_kids]. rewrite J2, I1. split; [reflexivity|constructor; assumption]. }
    destruct B as (kids' & B1 & B2).
    exists (jobject ((txt "name", VText nm) :: dfields o d ++ [(txt "children", VObj (put vs []))])), (JNode nm o kids').
    split; [rewrite to_json_eq, F; cbn [rbind]; rewrite (loop_of _ _ _ _ V); reflexivity|].
    split; [|econstructor; eassumption].
    rewrite object_put, from_json_eq. unfold need.
    pose proof (node_keys nm o d (put vs [])) as Nk. rewrite !field_put by exact Nk.
    rewrite (obj_of_fields _ (kind_word o) d); [|rewrite field_put by exact Nk; destruct d; reflexivity..].
    rewrite (obj_back o d) by assumption.
    unfold dfields. destruct d; cbn [app field]; cbn; rewrite B1; reflexivity.
  Qed.
End Back.
