(** Lemmas on packages whose images have links. *)
From Coq Require Import ZArith List Bool Lia Arith ZifyBool ZifyNat.
From Verif.Model Require Import Base Utf Keys Reader Header Offset VersionPkg2 Directory Image Media Guess File Node Ms World.
From Verif.Spec Require Import Wire StrWire Version PropWire PropView DirWire DirView PathSpec Tree Whole Linked WholeLinks.
From Verif.Proofs Require Import BaseL AtL ImageL NodeL UolL WorldL WalkWL LinkedL.
Import ListNotations.
Open Scope Z_scope.

(** * Walking over what has been read *)
Inductive passes (w : world) : id -> list text -> option id -> Prop :=
| passes_end i : passes w i [] (Some i)
| passes_on i c n j rest o : w_heap w i = Some c -> unread (nd_kind c) = false -> node_at (w_heap w) i n = Some j -> passes w j rest o ->
    passes w i (n :: rest) o
| passes_not i c n rest : w_heap w i = Some c -> unread (nd_kind c) = false -> node_at (w_heap w) i n = None -> passes w i (n :: rest) None.
Lemma passes_fold w i comps o : passes w i comps o -> forall st bl f,
  try_fold (node_at (w_heap w)) i comps = o /\ w_fold st bl f w i comps = (match o with Some j => Ok j | None => Err ENotFound end, w).
Proof.
  induction 1 as [i|i c n j rest o H U G _ IH|i c n rest H U G]; intros st bl f; cbn [try_fold w_fold]; [auto| |].
  - unfold w_parse. rewrite H, U, G. cbn [negb]. apply IH.
  - unfold w_parse. rewrite H, U, G. auto.
Qed.

Lemma passes_det w i c o o' : passes w i c o -> passes w i c o' -> o = o'.
Proof.
  intros P Q. destruct (passes_fold _ _ _ _ P (fun _ _ => 0) (fun _ _ _ => []) 0%nat) as [<- _].
  destruct (passes_fold _ _ _ _ Q (fun _ _ => 0) (fun _ _ _ => []) 0%nat) as [<- _]. reflexivity.
Qed.

(** Going up by names. *)
Inductive above (h : heap) (i : id) : list text -> id -> Prop :=
| above_here c : h i = Some c -> above h i [] i
| above_on P n j k : above h i P k -> child_of h n j k -> above h i (P ++ [n]) j.
Lemma above_alive h i P j : above h i P j -> exists c, h j = Some c.
Proof. intros [c H|P' n j' k _ [(c & H & _) _]]; eauto. Qed.
Lemma above_join h a i j P Q : above h a P i -> above h i Q j -> above h a (P ++ Q) j.
Proof. intros A B. induction B as [c H|Q n j k _ IH C]; [rewrite app_nil_r; exact A|]. rewrite app_assoc. econstructor; eassumption. Qed.
Lemma above_up h r : rootless h r -> forall p i, above h r p i -> forall fuel c cr s, (length p < fuel)%nat ->
  h i = Some c -> h r = Some cr -> full_path_up fuel h (Some i) s = Ok (joined (nd_name cr :: p) ++ 47 :: s).
Proof.
  intro R. induction 1 as [c0 E|p n i j H IH C]; intros fuel c cr s Hf Ec Er.
  - destruct fuel as [|f]; [cbn in Hf; lia|]. cbn [full_path_up]. rewrite Ec. rewrite Ec in Er. injection Er as <-.
    rewrite (upgrade_root _ _ _ R Ec). destruct f; reflexivity.
  - destruct fuel as [|f]; [lia|]. cbn [full_path_up]. rewrite Ec. destruct (upgrade_child _ _ _ _ _ C Ec) as [-> ->].
    destruct (above_alive _ _ _ _ H) as [cj Ej]. rewrite (IH f cj cr _ ltac:(rewrite app_length in Hf; cbn in Hf; lia) Ej Er).
    f_equal. change (nd_name cr :: p ++ [n]) with ((nd_name cr :: p) ++ [n]). rewrite joined_snoc by discriminate. rewrite <- app_assoc. reflexivity.
Qed.
Lemma above_path h r p i cr : rootless h r -> above h r p i -> h r = Some cr ->
  forall fuel, (length p <= fuel)%nat -> get_full_path fuel h i = Ok (joined (nd_name cr :: p)).
Proof.
  intros R H Er fuel Hf. unfold get_full_path. destruct H as [c0 E|p n i j H C].
  - rewrite E. rewrite E in Er. injection Er as <-. rewrite (upgrade_root _ _ _ R E). destruct fuel; reflexivity.
  - destruct (proj1 C) as (c & E & N & P). rewrite E. destruct (upgrade_child _ _ _ _ _ C E) as [-> ->]. destruct (above_alive _ _ _ _ H) as [cj Ej].
    rewrite (above_up _ _ R _ _ H fuel cj cr n ltac:(rewrite app_length in Hf; cbn in Hf; lia) Ej Er).
    change (nd_name cr :: p ++ [n]) with ((nd_name cr :: p) ++ [n]). rewrite joined_snoc by discriminate. reflexivity.
Qed.
Lemma hangs_above h i P j : hangs h i P j -> above h i P j.
Proof. induction 1 as [c H|P n j k _ IH _ C _]; [econstructor; exact H|econstructor; eassumption]. Qed.

(** Going up from [j] to [i], past nodes that are neither images nor files. *)
Inductive within (h : heap) (i : id) : id -> Prop :=
| within_first n j : child_of h n j i -> within h i j
| within_more n j k c : child_of h n j k -> h k = Some c -> unread (nd_kind c) = false -> (forall b, nd_kind c <> KImage b /\ nd_kind c <> KFile b) ->
    within h i k -> within h i j.

(** * Resolving links touches only the nodes that have them *)
Lemma resolve_uol_cells h im u h' j : resolve_uol h [im] (Some im) u = Ok h' -> (forall c, h u = Some c -> nd_parent c <> Some j) -> h' j = h j.
Proof.
  unfold resolve_uol. destruct (held u [im]); [discriminate|]. destruct (h u) as [c|]; [|discriminate]. intros R N. specialize (N c eq_refl).
  destruct (upgrade h (nd_parent c)) as [p|] eqn:E; [|discriminate].
  assert (P : p <> j). { unfold upgrade in E. destruct (nd_parent c) as [q|]; [|discriminate]. destruct (h q); [|discriminate]. congruence. }
  assert (X : forall t, replace_child h p (nd_name c) t j = h j).
  { intro t. unfold replace_child. destruct (node_at h p (nd_name c)); [|reflexivity]. unfold insert_child. destruct (h p); [|reflexivity].
    unfold put. replace (j =? p) with false by lia. reflexivity. }
  destruct (nd_kind c) as [| | | | |[tg|]|]; try (injection R as <-; reflexivity).
  destruct (try_fold _ p (split_slash tg)) as [t|]; [|injection R as <-; reflexivity].
  destruct (held p [im]) eqn:H; injection R as <-; [|apply X]. apply held_in in H. destruct H as [->|[]]. apply X.
Qed.
Lemma resolve_all_cells im us : forall h h' j, resolve_all im us (Ok h) = Ok h' -> (forall u c, In u us -> h u = Some c -> nd_parent c <> Some j) -> h' j = h j.
Proof.
  induction us as [|u us IH]; intros h h' j H N; [injection H as <-; reflexivity|].
  cbn [resolve_all fold_left rbind] in H. destruct (resolve_all_bad _ _ _ _ H) as [a A]. rewrite A in H.
  destruct (resolve_frame _ _ _ _ A) as [S1 _]. rewrite (IH _ _ j H).
  - eapply resolve_uol_cells; [exact A|]. intros c E. apply (N u c); [left; reflexivity|exact E].
  - intros v c V E. specialize (S1 v). rewrite E in S1. destruct (h v) as [d|] eqn:Ev; [|contradiction]. destruct S1 as (_ & _ & ->).
    apply (N v d); [right; exact V|exact Ev].
Qed.

(** * The image with its links resolved, step by step *)
Section raw.
  Variable w : world.
  Variable r : rd.
  Variable i : id.
  Variables (kids : list (text * node)) (l : list (text * id)) (props : list (list Z * prop)) (us0 : list id) (lo : Z).
  Variables (nm0 : text) (p0 : option id).
  Local Notation h := (w_heap w).
  Hypothesis Hi : h i = Some (mkCell nm0 (KImage true) p0 (filled l)).
  Hypothesis Hl : rpl w r i kids l.
  Hypothesis Hs : shows_kids r kids props.
  Hypothesis Ti : forall o, w_thing w i <> ThProp r o.
  Hypothesis Ty : tidy props.
  Hypothesis Hu : forall u, In u us0 <-> lo <= u < w_next w /\ uol_at w r u.
  Hypothesis Hr : forall n j p name, rp w r n j p name -> lo <= j < w_next w.
  Variable w3 : world.
  Hypothesis Fin : stage w i props us0 (w_heap w3).

  Lemma cell_read P pl j : leads (PlImage props) P pl -> hangs h i P j -> exists c, w_heap w3 j = Some c /\ unread (nd_kind c) = false.
  Proof.
    intros L H. destruct (stands_read w r i kids l props nm0 p0 Hi Hl Hs _ _ (place_here w r i kids l props nm0 p0 Hi Hl Hs Ty _ _ _ L H)) as (name & k & p & l' & ks' & ps' & E & U & _).
    destruct (sg_like _ _ _ _ _ Fin _ _ E) as (c' & E' & _ & K & _). exists c'. split; [exact E'|]. rewrite K. exact U.
  Qed.
  Lemma follow_passes P comps Q : follows props P comps Q -> forall j pl, leads (PlImage props) P pl -> hangs h i P j ->
    exists q z, leads (PlImage props) Q z /\ hangs h i Q q /\ passes w3 j comps (Some q).
  Proof.
    induction 1 as [P|P n rest Q pl' L' Nl _ IH|P n us T rest Q Lk R _ IH|P n us Lk As]; intros j pl L H.
    - exists j, pl. split; [exact L|]. split; [exact H|constructor].
    - destruct (step_down w r i kids l props us0 lo nm0 p0 Hi Hl Hs Ti Ty Hu Hr w3 Fin _ _ _ L' Nl j H) as (k & Hk & Sk). destruct (IH k pl' L' Hk) as (q & z & A & B & C).
      exists q, z. split; [exact A|]. split; [exact B|]. destruct (cell_read _ _ _ L H) as (c & Ec & Uc). eapply passes_on; [exact Ec|exact Uc|apply slot_at, Sk|exact C].
    - destruct (step_link w r i kids l props us0 lo nm0 p0 Hi Hl Hs Ti Ty Hu Hr _ _ _ Lk j H) as (u & A & I).
      destruct (route_place _ _ _ _ R (ex_intro _ pl L)) as (zT & LT). destruct (place_node w r i kids l props nm0 p0 Hi Hl Hs Ty _ _ LT) as (t & Ht & _).
      destruct (sg_done _ _ _ _ _ Fin _ _ _ _ _ I A) as [D _]. destruct (IH t zT LT Ht) as (q & z & A' & B & C). exists q, z. split; [exact A'|]. split; [exact B|].
      destruct (cell_read _ _ _ L H) as (c & Ec & Uc). eapply passes_on; [exact Ec|exact Uc|apply slot_at, (D _ _ R Ht)|exact C].
    - destruct (step_link w r i kids l props us0 lo nm0 p0 Hi Hl Hs Ti Ty Hu Hr _ _ _ Lk j H) as (u & A & I). destruct (sg_done _ _ _ _ _ Fin _ _ _ _ _ I A) as [_ D].
      exists u, (PlProp (PUol (joined us))). split; [apply Lk|]. split; [apply A|].
      destruct (cell_read _ _ _ L H) as (c & Ec & Uc). eapply passes_on; [exact Ec|exact Uc|apply slot_at, (D As)|constructor].
  Qed.
  Lemma missing_passes P comps : missing props P comps -> forall j pl, leads (PlImage props) P pl -> hangs h i P j -> passes w3 j comps None.
  Proof.
    pose proof (fun j m => like_no_slot _ _ j m (sg_like _ _ _ _ _ Fin)) as No.
    induction 1 as [P n rest pl' L' Nt|P n us m rest Lk As|P n rest pl' L' Nl _ IH|P n us T rest Lk R _ IH]; intros j pl L H; destruct (cell_read _ _ _ L H) as (c & Ec & Uc).
    - eapply passes_not; [exact Ec|exact Uc|]. apply no_slot_at, No. eapply stands_nothing; [exact Hi|exact Hl|exact Hs|eapply place_here; [exact Hi|exact Hl|exact Hs|exact Ty|exact L'|exact H]|exact Nt].
    - destruct (step_link w r i kids l props us0 lo nm0 p0 Hi Hl Hs Ti Ty Hu Hr _ _ _ Lk j H) as (u & A & I). destruct (sg_done _ _ _ _ _ Fin _ _ _ _ _ I A) as [_ D].
      pose proof A as [(_ & _ & Lu) Hgu _]. destruct (cell_read _ _ _ Lu Hgu) as (d & Ed & Ud).
      eapply passes_on; [exact Ec|exact Uc|apply slot_at, (D As)|]. eapply passes_not; [exact Ed|exact Ud|]. apply no_slot_at, No.
      eapply stands_nothing; [exact Hi|exact Hl|exact Hs|eapply place_here; [exact Hi|exact Hl|exact Hs|exact Ty|exact Lu|exact Hgu]|].
      econstructor; [constructor; exact Logic.I|intros []].
    - destruct (step_down w r i kids l props us0 lo nm0 p0 Hi Hl Hs Ti Ty Hu Hr w3 Fin _ _ _ L' Nl j H) as (k & Hk & Sk).
      eapply passes_on; [exact Ec|exact Uc|apply slot_at, Sk|exact (IH k pl' L' Hk)].
    - destruct (step_link w r i kids l props us0 lo nm0 p0 Hi Hl Hs Ti Ty Hu Hr _ _ _ Lk j H) as (u & A & I).
      destruct (route_place _ _ _ _ R (ex_intro _ pl L)) as (zT & LT). destruct (place_node w r i kids l props nm0 p0 Hi Hl Hs Ty _ _ LT) as (t & Ht & _).
      destruct (sg_done _ _ _ _ _ Fin _ _ _ _ _ I A) as [D _]. eapply passes_on; [exact Ec|exact Uc|apply slot_at, (D _ _ R Ht)|exact (IH t zT LT Ht)].
  Qed.
End raw.

(** * Images without links *)
Definition clean (pl : place) : Prop :=
  match pl with PlDir _ => False | PlImage props => Forall (fun e => linkless (snd e)) props | PlProp v => linkless v end.
Lemma clean_inside pl n z : clean pl -> inside pl n z -> clean z.
Proof.
  intros C I. inversion I as [? ? c L|? ? v L|v kids ? u B L]; subst; cbn [clean] in *; [contradiction| |].
  - apply named_in in L. rewrite Forall_forall in C. exact (C _ L).
  - apply named_in in L. inversion B as [ks|w h fm s pg hd off size ks|off size ks|vs ks N|v' Lf]; subst; cbn [linkless] in C.
    4: { clear - N L C. revert N L C. generalize 0. intros i N. induction N as [|i ds v vs l D _ IH]; intros L C; [contradiction|].
         cbn [fold_right] in C. destruct C as [C1 C2]. destruct L as [E|L]; [injection E as _ <-; exact C1|auto]. }
    4: contradiction.
    all: clear - L C; induction kids as [|e kids IH]; [contradiction|]; cbn [fold_right] in C; destruct C as [C1 C2]; destruct L as [->|L]; [exact C1|auto].
Qed.
Lemma clean_leads pl P z : leads pl P z -> clean pl -> clean z.
Proof. induction 1 as [|p n q rest z I _ IH]; [auto|]. intro C. apply IH. eapply clean_inside; eassumption. Qed.
Lemma leads_unique pl P z : leads pl P z -> forall z', leads pl P z' -> z = z'.
Proof.
  induction 1 as [|p n q rest z I _ IH]; intros z' L; inversion L as [|? ? q' ? ? I' L']; subst; [reflexivity|].
  rewrite (inside_unique _ _ _ _ I I') in IH. apply IH, L'.
Qed.
Lemma clean_total props : Forall (fun e => linkless (snd e)) props -> forall comps P pl, leads (PlImage props) P pl -> (exists Q, follows props P comps Q) \/ missing props P comps.
Proof.
  intro C. induction comps as [|n comps IH]; intros P pl L; [left; eexists; constructor|].
  destruct (inside_or pl n) as [[z I]|N]; [|right; eapply missing_here; eassumption].
  assert (Lz : leads (PlImage props) (P ++ [n]) z) by (apply leads_snoc; eauto).
  assert (Nl : ~ link z). { intros (t & ->). exact (clean_leads _ _ _ Lz C). }
  destruct (IH _ _ Lz) as [[Q F]|M]; [left; exists Q; eapply follows_plain; eassumption|right; eapply missing_plain; eassumption].
Qed.
Lemma clean_follows props : Forall (fun e => linkless (snd e)) props -> forall P comps Q, follows props P comps Q -> Q = P ++ comps.
Proof.
  intro Li. induction 1 as [P|P n rest Q pl L Nl _ IH|P n us T rest Q Lk R _ IH|P n us Lk As].
  - rewrite app_nil_r. reflexivity.
  - rewrite IH, <- app_assoc. reflexivity.
  - destruct Lk as (_ & _ & Lu). destruct (clean_leads _ _ _ Lu Li).
  - reflexivity.
Qed.
Lemma neat_total props : neat props -> forall comps, (exists Q, follows props [] comps Q) \/ missing props [] comps.
Proof.
  intros [C|[_ S]] comps; [eapply clean_total; [exact C|constructor]|]. apply (links_total props S comps [] (PlImage props)). constructor.
Qed.
Lemma follows_place props : forall P comps Q, follows props P comps Q -> (exists pl, leads (PlImage props) P pl) -> exists z, leads (PlImage props) Q z.
Proof.
  induction 1 as [P|P n rest Q pl L Nl _ IH|P n us T rest Q Lk R _ IH|P n us Lk As]; intro E; [exact E|apply IH; eauto|apply IH; eapply route_place; eassumption|].
  eexists. apply Lk.
Qed.

Section plain.
  Variable f : nat.
  Variable st : list Z -> nat -> Z.
  Variable bl : list Z -> list Z -> Z -> list Z.
  Variable s : shared.
  Variable w : world.
  Variable r : rd.
  Variable i : id.
  Variable props : list (list Z * prop).
  Hypothesis Li : Forall (fun e => linkless (snd e)) props.
  Hypothesis Ri : exists n p sl, w_heap w i = Some (mkCell n (KImage true) p sl).

  (** Node [j] stands at [pl]. *)
  Definition stood (j : id) (pl : place) : Prop := at_place f st bl (eq r) s w j pl /\ clean pl /\ forall ps, pl = PlImage ps -> j = i.
  Lemma stood_read j pl : stood j pl -> exists c, w_heap w j = Some c /\ unread (nd_kind c) = false.
  Proof.
    intros (A & C & E). destruct pl as [cs|ps|v]; [contradiction| |].
    - rewrite (E ps eq_refl). destruct Ri as (n & p & sl & H). eexists. split; [exact H|reflexivity].
    - destruct A as (r' & n & p & nm & _ & R & _). inversion R as [o ks ? ? ? l H T I L]; subst. eexists. split; [exact H|]. destruct o; reflexivity.
  Qed.
  Lemma stood_inside j pl : stood j pl -> shows_inside f st bl (eq r) s w j pl.
  Proof.
    intros (A & C & E). apply place_read; [exact A|]. intros ps ->. rewrite (E ps eq_refl). exact Ri.
  Qed.
  Lemma stood_step j pl n z : stood j pl -> inside pl n z -> exists k, node_at (w_heap w) j n = Some k /\ stood k z /\ child_of (w_heap w) n k j.
  Proof.
    intros S I. destruct (stood_inside j pl S) as [X _]. destruct (X n z I) as (k & G & A & _ & Ch). exists k. split; [exact G|]. split; [|exact Ch].
    split; [exact A|]. destruct S as (_ & C & _). split; [eapply clean_inside; eassumption|]. intros ps ->. inversion I as [? ? c L| |]; subst. contradiction.
  Qed.
  Lemma plain_follow P comps Q : follows props P comps Q -> forall j pl, leads (PlImage props) P pl -> stood j pl -> above (w_heap w) i P j ->
    exists q z, leads (PlImage props) Q z /\ stood q z /\ above (w_heap w) i Q q /\ passes w j comps (Some q).
  Proof.
    induction 1 as [P|P n rest Q pl' L' Nl _ IH|P n us T rest Q Lk R _ IH|P n us Lk As]; intros j pl L S Ab.
    - exists j, pl. split; [exact L|]. split; [exact S|]. split; [exact Ab|constructor].
    - pose proof L' as L2. apply leads_snoc in L2 as (q0 & L0 & I0). rewrite (leads_unique _ _ _ L0 _ L) in I0. destruct (stood_step _ _ _ _ S I0) as (k & G & Sk & Ch).
      destruct (IH k pl' L' Sk ltac:(econstructor; eassumption)) as (q & z & A & B & C & D). exists q, z. split; [exact A|]. split; [exact B|]. split; [exact C|].
      destruct (stood_read _ _ S) as (c & Ec & Uc). eapply passes_on; eassumption.
    - destruct Lk as (_ & _ & Lu). destruct (clean_leads _ _ _ Lu Li).
    - destruct Lk as (_ & _ & Lu). destruct (clean_leads _ _ _ Lu Li).
  Qed.
  Definition held_in (j : id) (pl : place) : Prop := match pl with PlProp _ => within (w_heap w) i j | _ => j = i end.
  Lemma plain_within P comps Q : follows props P comps Q -> forall j pl, leads (PlImage props) P pl -> stood j pl -> held_in j pl ->
    exists q z, leads (PlImage props) Q z /\ held_in q z /\ passes w j comps (Some q).
  Proof.
    induction 1 as [P|P n rest Q pl' L' Nl _ IH|P n us T rest Q Lk R _ IH|P n us Lk As]; intros j pl L S He.
    - exists j, pl. split; [exact L|]. split; [exact He|constructor].
    - pose proof L' as L2. apply leads_snoc in L2 as (q0 & L0 & I0). rewrite (leads_unique _ _ _ L0 _ L) in I0. destruct (stood_step _ _ _ _ S I0) as (k & G & Sk & Ch).
      destruct (stood_read _ _ S) as (c & Ec & Uc).
      assert (Hk : held_in k pl').
      { destruct pl' as [cs|ps|v]; [destruct Sk as (_ & [] & _)|destruct Sk as (_ & _ & E); exact (E _ eq_refl)|]. cbn [held_in].
        destruct pl as [cs|ps|u]; [destruct S as (_ & [] & _)|cbn [held_in] in He; subst j; eapply within_first; exact Ch|].
        eapply within_more; [exact Ch|exact Ec|exact Uc| |exact He]. destruct S as ((r' & n' & p & nm & _ & R & _) & _). inversion R as [o ks ? ? ? l H T I Lr]; subst. rewrite H in Ec. injection Ec as <-.
        intro b. cbn [nd_kind]. destruct o; split; discriminate. }
      destruct (IH k pl' L' Sk Hk) as (q & z & A & B & C). exists q, z. split; [exact A|]. split; [exact B|]. eapply passes_on; eassumption.
    - destruct Lk as (_ & _ & Lu). destruct (clean_leads _ _ _ Lu Li).
    - destruct Lk as (_ & _ & Lu). destruct (clean_leads _ _ _ Lu Li).
  Qed.
  Lemma plain_missing P comps : missing props P comps -> forall j pl, leads (PlImage props) P pl -> stood j pl -> passes w j comps None.
  Proof.
    induction 1 as [P n rest pl' L' Nt|P n us m rest Lk As|P n rest pl' L' Nl _ IH|P n us T rest Lk R _ IH]; intros j pl L S; destruct (stood_read _ _ S) as (c & Ec & Uc).
    - rewrite (leads_unique _ _ _ L' _ L) in Nt. destruct (stood_inside j pl S) as [_ X]. eapply passes_not; [exact Ec|exact Uc|apply X, Nt].
    - destruct Lk as (_ & _ & Lu). destruct (clean_leads _ _ _ Lu Li).
    - pose proof L' as L2. apply leads_snoc in L2 as (q0 & L0 & I0). rewrite (leads_unique _ _ _ L0 _ L) in I0. destruct (stood_step _ _ _ _ S I0) as (k & G & Sk & Ch).
      eapply passes_on; [exact Ec|exact Uc|exact G|]. exact (IH k pl' L' Sk).
    - destruct Lk as (_ & _ & Lu). destruct (clean_leads _ _ _ Lu Li).
  Qed.
End plain.

(** * Reading an image *)
Section images.
  Variable f : nat.
  Variable st : list Z -> nat -> Z.
  Variable bl : list Z -> list Z -> Z -> list Z.
  Variable ok : rd -> Prop.

  (** An image that has not been read. *)
  Definition waits (w : world) (i : id) (props : list (list Z * prop)) : Prop :=
    exists name k p r off size kids us, w_heap w i = Some (mkCell name k p []) /\ unread k = true /\ src st bl k (w_thing w i) r name off size /\ ok r /\
      shows_kids r kids props /\ image_children f r name off size = Ok (kids, us) /\ neat props.
  (** Two ways to the same place end at the same node. *)
  Definition sole (w : world) (i : id) (props : list (list Z * prop)) : Prop :=
    forall a b Q j k, follows props [] a Q -> follows props [] b Q -> passes w i a (Some j) -> passes w i b (Some k) -> j = k.
  (** Whatever is found in the image belongs to it. *)
  Definition rooted (w : world) (i : id) (props : list (list Z * prop)) : Prop :=
    forall comps Q v j, follows props [] comps Q -> leads (PlImage props) Q (PlProp v) -> passes w i comps (Some j) -> within (w_heap w) i j.
  (** An image that has been read. *)
  Definition good (w : world) (i : id) (props : list (list Z * prop)) : Prop :=
    exists r nm off size c, ok r /\ w_thing w i = ThImage r nm off size /\ w_heap w i = Some c /\ nd_kind c = KImage true /\
      (nd_name c = nm /\ exists kids us, shows_kids r kids props /\ image_children f r nm off size = Ok (kids, us) /\ neat props) /\ (sole w i props /\ rooted w i props) /\ forall comps,
      (forall Q, follows props [] comps Q -> exists j z, leads (PlImage props) Q z /\ passes w i comps (Some j) /\ above (w_heap w) i Q j /\
         match z with
         | PlProp v => exists o sub cj, w_thing w j = ThProp r o /\ shows r (Node o sub) v /\ w_heap w j = Some cj /\ unread (nd_kind cj) = false /\ is_image cj = false
         | _ => j = i
         end) /\
      (missing props [] comps -> passes w i comps None).

  (** What reading it leaves alone. *)
  Definition after (w : world) (i : id) (w3 : world) : Prop :=
    w_next w <= w_next w3 /\ bounded w3 /\ (forall j, j < w_next w -> j <> i -> w_heap w3 j = w_heap w j /\ w_thing w3 j = w_thing w j) /\
    exists name k p sl, w_heap w i = Some (mkCell name k p []) /\ w_heap w3 i = Some (mkCell name (KImage true) p sl).

  Lemma links_good w i k p name r off size props kids us0 : bounded w -> w_heap w i = Some (mkCell name k p []) -> unread k = true ->
    src st bl k (w_thing w i) r name off size -> ok r -> shows_kids r kids props -> image_children f r name off size = Ok (kids, us0) -> tidy props -> simple_links props ->
    exists w3, w_parse st bl f w i i = (Ok tt, w3) /\ after w i w3 /\ good w3 i props.
  Proof.
    intros B H U T O S Im Ty Sl. pose proof (B _ _ H) as I.
    set (w0 := match k with KMsImage => set_thing w i (ThImage r name off size) | _ => w end).
    assert (W0 : w_heap w0 = w_heap w /\ w_next w0 = w_next w /\ w_thing w0 i = ThImage r name off size /\ forall j, j <> i -> w_thing w0 j = w_thing w j).
    { unfold w0. inversion T as [b ? ? ? ? Ek Et|buf e x Tx Ek Et]; subst; [auto|]. cbn [set_thing w_heap w_next w_thing]. rewrite Z.eqb_refl.
      repeat split. intros j Hj. apply Z.eqb_neq in Hj. rewrite Hj. reflexivity. }
    destruct W0 as (H0 & N0 & T0 & A0). destruct (plant_list (plant r i) w0 kids) as [[w1 l] us] eqn:E.
    destruct (plant_list_ok f st bl (fun w n j name => rp w r n j i name) no_uol (plant r i) kids ltac:(apply Forall_forall; intros e _ w3; apply (plant_ok f st bl)) _ _ _ _ E) as (K & R' & B' & _).
    pose proof K as [N K0]. destruct (K0 i ltac:(lia)) as [Hi Ti]. rewrite H0, H in Hi. rewrite T0 in Ti.
    set (h2 := put (w_heap w1) i (mkCell name (KImage true) p (filled l))).
    set (wr := mkWorld (fun j => if (w_next w <=? j) || (j =? i) then h2 j else None) (w_thing w1) (w_next w1) (w_cache w1)).
    assert (Hs : has w0 w1 wr).
    { split; cbn [wr w_next w_heap w_thing]; [lia|]. intros j J. split; [|reflexivity]. replace (w_next w <=? j) with true by lia. cbn [orb]. unfold h2, put. replace (j =? i) with false by lia. reflexivity. }
    assert (Lr : rpl wr r i kids l) by (apply rpl_f2, R', Hs).
    assert (Hi' : w_heap wr i = Some (mkCell name (KImage true) p (filled l))).
    { cbn [wr w_heap]. rewrite Z.eqb_refl, orb_true_r. unfold h2. apply put_same. }
    assert (Tp : forall o, w_thing wr i <> ThProp r o) by (intro o; cbn [wr w_thing]; rewrite Ti; discriminate).
    assert (Hr : forall n j q nm, rp wr r n j q nm -> w_next w <= j < w_next wr).
    { intros n j q nm R. inversion R as [o ks ? ? ? l' Hc Tc Ic _]; subst. split; [|exact Ic]. cbn [wr w_heap] in Hc.
      destruct (Z.leb_spec (w_next w) j); [assumption|]. cbn [orb] in Hc. destruct (Z.eqb_spec j i) as [->|]; [|discriminate Hc]. destruct (Tp _ Tc). }
    destruct (plant_list_more r kids ltac:(apply Forall_forall; intros e _; apply plant_more) i w0 w1 l us E wr Hs) as (Du & Hu & Hc). rewrite N0 in Hu, Hc.
    assert (Sub : forall j c, w_heap wr j = Some c -> h2 j = Some c) by (intros j c; cbn [wr w_heap]; destruct (_ || _); [auto|discriminate]).
    destruct (stage_all wr r i kids l props us (w_next w) name p Hi' Lr S Tp Ty Hu Hc Hr Sl Du h2 Sub) as (h3 & Rs & St).
    set (w3 := mkWorld h3 (w_thing w1) (w_next w1) (w_cache w1)). exists w3. split.
    { unfold w_parse. rewrite H. cbn [nd_kind]. rewrite U. unfold w_load.
      assert (Pa : forall q, parse (fun _ _ _ => Some (w_heap w1, l, us)) (w_heap w) [] i q = Ok h3).
      { intro q. unfold parse. rewrite H. cbn [nd_kind]. inversion T as [b ? ? ? ? Ek Et|buf e x Tx Ek Et]; subst.
        - destruct b; [discriminate U|]. unfold parse_as. rewrite Hi. cbn [nd_name nd_parent nd_slots]. exact Rs.
        - unfold parse_as. rewrite Hi. cbn [nd_name nd_parent nd_slots]. exact Rs. }
      inversion T as [b ? ? ? ? Ek Et|buf e x Tx Ek Et]; subst.
      - rewrite Im. unfold w0 in E. rewrite E, Pa. reflexivity.
      - rewrite Tx. cbn [rbind]. rewrite Im. unfold rmap; cbn [rbind fst]. unfold w0 in E. rewrite E, Pa. reflexivity. }
    destruct (resolve_all_frame _ _ _ _ Rs) as [Sm _].
    assert (Cells : forall j, j < w_next w -> j <> i -> h3 j = w_heap w j).
    { intros j J Ne. rewrite (resolve_all_cells _ _ _ _ j Rs).
      - unfold h2, put. replace (j =? i) with false by lia. destruct (K0 j ltac:(lia)) as [-> _]. rewrite H0. reflexivity.
      - intros u c Iu Eu Pu.
        destruct (find_link wr r i kids l props us (w_next w) name p Hi' Lr S Tp Ty Hu Hc Hr u Iu) as (P & n & us' & q & A).
        destruct (at_link_facts wr r i kids l props us (w_next w) name p Hi' Lr S Tp Ty Hu Hr u P n us' q A) as ([(c' & Ec' & _ & Pc') (cq & Eq)] & _).
        apply Sub in Ec'. rewrite Eu in Ec'. injection Ec' as <-. assert (q = j) by congruence. subst q. cbn [wr w_heap] in Eq.
        replace (w_next w <=? j) with false in Eq by lia. replace (j =? i) with false in Eq by lia. discriminate Eq. }
    destruct (sg_like _ _ _ _ _ St _ _ Hi') as (c3 & E3 & Nc & Kc & Pc & _). cbn [nd_name nd_kind nd_parent] in Nc, Kc, Pc.
    split; [split; [cbn [w3 w_next]; lia|split; [|split]]|].
    - intros j c Hj. cbn [w3 w_heap w_next] in *. specialize (Sm j). rewrite Hj in Sm. destruct (h2 j) as [d|] eqn:Ed; [|contradiction].
      unfold h2, put in Ed. destruct (Z.eqb_spec j i) as [->|Ne]; [lia|]. eapply B'; [|exact Ed]. intros a b; rewrite H0, N0; apply B.
    - intros j J Ne. split; [apply Cells; assumption|]. cbn [w3 w_thing]. destruct (K0 j ltac:(lia)) as [_ ->]. apply A0, Ne.
    - exists name, k, p, (nd_slots c3). split; [exact H|]. cbn [w3 w_heap]. rewrite E3. destruct c3 as [a1 a2 a3 a4]; cbn [nd_name nd_kind nd_parent nd_slots] in *. congruence.
    - exists r, name, off, size, c3. split; [exact O|]. split; [exact Ti|]. split; [exact E3|]. split; [exact Kc|]. split; [split; [exact Nc|]; exists kids, us0; repeat split; [exact S|exact Im|right; auto]|].
      assert (Top : leads (PlImage props) [] (PlImage props)) by constructor.
      assert (Ht : hangs (w_heap wr) i [] i) by (econstructor; exact Hi'). split; [split|intro comps; split].
      + intros a b Q j1 j2 Fa Fb Pa Pb.
        destruct (follow_passes wr r i kids l props us (w_next w) name p Hi' Lr S Tp Ty Hu Hr w3 St _ _ _ Fa i _ Top Ht) as (ja & za & _ & Ha & Qa).
        destruct (follow_passes wr r i kids l props us (w_next w) name p Hi' Lr S Tp Ty Hu Hr w3 St _ _ _ Fb i _ Top Ht) as (jb & zb & _ & Hb & Qb).
        pose proof (passes_det _ _ _ _ _ Pa Qa) as [= ->]. pose proof (passes_det _ _ _ _ _ Pb Qb) as [= ->]. eapply hangs_fun; eassumption.
      + intros comps Q v j Fo Lv Pj. destruct (follow_passes wr r i kids l props us (w_next w) name p Hi' Lr S Tp Ty Hu Hr w3 St _ _ _ Fo i _ Top Ht) as (j' & z & _ & Hj & Qj).
        pose proof (passes_det _ _ _ _ _ Pj Qj) as [= <-].
        assert (Ch : forall n x y, child_of (w_heap wr) n x y -> child_of h3 n x y).
        { intros n x y [(c & Ec & Nn & Pp) (d & Ed)]. destruct (sg_like _ _ _ _ _ St _ _ Ec) as (c' & Ec' & Nc' & _ & Pc' & _). destruct (sg_like _ _ _ _ _ St _ _ Ed) as (d' & Ed' & _).
          split; [exists c'; split; [exact Ec'|split; congruence]|eauto]. }
        clear - Hj Lv Hi' Lr S Ty St Ch Tp. revert v Lv. induction Hj as [c Ec|P n j k Hk IH _ C _]; intros v Lv; [inversion Lv|].
        apply leads_snoc in Lv as (z & Lz & Iz). pose proof (place_here wr r i kids l props name p Hi' Lr S Ty _ _ _ Lz Hk) as Sk.
        destruct z as [cs|ps|u]; [destruct Sk|destruct Sk as [-> _]; eapply within_first; apply Ch, C|].
        pose proof Sk as (n' & q & nm & R & Sh). inversion R as [o ks ? ? ? l' Hcc Tc Ic _]; subst. destruct (sg_like _ _ _ _ _ St _ _ Hcc) as (c' & Ec' & _ & Kj & _).
        eapply within_more; [apply Ch, C|exact Ec'| | |exact (IH u Lz)]; rewrite Kj; cbn [nd_kind]; [destruct o; reflexivity|intro b; destruct o; split; discriminate].
      + intros Q Fo. destruct (follow_passes wr r i kids l props us (w_next w) name p Hi' Lr S Tp Ty Hu Hr w3 St _ _ _ Fo i _ Top Ht) as (j & z & Lz & Hj & Pj).
        exists j, z. split; [exact Lz|]. split; [exact Pj|]. split.
        * clear - Hj St. apply hangs_above in Hj. induction Hj as [c E|P n j k _ IH [(c & E & Nn & Pp) (d & D)]].
          -- destruct (sg_like _ _ _ _ _ St _ _ E) as (c' & E' & _). econstructor. exact E'.
          -- econstructor; [exact IH|]. destruct (sg_like _ _ _ _ _ St _ _ E) as (c' & E' & Nc & _ & Pc & _). destruct (sg_like _ _ _ _ _ St _ _ D) as (d' & D' & _).
             split; [exists c'; split; [exact E'|split; congruence]|eauto].
        * pose proof (place_here wr r i kids l props name p Hi' Lr S Ty _ _ _ Lz Hj) as Sj. destruct z as [cs|ps|v]; [destruct Sj|apply Sj|]. destruct Sj as (n & q & nm & R & Sh).
          destruct (cell_read wr r i kids l props us name p Hi' Lr S Ty w3 St _ _ _ Lz Hj) as (cj & Ej & Uj). inversion R as [o ks ? ? ? l' Hcc Tc Ic _]; subst.
          exists o, ks, cj. split; [exact Tc|]. split; [exact Sh|]. split; [exact Ej|]. split; [exact Uj|]. destruct (sg_like _ _ _ _ _ St _ _ Hcc) as (c' & E' & _ & Kj & _). assert (c' = cj) as -> by (cbn [w3 w_heap] in Ej, E'; congruence). unfold is_image. rewrite Kj. destruct o; reflexivity.
      + intro Mi. exact (missing_passes wr r i kids l props us (w_next w) name p Hi' Lr S Tp Ty Hu Hr w3 St _ _ Mi i _ Top Ht).
  Qed.

  Variable s : shared.
  Hypothesis F : (0 < f)%nat.
  Lemma plain_good w i k p name r off size props kids us0 : bounded w -> w_heap w i = Some (mkCell name k p []) -> unread k = true ->
    src st bl k (w_thing w i) r name off size -> ok r -> shows_kids r kids props -> image_children f r name off size = Ok (kids, us0) ->
    Forall (fun e => linkless (snd e)) props ->
    exists w3, w_parse st bl f w i i = (Ok tt, w3) /\ after w i w3 /\ good w3 i props.
  Proof.
    intros B H U T O S Im Li. pose proof (B _ _ H) as I.
    assert (Lk : match k with KImage true => rpl w r i kids [] | _ => @nil (text * id) = [] end) by (destruct k as [| |[]| | | |]; try reflexivity; discriminate U).
    assert (A : at_place f st bl (eq r) s w i (PlImage props)).
    { exists p, name. exact (rc_image f st bl (eq r) w s props kids i p name r off size k [] H T eq_refl I (conj Li (conj S (ex_intro _ us0 Im))) Lk). }
    destruct (parse_place f st bl (eq r) s w i _ F B A) as (w3 & E & X & B3 & A3 & _ & Al & Rd). destruct (Rd props eq_refl) as (n3 & p3 & sl3 & H3).
    exists w3. split; [exact E|]. split; [split; [apply X|split; [exact B3|split]]|].
    - intros j J Ne. specialize (Al j J Ne). split; [exact Al|]. destruct X as [_ X].
      destruct (X j J) as [[_ Tj]|[(m & q & sl & Ea & Eb & Tj)|(m & k' & q & r' & nm & off' & size' & ks & us & l' & Ea & Uk & _ & _ & Eb & _)]]; [exact Tj|exact Tj|].
      rewrite Eb, Ea in Al. injection Al as <- _. discriminate Uk.
    - exists name, k, p, sl3. split; [exact H|]. rewrite H3. f_equal. destruct X as [_ X].
      destruct (X i I) as [[Ea _]|[(m & q & sl & Ea & _)|(m & k' & q & r' & nm & off' & size' & ks & us & l' & Ea & Uk & _ & _ & Eb & _)]].
      + rewrite H3, H in Ea. injection Ea as _ <- _ _. discriminate U.
      + rewrite H in Ea. injection Ea as _ -> _ _. inversion T.
      + rewrite H in Ea. injection Ea as <- _ <-. rewrite H3 in Eb. injection Eb as <- <- _. reflexivity.
    - pose proof A3 as (p4 & nm4 & R4). inversion R4 as [? ks4 ? ? ? r4 off4 size4 k4 l4 H4 T4 O4 I4 Re4 L4|]; subst. rewrite H3 in H4. injection H4 as <- <- <- _.
      inversion T4 as [b ? ? ? ? Ek Et|]; subst.
      exists r4, n3, off4, size4, (mkCell n3 (KImage true) p3 sl3). split; [exact O|]. split; [auto|]. split; [exact H3|]. split; [reflexivity|]. split; [split; [reflexivity|]; destruct Re4 as (_ & S4 & us4 & Im4); exists ks4, us4; repeat split; [exact S4|exact Im4|left; exact Li]|].
      assert (Top : leads (PlImage props) [] (PlImage props)) by constructor.
      assert (So : stood f st bl s w3 r4 i i (PlImage props)) by (split; [exact A3|split; [exact Li|reflexivity]]).
      assert (Ri : exists n p sl, w_heap w3 i = Some (mkCell n (KImage true) p sl)) by eauto. split; [split|intro comps; split].
      + intros a b Q j1 j2 Fa Fb Pa Pb. pose proof (clean_follows _ Li _ _ _ Fa) as Xa. rewrite (clean_follows _ Li _ _ _ Fb) in Xa. cbn [app] in Xa. rewrite <- Xa in Pa.
        pose proof (passes_det _ _ _ _ _ Pa Pb) as [= ->]. reflexivity.
      + intros comps Q v j Fo Lv Pj. destruct (plain_within f st bl s w3 r4 i props Li Ri _ _ _ Fo i _ Top So eq_refl) as (q & z & Lz & He & Pq).
        pose proof (passes_det _ _ _ _ _ Pj Pq) as [= ->]. rewrite (leads_unique _ _ _ Lz _ Lv) in He. exact He.
      + intros Q Fo. destruct (plain_follow f st bl s w3 r4 i props Li Ri _ _ _ Fo i _ Top So ltac:(econstructor; exact H3)) as (j & z & Lz & Sz & Ab & Pj).
        exists j, z. split; [exact Lz|]. split; [exact Pj|]. split; [exact Ab|]. destruct (stood_read _ _ _ _ _ _ _ Ri _ _ Sz) as (cj & Ej & Uj).
        destruct Sz as (Az & Cz & Iz). destruct z as [cs|ps|v]; [contradiction|exact (Iz _ eq_refl)|].
        destruct Az as (r5 & n & q & nm & <- & R & Sh). inversion R as [o ks ? ? ? l' Hcc Tc Ic _]; subst. exists o, ks, cj. split; [auto|]. split; [auto|]. split; [exact Ej|]. split; [exact Uj|]. rewrite Hcc in Ej. injection Ej as <-. destruct o; reflexivity.
      + intro Mi. exact (plain_missing f st bl s w3 r4 i props Li Ri _ _ Mi i _ Top So).
  Qed.
  Lemma read_good w i props : bounded w -> waits w i props -> exists w3, w_parse st bl f w i i = (Ok tt, w3) /\ after w i w3 /\ good w3 i props.
  Proof.
    intros B (name & k & p & r & off & size & kids & us & H & U & T & O & S & Im & [Li|[Ty Sl]]); [eapply plain_good; eassumption|eapply links_good; eassumption].
  Qed.

  (** * What reading changes *)
  Definition grows (w w' : world) : Prop :=
    w_next w <= w_next w' /\ forall j, j < w_next w ->
      (w_heap w' j = w_heap w j /\ w_thing w' j = w_thing w j) \/
      (exists n p sl, w_heap w j = Some (mkCell n (KDir false) p sl) /\ w_heap w' j = Some (mkCell n (KDir true) p sl) /\ w_thing w' j = w_thing w j) \/
      (exists n k p sl, w_heap w j = Some (mkCell n k p []) /\ unread k = true /\ (forall b, k <> KDir b) /\
         w_heap w' j = Some (mkCell n (KImage true) p sl) /\ forall props, waits w j props -> good w' j props).
  Lemma grows_refl w : grows w w.
  Proof. split; [lia|]. auto. Qed.
  Lemma grows_cell w w' j c : bounded w -> grows w w' -> w_heap w j = Some c -> exists c', w_heap w' j = Some c' /\ nd_name c' = nd_name c /\ nd_parent c' = nd_parent c.
  Proof.
    intros B [_ G] H. destruct (G j (B _ _ H)) as [[E _]|[(n & p & sl & E & E' & _)|(n & k & p & sl & E & _ & _ & E' & _)]].
    - exists c. rewrite E. auto.
    - rewrite H in E. injection E as ->. eexists. split; [exact E'|auto].
    - rewrite H in E. injection E as ->. eexists. split; [exact E'|auto].
  Qed.
  Lemma grows_read w w' j c : bounded w -> grows w w' -> w_heap w j = Some c -> unread (nd_kind c) = false -> w_heap w' j = Some c /\ w_thing w' j = w_thing w j.
  Proof.
    intros B [_ G] H U. destruct (G j (B _ _ H)) as [[E T]|[(n & p & sl & E & _)|(n & k & p & sl & E & Uk & _)]].
    - rewrite E. auto.
    - rewrite H in E. injection E as ->. discriminate U.
    - rewrite H in E. injection E as ->. cbn [nd_kind] in U. congruence.
  Qed.
  Lemma grows_passes w w' i comps o : bounded w -> grows w w' -> passes w i comps o -> passes w' i comps o.
  Proof.
    intros B G. induction 1 as [i|i c n j rest o H U N _ IH|i c n rest H U N]; [constructor| |]; destruct (grows_read w w' i c B G H U) as [H' _].
    - eapply passes_on; [exact H'|exact U| |exact IH]. unfold node_at in *. rewrite H'. rewrite H in N. exact N.
    - eapply passes_not; [exact H'|exact U|]. unfold node_at in *. rewrite H'. rewrite H in N. exact N.
  Qed.
  Lemma grows_child w w' n j k : bounded w -> grows w w' -> child_of (w_heap w) n j k -> child_of (w_heap w') n j k.
  Proof.
    intros B G [(c & H & N & P) (d & D)]. destruct (grows_cell w w' j c B G H) as (c' & H' & N' & P'). destruct (grows_cell w w' k d B G D) as (d' & D' & _).
    split; [exists c'; split; [exact H'|split; congruence]|eauto].
  Qed.
  Lemma grows_above w w' i P j : bounded w -> grows w w' -> above (w_heap w) i P j -> above (w_heap w') i P j.
  Proof.
    intros B G. induction 1 as [c H|P n j k _ IH C].
    - destruct (grows_cell w w' i c B G H) as (c' & H' & _). econstructor. exact H'.
    - econstructor; [exact IH|]. eapply grows_child; eassumption.
  Qed.
  Lemma grows_within w w' i j : bounded w -> grows w w' -> within (w_heap w) i j -> within (w_heap w') i j.
  Proof.
    intros B G. induction 1 as [n j C|n j k c C E U N _ IH]; [eapply within_first, grows_child; eassumption|].
    eapply within_more; [eapply grows_child; eassumption|apply (grows_read w w' k c B G E U)|exact U|exact N|exact IH].
  Qed.
  Lemma grows_good w w' i props : bounded w -> grows w w' -> good w i props -> good w' i props.
  Proof.
    intros B G (r & nm & off & size & c & O & T & H & K & Ag & (So & Ro) & R). destruct (grows_read w w' i c B G H ltac:(rewrite K; reflexivity)) as [H' T'].
    exists r, nm, off, size, c. split; [exact O|]. split; [congruence|]. split; [exact H'|]. split; [exact K|]. split; [exact Ag|]. split.
    { split; [|intros comps Q v j Fo Lv Pj; destruct (proj1 (R comps) Q Fo) as (j' & _ & _ & Qj & _); pose proof (passes_det _ _ _ _ _ Pj (grows_passes _ _ _ _ _ B G Qj)) as [= ->];
        eapply grows_within; [exact B|exact G|exact (Ro comps Q v j' Fo Lv Qj)]].
      intros a b Q j k Fa Fb Pa Pb. destruct (proj1 (R a) Q Fa) as (ja & _ & _ & Qa & _). destruct (proj1 (R b) Q Fb) as (jb & _ & _ & Qb & _).
      pose proof (passes_det _ _ _ _ _ Pa (grows_passes _ _ _ _ _ B G Qa)) as [= ->]. pose proof (passes_det _ _ _ _ _ Pb (grows_passes _ _ _ _ _ B G Qb)) as [= ->]. exact (So a b Q _ _ Fa Fb Qa Qb). }
    intro comps. destruct (R comps) as [R1 R2]. split.
    - intros Q Fo. destruct (R1 Q Fo) as (j & z & Lz & Pj & Ab & Z). exists j, z. split; [exact Lz|]. split; [eapply grows_passes; eassumption|]. split; [eapply grows_above; eassumption|].
      destruct z as [cs|ps|v]; try exact Z. destruct Z as (o & sub & cj & Tj & Sh & Hj & Uj & Ij). destruct (grows_read w w' j cj B G Hj Uj) as [Hj' Tj'].
      exists o, sub, cj. split; [congruence|]. auto.
    - intro M. eapply grows_passes; [exact B|exact G|auto].
  Qed.
  Lemma same_waits w w' i props : w_heap w' i = w_heap w i -> w_thing w' i = w_thing w i -> waits w i props -> waits w' i props.
  Proof. intros E T (name & k & p & r & off & size & kids & us & R). exists name, k, p, r, off, size, kids, us. rewrite E, T. exact R. Qed.
  Lemma grows_trans a b c : bounded a -> bounded b -> grows a b -> grows b c -> grows a c.
  Proof.
    intros Ba Bb Gab Gbc. pose proof Gab as [N1 G1]. pose proof Gbc as [N2 G2]. split; [lia|]. intros j J.
    destruct (G1 j J) as [[E T]|[(n & p & sl & E & E' & T)|(n & k & p & sl & E & U & Nd & E' & W)]].
    - destruct (G2 j ltac:(lia)) as [[E2 T2]|[(n & p & sl & E2 & E2' & T2)|(n & k & p & sl & E2 & U & Nd & E2' & W)]].
      + left. split; congruence.
      + right. left. exists n, p, sl. split; [congruence|]. split; [exact E2'|congruence].
      + right. right. exists n, k, p, sl. split; [congruence|]. split; [exact U|]. split; [exact Nd|]. split; [exact E2'|]. intros props Wp. apply W. eapply same_waits; eassumption.
    - right. left. destruct (grows_read b c j _ Bb Gbc E' eq_refl) as [E2 T2]. exists n, p, sl. split; [exact E|]. split; [exact E2|congruence].
    - right. right. destruct (grows_read b c j _ Bb Gbc E' eq_refl) as [E2 T2]. exists n, k, p, sl. split; [exact E|]. split; [exact U|]. split; [exact Nd|]. split; [exact E2|].
      intros props Wp. eapply grows_good; [exact Bb|exact Gbc|auto].
  Qed.
  Lemma read_grows w i props : bounded w -> waits w i props -> exists w3, w_parse st bl f w i i = (Ok tt, w3) /\ bounded w3 /\ grows w w3 /\ good w3 i props.
  Proof.
    intros B W. destruct (read_good w i props B W) as (w3 & E & (N & B3 & Al & name & k & p & sl & H & H') & G). exists w3. split; [exact E|]. split; [exact B3|]. split; [|exact G].
    split; [exact N|]. intros j J. destruct (Z.eq_dec j i) as [->|Ne]; [|left; apply Al; assumption]. right. right. exists name, k, p, sl. split; [exact H|].
    destruct W as (name' & k' & p' & r & off & size & kids & us & Hw & U & T & _). rewrite H in Hw. injection Hw as <- <- <-. split; [exact U|]. split; [intros b ->; inversion T|]. split; [exact H'|].
    intros props' W'. destruct (read_good w i props' B W') as (w4 & E4 & _ & G4). congruence.
  Qed.

  (** * The directories *)
  Inductive lc (w : world) : content -> id -> option id -> text -> Prop :=
  | lc_image props i p name : (exists c, w_heap w i = Some c /\ nd_name c = name /\ nd_parent c = p) -> i < w_next w -> waits w i props \/ good w i props ->
      lc w (CImage props) i p name
  | lc_dir d b kids i p name l : w_heap w i = Some (mkCell name (KDir b) p (filled l)) ->
      w_thing w i = ThDir s d -> i < w_next w -> done d -> lcl w i kids l -> lc w (CDir kids) i p name
  with lcl (w : world) : id -> list (text * content) -> list (text * id) -> Prop :=
  | lcl_nil i : lcl w i [] []
  | lcl_cons i name n j kids l : lc w n j (Some i) name -> lcl w i kids l -> lcl w i ((name, n) :: kids) ((name, j) :: l).
  Scheme lc_mut1 := Minimality for lc Sort Prop
    with lc_mut2 := Minimality for lcl Sort Prop.
  Combined Scheme lc_mut from lc_mut1, lc_mut2.
  Lemma lcl_f2 w i kids l : Forall2 (fun e d => fst e = fst d /\ lc w (snd e) (snd d) (Some i) (fst e)) kids l <-> lcl w i kids l.
  Proof.
    split.
    - induction 1 as [|[k n] [k' j] kids l [E H] _ IH]; [constructor|]. cbn [fst snd] in *. subst k'. constructor; assumption.
    - induction 1; constructor; auto.
  Qed.
  Lemma grows_lc w w' : bounded w -> grows w w' -> (forall c i p name, lc w c i p name -> lc w' c i p name) /\ (forall i kids l, lcl w i kids l -> lcl w' i kids l).
  Proof.
    intros B G. apply lc_mut.
    - intros props i p name (c & H & Nc & Pc) I W. destruct (grows_cell w w' i c B G H) as (c' & H' & N' & P').
      constructor; [exists c'; split; [exact H'|split; congruence]|destruct G; lia|]. destruct W as [W|W]; [|right; eapply grows_good; eassumption].
      destruct G as [N G]. destruct (G i I) as [[E T]|[(n & q & sl & E & _)|(n & k & q & sl & _ & _ & _ & _ & X)]].
      + left. eapply same_waits; eassumption.
      + destruct W as (name' & k' & p' & r & off & size & kids & us & Hw & U & T & _). rewrite Hw in E. injection E as _ -> _ _. inversion T.
      + right. auto.
    - intros d b kids i p name l H T I D _ IH. destruct G as [N G]. destruct (G i I) as [[E T']|[(n & q & sl & E & E' & T')|(n & k & q & sl & E & U & Nd & _)]].
      + eapply lc_dir; [rewrite E; exact H|rewrite T'; exact T|lia|exact D|exact IH].
      + rewrite H in E. injection E as -> -> -> <-. eapply lc_dir; [exact E'|rewrite T'; exact T|lia|exact D|exact IH].
      + rewrite H in E. injection E as _ <- _ _. destruct (Nd b eq_refl).
    - constructor.
    - intros. constructor; assumption.
  Qed.

  (** Node [i] is a directory, or the file, with this content. *)
  Definition dir_at (w : world) (i : id) (cs : list (text * content)) : Prop :=
    exists name k p l, w_heap w i = Some (mkCell name k p (filled l)) /\ i < w_next w /\
      (top k \/ exists b d, k = KDir b /\ w_thing w i = ThDir s d /\ done d) /\ lcl w i cs l.
  Lemma grows_dir w w' i cs : bounded w -> grows w w' -> dir_at w i cs -> dir_at w' i cs.
  Proof.
    intros B G (name & k & p & l & H & I & K & L). pose proof (proj2 (grows_lc w w' B G) _ _ _ L) as L'. destruct G as [N G].
    destruct (G i I) as [[E T']|[(n & q & sl & E & E' & T')|(n & k' & q & sl & E & U & Nd & _)]].
    - exists name, k, p, l. rewrite E, T'. split; [exact H|]. split; [lia|]. auto.
    - rewrite H in E. injection E as -> -> -> <-. destruct K as [[K|K]|(b & d & K & T & D)]; [discriminate..|]. exists n, (KDir true), q, l. rewrite T'. split; [exact E'|]. split; [lia|]. split; [right; eauto|exact L'].
    - rewrite H in E. injection E as _ <- _ _. destruct K as [[->| ->]|(b & d & -> & _)]; [discriminate U..|]. destruct (Nd b eq_refl).
  Qed.
  Lemma dir_parse w i cs : bounded w -> dir_at w i cs -> exists w1, w_parse st bl f w i i = (Ok tt, w1) /\ bounded w1 /\ grows w w1 /\
    (exists c, w_heap w1 i = Some c /\ unread (nd_kind c) = false) /\
    (forall n c, last_named cs n c -> exists j, node_at (w_heap w1) i n = Some j /\ lc w1 c j (Some i) n) /\ (forall n, ~ In n (map fst cs) -> node_at (w_heap w1) i n = None) /\
    exists c, w_heap w1 i = Some c.
  Proof.
    intros B A. pose proof A as (name & k & p & l & H & I & K & R).
    assert (Fin : forall w1, bounded w1 -> grows w w1 -> (exists k1, w_heap w1 i = Some (mkCell name k1 p (filled l)) /\ unread k1 = false) ->
      bounded w1 /\ grows w w1 /\ (exists c, w_heap w1 i = Some c /\ unread (nd_kind c) = false) /\
      (forall n c, last_named cs n c -> exists j, node_at (w_heap w1) i n = Some j /\ lc w1 c j (Some i) n) /\ (forall n, ~ In n (map fst cs) -> node_at (w_heap w1) i n = None) /\
      exists c, w_heap w1 i = Some c).
    { intros w1 B1 G1 (k1 & H1 & U1). split; [exact B1|]. split; [exact G1|]. split; [eexists; split; [exact H1|exact U1]|]. split; [|split; [|eauto]].
      - apply (grows_lc w w1 B G1) in R. apply lcl_f2 in R. intros n c L. destruct (filled_last (fun n c j => lc w1 c j (Some i) n) cs l R n c L) as (j & Gj & Rj). exists j. split; [|exact Rj].
        unfold node_at. rewrite H1. exact Gj.
      - intros n Nn. unfold node_at. rewrite H1. cbn [nd_slots]. apply filled_none. intro M. apply Nn. apply lcl_f2 in R. revert M. clear - R.
        induction R as [|a b ? ? [E _] _ IH]; [contradiction|]. cbn [map In]. intros [A|A]; [left|right; auto]. rewrite <- A. exact E. }
    assert (Same : unread k = false -> exists w1, w_parse st bl f w i i = (Ok tt, w1) /\ bounded w1 /\ grows w w1 /\ (exists c, w_heap w1 i = Some c /\ unread (nd_kind c) = false) /\
      (forall n c, last_named cs n c -> exists j, node_at (w_heap w1) i n = Some j /\ lc w1 c j (Some i) n) /\ (forall n, ~ In n (map fst cs) -> node_at (w_heap w1) i n = None) /\
      exists c, w_heap w1 i = Some c).
    { intro U. exists w. split; [unfold w_parse; rewrite H; cbn [nd_kind]; rewrite U; reflexivity|]. apply Fin; [exact B|apply grows_refl|eauto]. }
    destruct K as [[->| ->]|(b & d & -> & T & D)]; [apply Same; reflexivity..|]. destruct b; [apply Same; reflexivity|].
    unfold w_parse. rewrite H. cbn [unread nd_kind negb]. unfold w_load. rewrite T, (done_children f st s d D F).
    cbn [plant_list]. unfold parse. rewrite H. cbn [nd_kind]. unfold parse_as. cbn [set_thing w_heap w_thing w_next w_cache]. rewrite H. cbn [fold_left nd_name nd_parent nd_slots].
    eexists. split; [reflexivity|]. apply Fin.
    - intros j c. cbn [w_heap w_next]. unfold put. destruct (j =? i) eqn:E; [lia|]. apply B.
    - split; cbn [w_next w_thing w_heap]; [lia|]. intros j J. unfold put. destruct (j =? i) eqn:E; [|left; split; reflexivity].
      apply Z.eqb_eq in E. subst j. right. left. exists name, p, (filled l). auto.
    - exists (KDir true). cbn [w_heap]. unfold put. rewrite Z.eqb_refl. auto.
  Qed.

  Lemma image_parse w i props : bounded w -> waits w i props \/ good w i props -> exists w1, w_parse st bl f w i i = (Ok tt, w1) /\ bounded w1 /\ grows w w1 /\ good w1 i props.
  Proof.
    intros B [W|G]; [apply read_grows; assumption|]. exists w. pose proof G as (r & nm & off & size & c & _ & _ & H & K & _).
    split; [unfold w_parse; rewrite H, K; reflexivity|]. split; [exact B|]. split; [apply grows_refl|exact G].
  Qed.

  (** What a node must be to stand for a place. *)
  Definition standing (w : world) (j : id) (z : place) : Prop :=
    match z with
    | PlDir _ => exists c, w_heap w j = Some c /\ (nd_kind c = KFile true \/ nd_kind c = KMsFile true \/ exists b, nd_kind c = KDir b)
    | PlImage _ => exists r, ok r /\ ((exists name off size, w_thing w j = ThImage r name off size) \/
                                     (exists buf e x, w_thing w j = ThMsImage buf e /\ to_wz_image bl buf e = Ok x /\ r = own_reader st x))
    | PlProp v => exists r o sub, ok r /\ w_thing w j = ThProp r o /\ shows r (Node o sub) v
    end.
  Lemma good_standing w i props Q j z : good w i props -> leads (PlImage props) Q z ->
    (forall r, (exists nm off size, w_thing w i = ThImage r nm off size) ->
      match z with PlProp v => exists o sub cj, w_thing w j = ThProp r o /\ shows r (Node o sub) v /\ w_heap w j = Some cj /\ unread (nd_kind cj) = false /\ is_image cj = false | _ => j = i end) ->
    standing w j z.
  Proof.
    intros (r & nm & off & size & c & O & T & _) L Z. specialize (Z r ltac:(eauto)). destruct z as [cs|ps|v]; cbn [standing].
    - destruct (image_nodir _ _ _ L cs eq_refl).
    - subst j. exists r. split; [exact O|]. left. eauto.
    - destruct Z as (o & sub & cj & Tj & Sh & _). exists r, o, sub. auto.
  Qed.

  Lemma walk_links : forall comps cs w i, bounded w -> dir_at w i cs ->
    (forall Q z, gets cs comps Q z -> exists j w', w_fold st bl f w i comps = (Ok j, w') /\ bounded w' /\ grows w w' /\ standing w' j z /\
       passes w' i comps (Some j) /\ above (w_heap w') i Q j) /\
    (lacks cs comps -> exists w', w_fold st bl f w i comps = (Err ENotFound, w') /\ bounded w' /\ grows w w' /\ passes w' i comps None).
  Proof.
    induction comps as [|n rest IH]; intros cs w i B A.
    - split; [|intro L; inversion L]. intros Q z G. inversion G; subst. exists i, w. split; [reflexivity|]. split; [exact B|]. split; [apply grows_refl|].
      destruct A as (name & k & p & l & H & I & K & R). split; [|split; [constructor|econstructor; exact H]].
      eexists. split; [exact H|]. cbn [nd_kind]. destruct K as [[->| ->]|(b & d & -> & _)]; eauto.
    - destruct (dir_parse w i cs B A) as (w1 & E & B1 & G1 & (c1 & H1 & U1) & In1 & No1 & _). cbn [w_fold]. rewrite E.
      (* a directory below *)
      assert (Dn : forall kids, last_named cs n (CDir kids) -> exists j, node_at (w_heap w1) i n = Some j /\ dir_at w1 j kids /\ child_of (w_heap w1) n j i).
      { intros kids L. destruct (In1 n _ L) as (j & N & Lj). exists j. split; [exact N|]. inversion Lj as [|d b ? ? ? ? l Hj Tj Ij Dj Rj]; subst. split.
        - exists n, (KDir b), (Some i), l. split; [exact Hj|]. split; [exact Ij|]. split; [right; eauto|exact Rj].
        - split; [eexists; split; [exact Hj|auto]|eauto]. }
      (* an image below *)
      assert (Im : forall props, last_named cs n (CImage props) -> exists j, node_at (w_heap w1) i n = Some j /\ (waits w1 j props \/ good w1 j props) /\ child_of (w_heap w1) n j i).
      { intros props L. destruct (In1 n _ L) as (j & N & Lj). exists j. split; [exact N|]. inversion Lj as [? ? ? ? (c & Hc & Nc & Pc) Ij Wj|]; subst. split; [exact Wj|].
        split; [exists c; split; [exact Hc|auto]|eauto]. }
      assert (Pass : forall w' j o, grows w1 w' -> node_at (w_heap w1) i n = Some j -> passes w' j rest o -> passes w' i (n :: rest) o).
      { intros w' j o G' N P. destruct (grows_read w1 w' i c1 B1 G' H1 U1) as [H' _]. eapply passes_on; [exact H'|exact U1| |exact P].
        unfold node_at in *. rewrite H'. rewrite H1 in N. exact N. }
      assert (Ab : forall w' j Q k, grows w1 w' -> child_of (w_heap w1) n j i -> above (w_heap w') j Q k -> above (w_heap w') i (n :: Q) k).
      { intros w' j Q k G' Ch Aj. change (n :: Q) with ([n] ++ Q). eapply above_join; [|exact Aj]. change [n] with ([] ++ [n]). econstructor.
        - destruct (grows_read w1 w' i c1 B1 G' H1 U1) as [H' _]. econstructor. exact H'.
        - eapply grows_child; eassumption. }
      split.
      + intros Q z Ge. inversion Ge as [|? ? kids ? Q' ? L Ge'|? ? props ? Q' ? L Fo Lz]; subst.
        * destruct (Dn kids L) as (j & N & Aj & Ch). rewrite N. destruct (IH kids w1 j B1 Aj) as [IHg _]. destruct (IHg Q' z Ge') as (j' & w' & E' & B' & G' & S' & P' & A').
          exists j', w'. split; [exact E'|]. split; [exact B'|]. split; [exact (grows_trans w w1 w' B B1 G1 G')|]. split; [exact S'|]. split; [eapply Pass; eassumption|eapply Ab; eassumption].
        * destruct (Im props L) as (j & N & Wj & Ch). rewrite N. destruct rest as [|m rest].
          -- assert (Q' = [] /\ z = PlImage props) as [-> ->].
             { inversion Fo; subst. split; [reflexivity|]. inversion Lz; subst. reflexivity. }
             exists j, w1. split; [reflexivity|]. split; [exact B1|]. split; [exact G1|]. split.
             { destruct Wj as [(name & k & p & r & off & size & kids & us & Hj & Uj & Tj & Oj & _)|(r & nm & off & size & c & O & T & _)]; cbn [standing].
               - exists r. split; [exact Oj|]. inversion Tj as [b ? ? ? ? Ek Et|buf e x Tx Ek Et]; subst; [left|right]; eauto 8.
               - exists r. split; [exact O|]. left. eauto. }
             split; [eapply Pass; [apply grows_refl|exact N|constructor]|]. destruct (proj1 Ch) as (cj & Hj & _). eapply Ab; [apply grows_refl|exact Ch|econstructor; exact Hj].
          -- destruct (image_parse w1 j props B1 Wj) as (w2 & E2 & B2 & G2 & Go). pose proof Go as (r & nm & off & size & c & O & T & H & K & Ag & So & R).
             destruct (R (m :: rest)) as [R1 _]. destruct (R1 Q' Fo) as (q & z' & Lz' & Pq & Aq & Zq). assert (z' = z) as -> by (eapply leads_unique; eassumption).
             destruct (passes_fold _ _ _ _ Pq st bl f) as [_ Fq]. exists q, w2. split.
             { cbn [w_fold] in Fq |- *. rewrite E2. unfold w_parse in Fq. rewrite H, K in Fq. exact Fq. }
             split; [exact B2|]. split; [exact (grows_trans w w1 w2 B B1 G1 G2)|]. split; [|split; [eapply Pass; eassumption|eapply Ab; eassumption]].
             eapply good_standing; [exact Go|exact Lz|]. intros r' (a & b & d & T'). rewrite T in T'. injection T' as <- _ _ _. exact Zq.
      + intro La. inversion La as [? ? ? Nn|? ? kids ? L La'|? ? props ? L Mi]; subst.
        * rewrite (No1 n Nn). exists w1. split; [reflexivity|]. split; [exact B1|]. split; [exact G1|]. eapply passes_not; [exact H1|exact U1|apply No1, Nn].
        * destruct (Dn kids L) as (j & N & Aj & Ch). rewrite N. destruct (IH kids w1 j B1 Aj) as [_ IHl]. destruct (IHl La') as (w' & E' & B' & G' & P').
          exists w'. split; [exact E'|]. split; [exact B'|]. split; [exact (grows_trans w w1 w' B B1 G1 G')|]. eapply Pass; eassumption.
        * destruct (Im props L) as (j & N & Wj & Ch). rewrite N. destruct rest as [|m rest]; [inversion Mi|].
          destruct (image_parse w1 j props B1 Wj) as (w2 & E2 & B2 & G2 & Go). pose proof Go as (r & nm & off & size & c & O & T & H & K & Ag & So & R).
          destruct (R (m :: rest)) as [_ R2]. specialize (R2 Mi). destruct (passes_fold _ _ _ _ R2 st bl f) as [_ Fq]. exists w2. split.
          { cbn [w_fold] in Fq |- *. rewrite E2. unfold w_parse in Fq. rewrite H, K in Fq. exact Fq. }
          split; [exact B2|]. split; [exact (grows_trans w w1 w2 B B1 G1 G2)|]. eapply Pass; eassumption.
  Qed.

  (** * Planting *)
  Inductive dl : text -> dnode -> content -> Prop :=
  | dl_image name off size props kids us : ok (sh_rd s) -> shows_kids (sh_rd s) kids props -> image_children f (sh_rd s) name off size = Ok (kids, us) -> neat props ->
      dl name (NImage off size) (CImage props)
  | dl_dir name d kids cs : done d -> dll kids cs -> dl name (NDir d kids) (CDir cs)
  with dll : list (text * dnode) -> list (text * content) -> Prop :=
  | dll_nil : dll [] []
  | dll_cons name n c kids cs : dl name n c -> dll kids cs -> dll ((name, n) :: kids) ((name, c) :: cs).

  Lemma plant_dl_ok n : forall c p w name, dl name n c -> plants (fun w c i name => lc w c i (Some p) name) (fun _ => True) w name c (plant_dir s p w name n).
  Proof using.
    clear F. induction n as [off size| |d kids IH] using dnode_ind'; intros c p w name D; inversion D as [? ? ? props kids0 us Od Sd Id Nd|? ? ? cs Dd Dl]; subst; cbn [plant_dir].
    - unfold plants. destruct (fresh w name _ (Some p)) as [w1 i] eqn:E. apply fresh_ok in E as (-> & N1 & K1 & C1 & T1 & B1).
      split; [exact K1|]. split; [lia|]. split; [|split; [exact B1|reflexivity]]. intros w'' [N H].
      destruct (H (w_next w) ltac:(lia)) as [Hi Ti]. constructor; [eexists; split; [rewrite Hi; exact C1|auto]|lia|]. left.
      exists name, (KImage false), (Some p), (sh_rd s), off, size, kids0, us. split; [rewrite Hi; exact C1|]. split; [reflexivity|]. split; [rewrite Ti, T1; constructor|]. auto.
    - destruct (fresh w name (ThDir s d) (Some p)) as [w1 i] eqn:Fr.
      destruct (plant_list (plant_dir s i) w1 kids) as [[w2 l] us] eqn:E.
      assert (Z : exists zs : list (text * (dnode * content)), map (fun e => (fst e, fst (snd e))) zs = kids /\ map (fun e => (fst e, snd (snd e))) zs = cs /\
                 Forall (fun e => dl (fst e) (fst (snd e)) (snd (snd e))) zs).
      { clear - Dl. induction Dl as [|name n c kids cs D _ (zs & <- & <- & Fa)]; [exists []; repeat split; constructor|].
        exists ((name, (n, c)) :: zs). cbn [map fst snd]. repeat split. constructor; assumption. }
      destruct Z as (zs & <- & <- & Fa).
      assert (E' : plant_list (fun w name (x : dnode * content) => plant_dir s i w name (fst x)) w1 zs = (w2, l, us)).
      { rewrite <- E. clear. revert w1. induction zs as [|[k [n c]] zs IH]; intro w; [reflexivity|]. cbn [map fst snd]. rewrite !plant_list_cons. cbn [fst snd].
        destruct (plant_dir s i w k n) as [[w3 i3] u3]. rewrite (IH w3). reflexivity. }
      destruct (plant_step f st bl (fun w x j name => lc w (snd x) j (Some i) name) (fun _ => True) _ _ _ _ _ _ _ _ _ _ _ Fr E') as (K & I & R & B & U).
      { clear - IH Fa. induction zs as [|[k [n c]] zs IHz]; [constructor|]. cbn [map fst snd] in IH.
        inversion_clear IH as [|? ? IHn IHr]. inversion_clear Fa as [|? ? Dn Fr]. constructor; [|auto]. cbn [fst snd] in *.
        intro w. specialize (IHn c i w k Dn). exact IHn. }
      split; [exact K|]. split; [exact I|]. split; [|split; [exact B|]].
      + intros w'' H. apply R in H as (N & C & T & L). eapply lc_dir with (b := false); try eassumption. apply lcl_f2. clear - L.
        induction L as [|[k [n c]] d zs l [E H] _ IH]; cbn [map fst snd] in *; constructor; auto.
      + intros _. apply U. apply Forall_forall. auto.
  Qed.
  Lemma plant_dll_ok i kids cs : dll kids cs -> forall w w' l us, plant_list (plant_dir s i) w kids = (w', l, us) ->
    keeps w w' /\ (forall w'', has w w' w'' -> lcl w'' i cs l) /\ (bounded w -> bounded w').
  Proof using.
    clear F. induction 1 as [|name n c kids cs D _ IH]; intros w w' l us.
    - intros [= <- <- <-]. split; [apply keeps_refl|]. split; [constructor|auto].
    - rewrite plant_list_cons. pose proof (plant_dl_ok n c i w name D) as P.
      destruct (plant_dir s i w name n) as [[w3 i3] u3]. destruct P as (K3 & I3 & R3 & B3 & _).
      destruct (plant_list (plant_dir s i) w3 kids) as [[w4 l4] u4] eqn:E4. destruct (IH _ _ _ _ E4) as (K4 & R4 & B4).
      intros [= <- <- <-]. pose proof K3 as [N3 K3']. pose proof K4 as [N4 K4'].
      split; [eapply keeps_trans; eassumption|]. split; [|auto].
      intros w'' [N H]. constructor.
      + apply R3. split; [lia|]. intros j J. destruct (H j ltac:(lia)) as [-> ->]. apply K4'. lia.
      + apply R4. split; [lia|]. intros j J. apply H. lia.
  Qed.

  (** * Any number of lookups *)
  Variable cs : list (text * content).
  Variable name : text.
  Hypothesis Total : forall comps, (exists Q z, gets cs comps Q z) \/ lacks cs comps.
  (** The file, read. *)
  Definition linked_world (w : world) : Prop :=
    bounded w /\ dir_at w 0 cs /\ exists k sl, w_heap w 0 = Some (mkCell name k None sl) /\ unread k = false.
  Lemma linked_grows w w' : linked_world w -> bounded w' -> grows w w' -> linked_world w'.
  Proof.
    clear Total. intros (B & A & k & sl & H & U) B' G. split; [exact B'|]. split; [exact (grows_dir w w' 0 cs B G A)|]. exists k, sl. split; [|exact U]. apply (grows_read w w' 0 _ B G H U).
  Qed.
  Lemma linked_fold w path : linked_world w -> w_at_path_parsed st bl f w 0 path = w_fold st bl f w 0 (split_slash path).
  Proof using. clear F.
    intros (B & A & k & sl & H & U). unfold w_at_path_parsed. destruct (split_slash path) as [|c r] eqn:E.
    - exfalso. clear - E. destruct path as [|x p]; cbn [split_slash] in E; [discriminate|]. destruct (x =? 47); [discriminate|]. destruct (split_slash p); discriminate.
    - cbn [w_fold]. unfold w_parse. rewrite H. cbn [nd_kind]. rewrite U. reflexivity.
  Qed.
  Lemma linked_look w path : linked_world w -> linked_world (snd (w_at_path_parsed st bl f w 0 path)) /\ grows w (snd (w_at_path_parsed st bl f w 0 path)).
  Proof.
    intro L. rewrite (linked_fold w path L). pose proof L as (B & A & _). destruct (walk_links (split_slash path) cs w 0 B A) as [G N].
    destruct (Total (split_slash path)) as [(Q & z & Ge)|La].
    - destruct (G Q z Ge) as (j & w' & E & B' & Gr & _). rewrite E. cbn [snd]. split; [eapply linked_grows; eassumption|exact Gr].
    - destruct (N La) as (w' & E & B' & Gr & _). rewrite E. cbn [snd]. split; [eapply linked_grows; eassumption|exact Gr].
  Qed.
End images.

(** * The file *)
Lemma stocked_reads (ok : rd -> Prop) s ts cs : ok (sh_rd s) -> zlen (rd_buf (sh_rd s)) < 2 ^ 31 -> (forall j, byte (rd_ks (sh_rd s) j)) ->
  stocked (rd_buf (sh_rd s)) (rd_ks (sh_rd s)) ts cs ->
  exists f0, forall f, (f0 <= f)%nat -> forall kids, shows_trees kids ts -> settled_trees kids -> dll f ok s kids cs.
Proof.
  intros Ok_ Hs Hk. induction 1 as [|name off size props ts cs Nt L Ne _ (f1 & IH)|name off size sub subc ts cs _ (f1 & IH1) _ (f2 & IH2)].
  - exists 0%nat. intros f _ kids S _. inversion S. constructor.
  - destruct (image_shows (sh_rd s) name size off props Hs Hk L Nt) as (f0 & ks & R). exists (Nat.max f0 f1).
    intros f Hf kids S St. inversion S as [|? n ? kids' ? Sn Sk]; subst. inversion_clear St as [|? ? St1 St2]. inversion Sn; subst.
    constructor; [|apply IH; [lia|exact Sk|exact St2]]. destruct (R f ltac:(lia)) as (Sh & us & Im). econstructor; eassumption.
  - exists (Nat.max f1 f2). intros f Hf kids S St. inversion S as [|? n ? kids' ? Sn Sk]; subst. inversion_clear St as [|? ? St1 St2]. inversion Sn; subst.
    cbn [snd] in St1. inversion_clear St1 as [| |? ? Dd Ds]. constructor; [|apply IH2; [lia|exact Sk|exact St2]]. constructor; [exact Dd|]. apply IH1; [lia|assumption|exact Ds].
Qed.
Lemma level_total cs : (forall n props, In (n, CImage props) cs -> neat props) ->
  (forall n kids, In (n, CDir kids) cs -> forall comps, (exists Q z, gets kids comps Q z) \/ lacks kids comps) ->
  forall comps, (exists Q z, gets cs comps Q z) \/ lacks cs comps.
Proof.
  intros Im Dr [|n rest]; [left; exists [], (PlDir cs); constructor|].
  assert (La : (exists x, last_named cs n x) \/ ~ In n (map fst cs)).
  { clear. induction cs as [|[k x] l IH]; [right; intros []|]. destruct IH as [(y & pre & post & -> & N)|N].
    - left. exists y, ((k, x) :: pre), post. auto.
    - destruct (list_eq_dec Z.eq_dec k n) as [->|D]; [left; exists x, [], l; auto|right]. cbn [map fst In]. tauto. }
  destruct La as [([props|kids] & L)|N]; [| |right; apply lacks_here, N].
  - destruct (neat_total props (Im _ _ (named_in _ _ _ L)) rest) as [[Q Fo]|Mi]; [|right; eapply lacks_image; eassumption].
    destruct (follows_place _ _ _ _ Fo (ex_intro _ (PlImage props) (leads_here _))) as (z & Lz). left. exists (n :: Q), z. eapply gets_image; eassumption.
  - destruct (Dr _ _ (named_in _ _ _ L) rest) as [(Q & z & G)|N]; [left; exists (n :: Q), z; eapply gets_dir; eassumption|right; eapply lacks_dir; eassumption].
Qed.
Lemma stocked_total buf ks ts cs : stocked buf ks ts cs -> forall comps, (exists Q z, gets cs comps Q z) \/ lacks cs comps.
Proof.
  intro St.
  assert (I : (forall n props, In (n, CImage props) cs -> neat props) /\ (forall n kids, In (n, CDir kids) cs -> forall comps, (exists Q z, gets kids comps Q z) \/ lacks kids comps)).
  { induction St as [|name off size props ts cs Nt L Ne _ [A B]|name off size sub subc ts cs _ [A' B'] _ [A B]].
    - split; intros ? ? [].
    - split; intros n x [E|I]; [injection E as _ <-; exact Ne|exact (A n x I)|discriminate E|exact (B n x I)].
    - split; intros n x [E|I]; [discriminate E|exact (A n x I)| |exact (B n x I)]. injection E as _ <-. apply level_total; assumption. }
  destruct I as [A B]. apply level_total; assumption.
Qed.

Lemma dll_shared f ok s s' : sh_rd s = sh_rd s' -> forall kids cs, dll f ok s kids cs -> dll f ok s' kids cs.
Proof.
  intro E.
  assert (N : forall n name c, dl f ok s name n c -> dl f ok s' name n c).
  { induction n as [off size| |d kids IH] using dnode_ind'; intros name c D; inversion D as [? ? ? props kids0 us Od Sd Id Nd|? ? ? cs Dd Dl]; subst.
    - rewrite E in Od, Sd, Id. econstructor; eassumption.
    - constructor; [exact Dd|]. clear - IH Dl. induction Dl as [|nm n c kids cs D _ IHl]; [constructor|].
      inversion_clear IH as [|? ? I1 I2]. constructor; [apply I1, D|apply IHl, I2]. }
  intros kids cs D. induction D; constructor; auto.
Qed.

(** The file node, once read. *)
Lemma file_stocked st bl ok f name buf iv existing patch cache h x cs : header_of buf = Ok h ->
  parse_file st f buf iv existing patch None cache = Ok x -> dll f ok (shared_of st buf h x) (pf_kids x) cs ->
  exists w1, w_parse st bl f (w_open name buf iv existing patch cache) 0 0 = (Ok tt, w1) /\ linked_world f st bl ok (shared_of st buf h x) cs name w1.
Proof.
  intros Hh P D. set (s := shared_of st buf h x) in *. unfold w_open, fresh, nowhere. cbn [fst w_next w_heap w_thing w_cache kind_of].
  set (w0 := mkWorld _ _ _ _). assert (B0 : bounded w0).
  { intros j c. subst w0. cbn [w_heap w_next]. unfold put. destruct (j =? 0) eqn:E; [lia|discriminate]. }
  assert (C0 : w_heap w0 0 = Some (mkCell name (KFile false) None [])) by reflexivity.
  unfold w_parse. rewrite C0. cbn [nd_kind unread negb]. unfold w_load. change (w_thing w0 0) with (ThFile buf iv existing patch). cbv iota.
  change (w_cache w0) with cache. rewrite Hh. cbn [rbind]. rewrite P. unfold rmap; cbn [rbind]; cbv iota. fold s.
  destruct (plant_list (plant_dir s 0) (set_cache w0 (pf_cache x)) (pf_kids x)) as [[w1 l] us] eqn:E.
  destruct (plant_dll_ok f st bl ok s 0 _ _ D _ _ _ _ E) as (K & R & B).
  destruct K as [N K]. change (w_next (set_cache w0 (pf_cache x))) with 1 in *. destruct (K 0 ltac:(lia)) as [H0 _]. change (w_heap (set_cache w0 (pf_cache x)) 0) with (w_heap w0 0) in H0.
  unfold parse. rewrite C0. cbn [nd_kind]. unfold parse_as. rewrite H0, C0. cbn [fold_left nd_name nd_parent nd_slots].
  change (fold_left (fun l0 e => slot_insert l0 (fst e) (snd e)) l []) with (filled l).
  eexists _. split; [reflexivity|]. split; [|split].
  - intros j c. cbn [w_heap w_next]. unfold put. destruct (j =? 0) eqn:J; [lia|]. apply B, B0.
  - exists name, (KFile true), None, l. cbn [w_heap w_next]. split; [unfold put; reflexivity|]. split; [lia|]. split; [left; left; reflexivity|].
    apply R. split; cbn [w_next w_heap w_thing]; [lia|]. change (w_next (set_cache w0 (pf_cache x))) with 1. intros j J. split; [|reflexivity]. unfold put. replace (j =? 0) with false by lia. reflexivity.
  - exists (KFile true), (filled l). split; reflexivity.
Qed.

(** The archive node, once read. *)
Lemma plant_ms_links f st bl (ok : rd -> Prop) s buf i es cs :
  Forall2 (fun e c => me_name e = fst c /\ exists x props kids us, snd c = CImage props /\ to_wz_image bl buf e = Ok x /\ ok (own_reader st x) /\
     shows_kids (own_reader st x) kids props /\ image_children f (own_reader st x) (me_name e) 0 (wrap 64 (me_size e)) = Ok (kids, us) /\ neat props) es cs ->
  forall w w' l us, plant_list (plant_ms buf i) w (map (fun e => (me_name e, e)) es) = (w', l, us) ->
  keeps w w' /\ (forall w'', has w w' w'' -> lcl f st bl ok s w'' i cs l) /\ (bounded w -> bounded w').
Proof.
  induction 1 as [|e [nm c] es cs (En & x & props & kids & us0 & Ec & Tx & Ox & Sx & Ix & Nx) _ IH]; intros w w' l us; cbn [map].
  - intros [= <- <- <-]. split; [apply keeps_refl|]. split; [constructor|auto].
  - cbn [fst snd] in *. subst nm c. rewrite plant_list_cons. unfold plant_ms at 1. destruct (fresh w (me_name e) (ThMsImage buf e) (Some i)) as [w3 i3] eqn:E3.
    apply fresh_ok in E3 as (-> & N3 & K3 & C3 & T3 & B3).
    destruct (plant_list (plant_ms buf i) w3 (map (fun e => (me_name e, e)) es)) as [[w4 l4] u4] eqn:E4. destruct (IH _ _ _ _ E4) as (K4 & R4 & B4).
    intros [= <- <- <-]. pose proof K3 as [M3 K3']. pose proof K4 as [N4 K4'].
    split; [eapply keeps_trans; eassumption|]. split; [|auto].
    intros w'' [N H]. constructor.
    + destruct (H (w_next w) ltac:(lia)) as [Hh Ht]. destruct (K4' (w_next w) ltac:(lia)) as [Kh Kt].
      constructor; [eexists; split; [rewrite Hh, Kh; exact C3|split; reflexivity]|lia|]. left.
      exists (me_name e), KMsImage, (Some i), (own_reader st x), 0, (wrap 64 (me_size e)), kids, us0.
      split; [rewrite Hh, Kh; exact C3|]. split; [reflexivity|]. split; [rewrite Ht, Kt, T3; constructor; exact Tx|]. auto.
    + apply R4. split; [lia|]. intros j J. apply H. lia.
Qed.
Lemma archive_stocked st bl (ok : rd -> Prop) s f name buf h es cs : ms_parse bl h buf = Ok es ->
  Forall2 (fun e c => me_name e = fst c /\ exists x props kids us, snd c = CImage props /\ to_wz_image bl buf e = Ok x /\ ok (own_reader st x) /\
     shows_kids (own_reader st x) kids props /\ image_children f (own_reader st x) (me_name e) 0 (wrap 64 (me_size e)) = Ok (kids, us) /\ neat props) es cs ->
  exists w1, w_parse st bl f (fst (fresh (nowhere []) name (ThMsFile buf h) None)) 0 0 = (Ok tt, w1) /\ linked_world f st bl ok s cs name w1.
Proof.
  intros P D. unfold fresh, nowhere. cbn [fst w_next w_heap w_thing w_cache kind_of].
  set (w0 := mkWorld _ _ _ _). assert (B0 : bounded w0).
  { intros j c. subst w0. cbn [w_heap w_next]. unfold put. destruct (j =? 0) eqn:E; [lia|discriminate]. }
  assert (C0 : w_heap w0 0 = Some (mkCell name (KMsFile false) None [])) by reflexivity.
  unfold w_parse. rewrite C0. cbn [nd_kind unread negb]. unfold w_load. change (w_thing w0 0) with (ThMsFile buf h). cbv iota. rewrite P.
  destruct (plant_list (plant_ms buf 0) w0 _) as [[w1 l] us] eqn:E.
  destruct (plant_ms_links f st bl ok s buf 0 _ _ D _ _ _ _ E) as (K & R & B).
  destruct K as [N K]. change (w_next w0) with 1 in *. destruct (K 0 ltac:(lia)) as [H0 _].
  unfold parse. rewrite C0. cbn [nd_kind]. unfold parse_as. rewrite H0, C0. cbn [fold_left nd_name nd_parent nd_slots].
  change (fold_left (fun l0 e => slot_insert l0 (fst e) (snd e)) l []) with (filled l).
  eexists _. split; [reflexivity|]. split; [|split].
  - intros j c. cbn [w_heap w_next]. unfold put. destruct (j =? 0) eqn:J; [lia|]. apply B, B0.
  - exists name, (KMsFile true), None, l. cbn [w_heap w_next]. split; [unfold put; reflexivity|]. split; [lia|]. split; [left; right; reflexivity|].
    apply R. split; cbn [w_next w_heap w_thing]; [lia|]. change (w_next w0) with 1. intros j J. split; [|reflexivity]. unfold put. replace (j =? 0) with false by lia. reflexivity.
  - exists (KMsFile true), (filled l). split; reflexivity.
Qed.
