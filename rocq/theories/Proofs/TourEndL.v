(** Lemmas on how walks through packages whose images have links end. *)
From Coq Require Import ZArith List Bool Lia Arith ZifyBool ZifyNat Permutation.
From Verif.Model Require Import Base Utf Keys Reader Header Offset VersionPkg2 Directory Image Media Guess File Node Ms World.
From Verif.Spec Require Import Wire StrWire Version PropWire PropView DirWire DirView PathSpec Tree Whole Linked WholeLinks.
From Verif.Proofs Require Import BaseL AtL ImageL NodeL UolL WorldL WalkWL LinkedL LinkWorldL TourLinksL.
Import ListNotations.
Open Scope Z_scope.

(** * A walk that ends does so at any greater depth *)
Lemma loop_in_more (rec rec' : world -> id -> res (list (id * world)) * world) : (forall w i, fst (rec w i) <> OutOfFuel -> rec' w i = rec w i) ->
  forall l w, fst (w_loop rec w l) <> OutOfFuel -> w_loop rec' w l = w_loop rec w l.
Proof.
  intro H. induction l as [|[n j] l IH]; intros w N; [reflexivity|]. cbn [w_loop] in *. pose proof (H w j) as Hj. destruct (rec w j) as [[a|e| |] w1]; cbn [fst] in *.
  - rewrite Hj by discriminate. destruct (w_loop rec w1 l) as [b w2] eqn:E. rewrite (IH w1); rewrite E; [reflexivity|]. cbn [fst]. intros ->. apply N. reflexivity.
  - rewrite Hj by discriminate. reflexivity.
  - rewrite Hj by discriminate. reflexivity.
  - contradiction.
Qed.
Lemma walk_in_more st bl f order force d : forall d' rd w i, (d <= d')%nat -> fst (w_walk_in st bl f order rd d force w i) <> OutOfFuel ->
  w_walk_in st bl f order rd d' force w i = w_walk_in st bl f order rd d force w i.
Proof.
  induction d as [|d IH]; intros d' rd w i Le N; [destruct (N eq_refl)|]. destruct d' as [|d']; [lia|]. cbn [w_walk_in] in *.
  destruct (force && held i rd); [reflexivity|].
  destruct (if force then w_parse st bl f w i i else (Ok tt, w)) as [[u|e| |] w1]; try reflexivity; (destruct (w_heap w1 i) as [c|]; [|reflexivity]);
    (rewrite (loop_in_more (w_walk_in st bl f order (i :: rd) d force) (w_walk_in st bl f order (i :: rd) d' force)); [reflexivity| |]);
    try (intros w0 j0; apply IH; lia); destruct (w_loop _ w1 (order (nd_slots c))) as [[x| | |] w2]; cbn [fst] in *; (discriminate || exact N).
Qed.

(** * An image has so many places *)
Lemma all_places {A} (g : A -> place) (l : list (list Z * A)) : (forall n x, In (n, x) l -> exists ps, forall c z, leads (g x) c z -> In c ps) ->
  exists ps, forall n x c z, In (n, x) l -> leads (g x) c z -> In (n :: c) ps.
Proof.
  induction l as [|[m y] l IH]; intro H; [exists []; intros ? ? ? ? []|].
  destruct IH as (ps & D); [intros n x I; apply (H n x); right; exact I|]. destruct (H m y (or_introl eq_refl)) as (qs & E).
  exists (map (cons m) qs ++ ps). intros n x c z [I|I] L; apply in_or_app; [left; injection I as <- <-; apply in_map; eauto|right; eauto].
Qed.
Lemma prop_places : forall v, exists ps, forall c z, leads (PlProp v) c z -> In c ps.
Proof.
  apply prop_nest. intros v IH. destruct (below_total v) as (kids & B).
  destruct (all_places PlProp kids (fun n u I => IH kids n u B I)) as (ps & D). exists ([] :: ps). intros c z L.
  inversion L as [|? n q rest ? In_ L']; subst; [left; reflexivity|right]. inversion In_ as [| |? ks ? u B' La]; subst. rewrite (below_unique _ _ _ B' B) in La.
  exact (D n u rest z (named_in _ _ _ La) L').
Qed.
Lemma image_places props : exists ps, forall c z, leads (PlImage props) c z -> In c ps.
Proof.
  destruct (all_places PlProp props (fun _ u _ => prop_places u)) as (ps & D). exists ([] :: ps). intros c z L.
  inversion L as [|? n q rest ? In_ L']; subst; [left; reflexivity|right]. inversion In_ as [|? ? u La|]; subst. exact (D n u rest z (named_in _ _ _ La) L').
Qed.
Lemma loop_out (Inv : world -> Prop) (rec : world -> id -> res (list (id * world)) * world) l :
  (forall n j w tr w', In (n, j) l -> Inv w -> rec w j = (Ok tr, w') -> Inv w') ->
  forall w, Inv w -> fst (w_loop rec w l) = OutOfFuel -> exists n j wk, In (n, j) l /\ Inv wk /\ fst (rec wk j) = OutOfFuel.
Proof.
  induction l as [|[n j] l IH]; intros H w I E; [discriminate E|]. cbn [w_loop] in E. destruct (rec w j) as [[a|e| |] w1] eqn:E1; try discriminate E.
  - destruct (w_loop rec w1 l) as [b w2] eqn:E2. cbn [fst] in E. destruct (IH (fun n j w tr w' K => H n j w tr w' (or_intror K)) w1) as (n0 & j0 & wk & I0 & K & O).
    + eapply H; [left; reflexivity|exact I|exact E1].
    + rewrite E2. cbn [fst]. destruct b; (discriminate E || reflexivity).
    + exists n0, j0, wk. split; [right; exact I0|]. auto.
  - exists n, j, w. split; [left; reflexivity|]. rewrite E1. auto.
Qed.

Section ends.
  Variable f : nat.
  Variable st : list Z -> nat -> Z.
  Variable bl : list Z -> list Z -> Z -> list Z.
  Variable ok : rd -> Prop.
  Variable s : shared.
  Hypothesis F : (0 < f)%nat.
  Variable order : list (text * id) -> list (text * id).
  Hypothesis Ord : forall l, Permutation (order l) l.
  Local Notation good := (good f ok).
  Local Notation walk := (free_walk st bl f order).
  Local Notation lock := (w_walk_in st bl f order).

  (** A walk below an image that goes too deep has met so many different nodes. *)
  Lemma chain w i props : good w i props -> one_each (w_heap w) -> forall d rd a k, passes w i a (Some k) -> a <> [] ->
    fst (lock rd d true w k) = OutOfFuel ->
    exists ms, length ms = d /\ NoDup ms /\ (forall m, In m ms -> ~ In m rd) /\ forall m, In m ms -> exists b, passes w i b (Some m).
  Proof using Ord.
    clear F. intros Go O. induction d as [|d IH]; intros rd a k P Na E.
    { exists []. split; [reflexivity|]. split; [constructor|]. split; intros ? []. }
    assert (Kr : exists c, w_heap w k = Some c /\ unread (nd_kind c) = false).
    { destruct (good_nodes f ok w i props a k Go P) as (r & Q & z & _ & _ & _ & _ & Z).
      assert (X : k = i -> exists c, w_heap w k = Some c /\ unread (nd_kind c) = false).
      { intros ->. destruct Go as (r' & nm & off & size & c & _ & _ & H & K & _). exists c. split; [exact H|]. rewrite K. reflexivity. }
      destruct z as [cs|ps|v]; [apply X, Z|apply X, Z|]. destruct Z as (o & sub & cj & _ & _ & H & U & _). eauto. }
    destruct Kr as (c & H & U). pose proof (O _ _ H) as N. cbn [w_walk_in] in E. cbn [andb] in E.
    destruct (held k rd) eqn:Hk; [discriminate E|]. unfold w_parse in E. rewrite H, U, H in E.
    assert (Kid : forall n m, In (n, m) (order (nd_slots c)) -> passes w k [n] (Some m)).
    { intros n m In_. apply (Permutation_in _ (Ord _)) in In_. eapply passes_on; [exact H|exact U|eapply node_in; eassumption|constructor]. }
    destruct (loop_out (eq w) (lock (k :: rd) d true) (order (nd_slots c))) with (w := w) as (n & j & wk & Ij & <- & Ej).
    { intros n j w0 tr w' Ij <- Ej. apply locked_free in Ej.
      destruct (inner f st bl ok order Ord w i props Go O d (a ++ [n]) j (passes_app _ _ _ _ _ _ P (Kid n j Ij)) ltac:(destruct a; discriminate)) as [Cj|[(w2 & E2) _]]; [|congruence].
      destruct (calm_walk f st bl order Ord w d j Cj) as (t2 & _ & E2 & _). congruence. }
    { reflexivity. }
    { destruct (w_loop _ w (order (nd_slots c))) as [[x| | |] w2]; (discriminate E || reflexivity). }
    destruct (IH (k :: rd) (a ++ [n]) j (passes_app _ _ _ _ _ _ P (Kid n j Ij)) ltac:(destruct a; discriminate) Ej) as (ms & Lm & Nm & Dm & Pm).
    exists (k :: ms). split; [cbn [length]; lia|]. split.
    { constructor; [|exact Nm]. intro I. apply (Dm k I). left. reflexivity. }
    split.
    - intros m [<-|I] J; [|apply (Dm m I); right; exact J]. unfold held in Hk. rewrite <- not_true_iff_false in Hk. apply Hk. apply existsb_exists. exists k. split; [exact J|apply Z.eqb_refl].
    - intros m [<-|I]; [exists a; exact P|apply Pm, I].
  Qed.
  Lemma chain_short w i props ps ms : good w i props -> (forall c z, leads (PlImage props) c z -> In c ps) -> NoDup ms ->
    (forall m, In m ms -> exists b, passes w i b (Some m)) -> (length ms <= length ps)%nat.
  Proof using.
    clear F Ord order. intros Go Al N P.
    assert (X : exists qs, Forall2 (fun m Q => exists b z, passes w i b (Some m) /\ follows props [] b Q /\ leads (PlImage props) Q z) ms qs).
    { clear N. induction ms as [|m ms IH]; [exists []; constructor|]. destruct IH as (qs & V); [intros x I; apply P; right; exact I|].
      destruct (P m (or_introl eq_refl)) as (b & Pb). destruct (good_nodes f ok w i props b m Go Pb) as (r & Q & z & _ & Fo & Lz & _). exists (Q :: qs). constructor; [eauto|exact V]. }
    destruct X as (qs & V). assert (L : length ms = length qs) by (clear - V; induction V; cbn [length]; congruence). rewrite L.
    apply NoDup_incl_length.
    - clear L P. revert N. induction V as [|m Q ms qs (b & z & Pb & Fb & _) V IH]; intro N; constructor; inversion_clear N as [|? ? Nm N']; [|auto].
      intro I. apply Nm. clear - I V Pb Fb Go. assert (Y : exists m' b', In m' ms /\ passes w i b' (Some m') /\ follows props [] b' Q).
      { induction V as [|m' Q' ms qs (b' & z' & Pb' & Fb' & _) V IH]; [destruct I|]. destruct I as [->|I]; [exists m', b'; split; [left; reflexivity|auto]|].
        destruct (IH I) as (m2 & b2 & I2 & R). exists m2, b2. split; [right; exact I2|exact R]. }
      destruct Y as (m' & b' & I' & Pb' & Fb'). destruct Go as (r & nm & off & size & c & _ & _ & _ & _ & _ & So & _). rewrite (proj1 So b b' Q m m' Fb Fb' Pb Pb'). exact I'.
    - intros Q I. clear - V I Al. induction V as [|m Q' ms qs (b & z & _ & _ & Lz) _ IH]; [destruct I|]. destruct I as [->|I]; eauto.
  Qed.
End ends.

Lemma all_depths {A} (X : A -> nat -> Prop) (l : list (list Z * A)) : (forall n x, In (n, x) l -> exists D, forall d, (D <= d)%nat -> X x d) ->
  exists D, forall d n x, (D <= d)%nat -> In (n, x) l -> X x d.
Proof.
  induction l as [|[m y] l IH]; intro H; [exists O; intros ? ? ? _ []|].
  destruct IH as (D & HD); [intros n x I; apply (H n x); right; exact I|]. destruct (H m y (or_introl eq_refl)) as (E & HE).
  exists (Nat.max D E). intros d n x Le [I|I]; [injection I as _ <-; apply HE; lia|eapply HD; [lia|exact I]].
Qed.
Section ending.
  Variable f : nat.
  Variable st : list Z -> nat -> Z.
  Variable bl : list Z -> list Z -> Z -> list Z.
  Variable ok : rd -> Prop.
  Variable s : shared.
  Hypothesis F : (0 < f)%nat.
  Local Notation lock order := (w_walk_in st bl f order).

  Definition never_out (c : content) (d : nat) : Prop := forall order w i rd l, (forall l, Permutation (order l) l) -> rest_ok w -> at_content f st bl ok s w c i -> up (w_heap w) i l -> incl rd l ->
    fst (lock order rd d true w i) <> OutOfFuel.
  Theorem content_ends : forall c, exists D, forall d, (D <= d)%nat -> never_out c d.
  Proof.
    fix IH 1. intros [props|cs].
    - clear IH. destruct (image_places props) as (ps & Al). exists (S (S (length ps))). intros d Le order w i rd l Ord [B O] A U In_ E. destruct d as [|d]; [lia|].
      cbn [w_walk_in] in E. rewrite held_not in E by (intro I; exact (up_out _ _ _ U (In_ _ I))). cbn [andb] in E.
      destruct (image_parse f st bl ok s F w i props B A) as (w1 & E1 & B1 & G1 & Go). pose proof (one_parse st bl f w i i O) as O1. rewrite E1 in E, O1. cbn [snd] in O1.
      pose proof Go as (r & nm & off & size & c & _ & _ & H & K & _). rewrite H in E. pose proof (O1 _ _ H) as N.
      assert (Kid : forall n m, In (n, m) (order (nd_slots c)) -> passes w1 i [n] (Some m)).
      { intros n m I. apply (Permutation_in _ (Ord _)) in I. eapply passes_on; [exact H|rewrite K; reflexivity|eapply node_in; eassumption|constructor]. }
      destruct (loop_out (eq w1) (lock order (i :: rd) d true) (order (nd_slots c))) with (w := w1) as (n & j & wk & Ij & <- & Ej).
      { intros n j w0 tr w' Ij <- Ej. apply locked_free in Ej.
        destruct (inner f st bl ok order Ord w1 i props Go O1 d [n] j (Kid n j Ij) ltac:(discriminate)) as [Cj|[(w2 & E2) _]]; [|congruence].
        destruct (calm_walk f st bl order Ord w1 d j Cj) as (t2 & _ & E2 & _). congruence. }
      { reflexivity. }
      { destruct (w_loop _ w1 (order (nd_slots c))) as [[x| | |] w2]; (discriminate E || reflexivity). }
      destruct (chain f st bl ok order Ord w1 i props Go O1 d (i :: rd) [n] j (Kid n j Ij) ltac:(discriminate) Ej) as (ms & Lm & Nm & _ & Pm).
      pose proof (chain_short f ok w1 i props ps ms Go Al Nm Pm). lia.
    - assert (K : Forall (fun e => exists D, forall d, (D <= d)%nat -> never_out (snd e) d) cs) by (induction cs as [|[n x] cs IHk]; constructor; [apply IH|exact IHk]).
      clear IH. rewrite Forall_forall in K. destruct (all_depths never_out cs (fun n x I => K (n, x) I)) as (D & HD). exists (S D).
      intros d Le order w i rd l Ord [B O] A U In_ E. destruct d as [|d]; [lia|]. cbn [w_walk_in] in E. rewrite held_not in E by (intro I; exact (up_out _ _ _ U (In_ _ I))). cbn [andb] in E.
      destruct (dir_parse f st bl ok s F w i cs B A) as (w1 & E1 & B1 & G1 & (c1 & H1 & U1) & In1 & No1 & _). pose proof (one_parse st bl f w i i O) as O1.
      rewrite E1 in E, O1. cbn [snd] in O1. rewrite H1 in E. pose proof (O1 _ _ H1) as N.
      assert (Kids : forall n j, In (n, j) (order (nd_slots c1)) -> exists c, last_named cs n c /\ lc f st bl ok s w1 c j (Some i) n).
      { intros n j Ij. apply (Permutation_in _ (Ord _)) in Ij. pose proof (node_in w1 i c1 n j H1 N Ij) as Nn.
        assert (La : (exists x, last_named cs n x) \/ ~ In n (map fst cs)).
        { clear. induction cs as [|[k x] l IH]; [right; intros []|]. destruct IH as [(y & pre & post & -> & N)|N].
          - left. exists y, ((k, x) :: pre), post. auto.
          - destruct (list_eq_dec Z.eq_dec k n) as [->|D]; [left; exists x, [], l; auto|right]. cbn [map fst In]. tauto. }
        destruct La as [(c & La)|La]; [|rewrite (No1 n La) in Nn; discriminate]. destruct (In1 n c La) as (j' & Nj & Lj). assert (j' = j) as -> by congruence. eauto. }
      destruct (loop_out (fun wk => rest_ok wk /\ moves f st bl ok w1 wk) (lock order (i :: rd) d true) (order (nd_slots c1))) with (w := w1) as (n & j & wk & Ij & [Rk Mk] & Ej).
      { intros n j w0 tr w' Ij [R0 M0] Ej. apply locked_free in Ej. destruct (Kids n j Ij) as (c & La & Lj).
        pose proof (proj1 (drift_lc f st bl ok s w1 w0 B1 (proj1 M0)) _ _ _ _ Lj) as L0. destruct (lc_content _ _ _ _ _ _ _ _ _ _ L0) as (A0 & _).
        destruct (walk_content f st bl ok s F order Ord d c w0 j R0 A0) as [(t2 & w3 & ps & E3 & M3 & R3 & _)|(w3 & E3 & _)]; rewrite Ej in E3; [|discriminate]. injection E3 as _ <-.
        split; [exact R3|]. eapply moves_trans; eassumption. }
      { split; [split; assumption|apply moves_refl]. }
      { destruct (w_loop _ w1 (order (nd_slots c1))) as [[x| | |] w2]; (discriminate E || reflexivity). }
      destruct (Kids n j Ij) as (c & La & Lj). pose proof (proj1 (drift_lc f st bl ok s w1 wk B1 (proj1 Mk)) _ _ _ _ Lj) as Lk. destruct (lc_content _ _ _ _ _ _ _ _ _ _ Lk) as (Ak & x & Hx & _ & Px).
      refine (HD d n c ltac:(lia) (named_in _ _ _ La) order wk j (i :: rd) (i :: l) Ord Rk Ak _ _ Ej).
      + eapply up_on; [exact Hx|exact Px|]. eapply up_kept; [|exact U]. intros k ck Ck.
        destruct (drift_cell f st bl ok w wk k ck B ltac:(eapply drift_trans; [apply grows_drift; eassumption|exact (proj1 Mk)]) Ck) as (c' & C' & _ & P'). eauto.
      + intros y [<-|Iy]; [left; reflexivity|right; apply In_, Iy].
  Qed.
End ending.
