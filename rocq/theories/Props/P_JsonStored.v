(** The full JSON of stored images. *)
From Coq Require Import ZArith List Bool Lia.
From Coq Require String Ascii.
From Verif.Model Require Import Base Utf Keys Reader WzStr Image Json.
From Verif.Spec Require Import PropWire Version PropView PropEnc JsonView JsonProp JsonStored.
From Verif.Proofs Require Import BaseL ImageL BlowL JsonL JsonFullL JsonPropL JsonStoredL.
From Verif.Props Require Import P_Image P_Json.
Import ListNotations. Import String.StringSyntax.
Open Scope Z_scope.

(** *** C193: the full JSON of a parsed image says of every stored property its name, kind and value. *)
Theorem C193_layout_full : forall r name origin p q kids, zlen (rd_buf r) < 2 ^ 31 -> (forall j, byte (rd_ks r j)) ->
  laid_list (rd_buf r) (rd_ks r) origin p q kids -> apart (PSub kids) -> ~ holds_raw (PSub kids) ->
  exists f0 kids' us m cs, (forall f, (f0 <= f)%nat -> p_list r origin f p = (Ok (kids', us), q)) /\
    to_json (image_view r name kids') = Ok (VObj m) /\
    node_entries m name (codes "Image") (Some (VObj [])) cs /\ NoDup (map fst cs) /\
    (forall k v, In (k, v) cs -> In k (map fst kids)) /\
    (forall k c, In (k, c) kids -> exists v, In (k, v) cs /\ told (rd_buf r) k c v).
Proof.
  intros r name origin p q kids Hs Hk L A NR.
  destruct (C18_layout_parsed r origin p q kids Hs Hk L) as (f0 & kids' & us & S & P).
  destruct (apart_inv _ _ A (lists_sub kids)) as [N Ap].
  destruct (proj1 (proj2 (json_told r)) kids' kids S) as (vs & V & M).
  { intros k c I. split; [eapply Ap, I|]. intro R. apply NR. eapply raw_below; [constructor|exact I|exact R]. }
  assert (Nk : NoDup (map fst kids')) by (rewrite (kids_keys _ _ _ S); exact N).
  pose proof (each_keys _ _ _ V) as Ke. rewrite viewed_keys in Ke. pose proof (matched_keys' _ _ _ M) as Km.
  destruct (put_nil_entries vs) as [Nv Iv]; [rewrite Ke; exact Nk|].
  exists f0, kids', us. eexists. exists (put vs []). split; [exact P|]. split; [|split; [|split; [exact Nv|split]]].
  - unfold image_view. rewrite view_eq by exact Nk. rewrite to_json_eq. cbn [obj_fields rbind]. rewrite (loop_of _ _ _ _ V). reflexivity.
  - cbn [app]. apply entries_object; [nodup|]. intros k v. rewrite !in_cons_pair. cbn [In].
    split; [intros [H|[H|[[H ->]|[H|[]]]]]; auto; right; right; left; auto|].
    intros [H|[H|[[H E]|H]]]; auto. injection E as <-. auto.
  - intros k v I. apply Iv in I. rewrite <- Km. apply (in_map fst) in I. exact I.
  - intros k c I. destruct (matched_in' _ _ _ _ _ M I) as (v & J & T). exists v. split; [apply Iv, J|exact T].
Qed.
Print Assumptions C193_layout_full.

Definition full_stored : list (list Z * prop) :=
  [(codes "u", PUol (codes "../a")); (codes "v", PConvex [PVec 1 2]); (codes "d", PDouble 0x7FF0000000000000)].
Definition full_kids := Eval vm_compute in parsed (ser_image key0 full_stored).
Example C193_ex : image_children 40 (rd0 (ser_image key0 full_stored)) (codes "x.img") 0 0 = Ok (full_kids, [[codes "u"]]) /\
  let node t nm d k := VObj ([(codes "children", VObj k)] ++ d ++ [(codes "name", VText nm); (codes "type", VText t)]) in
  to_json (image_view (rd0 (ser_image key0 full_stored)) (codes "x.img") full_kids) =
    Ok (node (codes "Image") (codes "x.img") [(codes "data", VObj [])]
      [(codes "d", node (codes "Double") (codes "d") [(codes "data", VNull)] []);
       (codes "u", node (codes "UOL") (codes "u") [(codes "data", VText (codes "../a"))] []);
       (codes "v", node (codes "Convex") (codes "v") []
         [(codes "0", node (codes "Vector") (codes "0") [(codes "data", VArr [VInt 1; VInt 2])] [])])]).
Proof. split; vm_compute; reflexivity. Qed.

(** C193: and with raw data or a video anywhere there is none. *)
Theorem C193_raw_none : forall r name origin p q kids, zlen (rd_buf r) < 2 ^ 31 -> (forall j, byte (rd_ks r j)) ->
  laid_list (rd_buf r) (rd_ks r) origin p q kids -> apart (PSub kids) -> holds_raw (PSub kids) ->
  exists f0 kids' us, (forall f, (f0 <= f)%nat -> p_list r origin f p = (Ok (kids', us), q)) /\
    forall j, to_json (image_view r name kids') <> Ok j.
Proof.
  intros r name origin p q kids Hs Hk L A R.
  destruct (C18_layout_parsed r origin p q kids Hs Hk L) as (f0 & kids' & us & S & P).
  exists f0, kids', us. split; [exact P|]. intros j E.
  destruct (apart_inv _ _ A (lists_sub kids)) as [N Ap].
  assert (Nk : NoDup (map fst kids')) by (rewrite (kids_keys _ _ _ S); exact N).
  unfold image_view in E. rewrite view_eq in E by exact Nk. apply to_json_ok in E. destruct E as (d & vs & _ & _ & V & _).
  assert (W : exists j, to_json (view r name (Node OSub kids')) = Ok j).
  { rewrite view_eq by exact Nk. rewrite to_json_eq. cbn [view_obj obj_fields rbind]. rewrite (loop_of _ _ _ _ V). eexists. reflexivity. }
  destruct W as [j' E']. exact (raw_untold r _ R A _ _ _ (shows_sub r kids' kids S) E').
Qed.
Print Assumptions C193_raw_none.
Example C193_raw_ex : holds_raw (PSub [(codes "a", PInt 1); (codes "b", PSub [(codes "c", PRaw 7 2 [])])]) /\
  apart (PSub [(codes "a", PInt 1); (codes "b", PSub [(codes "c", PRaw 7 2 [])])]).
Proof.
  split.
  - eapply raw_below; [constructor|right; left; reflexivity|]. eapply raw_below; [constructor|left; reflexivity|]. constructor.
  - constructor. intros l H. inversion H; subst. split; [nodup|]. intros k c [Q|[Q|[]]]; injection Q as <- <-.
    + constructor. intros l' H'. inversion H'.
    + constructor. intros l' H'. inversion H'; subst. split; [nodup|]. intros k c [Q|[]]; injection Q as <- <-.
      constructor. intros l2 H2. inversion H2; subst. split; [constructor|]. intros k c [].
Qed.
