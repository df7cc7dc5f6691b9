(** The serialiser writes what the layout describes. *)
From Coq Require Import ZArith List Bool Lia ZifyBool ZifyNat.
From Coq Require String.
From Verif.Model Require Import Base Utf Keys Reader WzStr VersionPkg1 Image.
From Verif.Spec Require Import Wire Stream StrWire Version PropWire PropView PropEnc.
From Verif.Proofs Require Import BaseL WireL ReaderL AtL ImageL.
Import String.StringSyntax.
Ltac Zify.zify_post_hook ::= idtac.

Scheme good_mut1 := Minimality for good Sort Prop
with good_mut2 := Minimality for good_ext Sort Prop
with good_mut3 := Minimality for good_kids Sort Prop
with good_mut4 := Minimality for good_items Sort Prop.
Combined Scheme good_mut from good_mut1, good_mut2, good_mut3, good_mut4.

Lemma codes_unicode s : Forall (fun c => c < 128) (codes s) -> unicode (codes s).
Proof.
  induction s as [|c s IH]; cbn [codes]; intro H; constructor; inversion_clear H.
  - left. lia.
  - apply IH. assumption.
Qed.

Section enc.
  Variable buf : list Z.
  Variable ks : nat -> Z.
  Variable origin : Z.
  Hypothesis Hs : zlen buf < 2 ^ 31.

  Lemma ser_block_at p q t : unicode t -> at_ buf p q (ser_block ks t) -> block_at buf ks origin p q t.
  Proof.
    intros Ht H. unfold ser_block in H. apply at_cons in H as [H1 H2].
    eapply block_inline; [right; reflexivity|exact Ht|exact H1|exact H2].
  Qed.
  Lemma at_small p q l : at_ buf p q l -> zlen l < 2 ^ 31.
  Proof. intro H. apply at_range in H as (A & B & C). lia. Qed.
  Lemma at_app p q a b : at_ buf p q (a ++ b) -> exists m, at_ buf p m a /\ at_ buf m q b /\ m = p + zlen a.
  Proof. intro H. apply at_split in H as [H1 H2]. eauto. Qed.
  Lemma lit_unicode s : forallb (fun c => c <? 128) (codes s) = true -> unicode (codes s).
  Proof.
    intro H. apply codes_unicode. rewrite forallb_forall in H. apply Forall_forall. intros x Hx. apply H in Hx. lia.
  Qed.

  Lemma ser_all :
    (forall v, good v -> forall p q, at_ buf p q (ser_value ks v (ser_ext ks v)) -> laid_value buf ks origin p q v) /\
    (forall v, good_ext v ->
       ser_value ks v (ser_ext ks v) = 9 :: enc_le 4 (zlen (ser_ext ks v)) ++ ser_ext ks v /\
       forall p q b, at_ buf p q (ser_ext ks v) -> laid_ext buf ks origin p q b v) /\
    (forall kids, good_kids kids -> zlen kids <= zlen (ser_entries ks kids) /\
       forall p q, at_ buf p q (ser_entries ks kids) -> laid_entries buf ks origin p q kids) /\
    (forall items, good_items items -> zlen items <= zlen (flat_map (ser_ext ks) items) /\
       forall p q b, at_ buf p q (flat_map (ser_ext ks) items) -> laid_exts buf ks origin p q b items).
  Proof.
    assert (I : forall p q v, - 2 ^ 31 <= v < 2 ^ 31 -> at_ buf p q (enc_wzint 4 v) -> int_at buf p q v)
      by (intros; split; assumption).
    assert (N0 : forall A (l : list A) n, zlen l <= n -> n < 2 ^ 31 -> - 2 ^ 31 <= zlen l < 2 ^ 31).
    { intros A l n H1 H2. pose proof (zlen_nonneg l). pows; lia. }
    apply good_mut.
    - intros p q H. apply value_null. exact H.
    - intros v Hv p q H. apply (value_short buf ks origin p q 2 v); auto.
    - intros v Hv p q H. cbn [ser_value] in H. apply at_cons in H as [H1 H2]. eapply value_int; [left; reflexivity|exact H1|apply I; assumption].
    - intros v Hv p q H. apply value_long; assumption.
    - intros b Hb p q H. apply value_float; assumption.
    - intros b Hb Hb' p q H. apply value_float_byte; assumption.
    - intros b Hb p q H. apply value_double; assumption.
    - intros t Ht p q H. cbn [ser_value] in H. apply at_cons in H as [H1 H2]. apply value_str; [exact H1|apply ser_block_at; assumption].
    - intros v _ [E IH] p q H. rewrite E in H.
      change (9 :: enc_le 4 (zlen (ser_ext ks v)) ++ ser_ext ks v) with ((9 :: enc_le 4 (zlen (ser_ext ks v))) ++ ser_ext ks v) in H.
      apply at_app in H as (m & H1 & H2 & M). rewrite zlen_cons, zlen_enc_le in M. change (Z.of_nat 4) with 4 in M.
      pose proof (at_small _ _ _ H2). pose proof (zlen_nonneg (ser_ext ks v)).
      apply at_range in H2 as Q. replace m with (p + 5) in * by lia.
      apply (value_ext buf ks origin p q q (zlen (ser_ext ks v))); [pows; lia|exact H1|lia|apply IH; exact H2].
    - intros t Ht. split; [reflexivity|]. intros p q b H. cbn [ser_ext] in H.
      apply at_app in H as (m & H1 & H2 & M). apply at_cons in H2 as [H2 H3].
      econstructor; apply ser_block_at; [apply lit_unicode; reflexivity|exact H1|exact Ht|exact H3].
    - intros x y Hx Hy. split; [reflexivity|]. intros p q b H. cbn [ser_ext] in H.
      apply at_app in H as (m & H1 & H2 & M). apply at_app in H2 as (m' & H2 & H3 & M').
      econstructor; [apply ser_block_at; [apply lit_unicode; reflexivity|exact H1]|apply I; eassumption|apply I; assumption].
    - intros kids _ [Hn IH]. split; [reflexivity|]. intros p q b H. cbn [ser_ext] in H.
      apply at_app in H as (m & H1 & H2 & M). apply at_cons in H2 as [_ H2]. apply at_cons in H2 as [_ H2].
      apply at_app in H2 as (m' & H2 & H3 & M').
      apply (ext_sub buf ks origin p m q b kids); [apply ser_block_at; [apply lit_unicode; reflexivity|exact H1]|].
      replace (m + 1 + 1) with (m + 2) in * by lia.
      econstructor; [apply I; [|exact H2]|apply IH; exact H3].
      eapply N0; [exact Hn|]. eapply at_small; exact H3.
    - intros items _ [Hn IH]. split; [reflexivity|]. intros p q b H. cbn [ser_ext] in H.
      apply at_app in H as (m & H1 & H2 & M). apply at_app in H2 as (m' & H2 & H3 & M').
      econstructor; [apply ser_block_at; [apply lit_unicode; reflexivity|exact H1]|apply I; [|exact H2]|apply IH; exact H3].
      eapply N0; [exact Hn|]. eapply at_small; exact H3.
    - split; [reflexivity|]. intros p q H. apply at_range in H as (_ & H & _). cbn in H.
      replace q with p by lia. constructor.
    - intros name v kids Hname Hg IHv Hk [Hn IH]. unfold ser_entries in *. cbn [flat_map fst snd]. split.
      + rewrite !zlen_cons, !zlen_app.
        assert (0 < zlen (ser_block ks name)) by (unfold ser_block; rewrite zlen_cons; pose proof (zlen_nonneg (enc_str ks name)); lia).
        pose proof (zlen_nonneg (ser_value ks v (ser_ext ks v))). lia.
      + intros p q H. rewrite <- app_assoc in H. apply at_app in H as (m & H1 & H2 & M).
        apply at_app in H2 as (m' & H2 & H3 & M').
        econstructor; [apply ser_block_at; [exact Hname|exact H1]|apply IHv; exact H2|apply IH; exact H3].
    - split; [reflexivity|]. intros p q b H. apply at_range in H as (_ & H & _). cbn in H.
      replace q with p by lia. constructor.
    - intros v items Hg [_ IHv] Hi [Hn IH]. cbn [flat_map]. split.
      + rewrite zlen_cons, zlen_app. assert (0 < zlen (ser_ext ks v)); [|lia].
        destruct Hg; cbn [ser_ext]; rewrite zlen_app; unfold ser_block at 1; rewrite zlen_cons;
          match goal with |- context[zlen (enc_str ?k ?c)] => pose proof (zlen_nonneg (enc_str k c)) end;
          match goal with |- 0 < _ + zlen ?x => pose proof (zlen_nonneg x) end; lia.
      + intros p q b H. apply at_app in H as (m & H1 & H2 & M).
        econstructor; [apply IHv; exact H1|apply IH; exact H2].
  Qed.

  Lemma ser_list_laid kids p q : good_kids kids -> at_ buf p q (ser_list ks kids) -> laid_list buf ks origin p q kids.
  Proof.
    intros Hg H. destruct ser_all as (_ & _ & K & _). destruct (K kids Hg) as [Hn L].
    apply at_app in H as (m & H1 & H2 & M). econstructor; [split; [|exact H1]|apply L; exact H2].
    pose proof (at_small _ _ _ H2). pose proof (zlen_nonneg kids). change (Z.of_nat (length kids)) with (zlen kids). pows; lia.
  Qed.
End enc.
