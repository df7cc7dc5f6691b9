(** Lemmas on canvases that give no picture. *)
From Coq Require Import ZArith List Bool Lia Arith ZifyBool ZifyNat.
From Coq Require String Ascii.
From Verif.Model Require Import Base Utf Keys Reader Header Offset VersionPkg2 Directory Image Media Guess File Png Node Ms World WorldPicture.
From Verif.Spec Require Import Wire StrWire Version PropWire PropView DirWire DirView PathSpec Tree Picture Whole Portrait Outlook Blocked.
From Verif.Proofs Require Import BaseL AtL ImageL NodeL UolL PictureL WorldL WalkWL LinkedL PortraitL OutlookL.
Import ListNotations. Import String.StringSyntax.
Open Scope Z_scope.

(** More fuel does not change an answer. *)
Lemma filter_more h cb : forall d d' p, (d <= d')%nat -> filter_up d h cb p <> OutOfFuel -> filter_up d' h cb p = filter_up d h cb p.
Proof.
  induction d as [|d IH]; intros d' [j|] Hd N; destruct d' as [|d']; try lia; try reflexivity; try (destruct N; reflexivity).
  cbn [filter_up] in *. destruct (h j) as [c|]; [|reflexivity]. destruct (cb c); [reflexivity|]. apply IH; [lia|exact N].
Qed.
Lemma filter_any h i cb x m : (forall d, (m <= d)%nat -> filter_parent d h i cb = Ok x) -> forall d, filter_parent d h i cb = Ok x \/ ((d < m)%nat /\ filter_parent d h i cb = OutOfFuel).
Proof.
  intros M d. destruct (le_lt_dec m d) as [L|L]; [left; apply M, L|]. specialize (M m ltac:(lia)). unfold filter_parent in *. destruct (h i) as [c|]; [|discriminate M].
  destruct (filter_up d h cb (upgrade h (nd_parent c))) as [y|e| |] eqn:E; [left|left|left|right; split; [exact L|reflexivity]];
    rewrite (filter_more _ _ d m) in M by (try rewrite E; first [lia|discriminate]); congruence.
Qed.

Section blocked.
  Variable f : nat.
  Hypothesis F : (0 < f)%nat.
  Variable st : list Z -> nat -> Z.
  Variable bl : list Z -> list Z -> Z -> list Z.
  Variable ok : rd -> Prop.
  Variable s : shared.
  Variable inflate : bool -> list Z -> Z -> option (list Z).
  Variable bc7 : list Z -> Z -> Z -> option (list Z).
  Variable rayon : bool.
  Variable cs : list (list Z * content).
  Local Notation at_place := (at_place f st bl ok s).
  Local Notation ext := (ext f st bl).
  Local Notation top := (PlDir cs).
  Local Notation base_world := (base_world f st bl ok s cs).
  Local Notation image := (w_get_image st bl f inflate bc7 rayon).

  (** [image] at [i] goes on with [t], or has not enough fuel. *)
  Definition goes_on (rd : list id) (w : world) (i : id) (w1 : world) (t : id) (m : nat) : Prop :=
    forall d, image (S d) rd w i = image d (i :: rd) w1 t \/ ((d < m)%nat /\ fst (image (S d) rd w i) = OutOfFuel).

  Lemma in_step w rd X Y i : base_world w -> hangs (w_heap w) 0 X i -> by_inlink top X Y -> X <> [] /\ exists t m, hangs (w_heap w) 0 Y t /\ goes_on rd w i w t m.
  Proof.
    intros W H (P & props & v & p & z & C & Gp & Re & Lz & ->).
    destruct (canvas_here f st bl ok s cs w P props X v i W C H) as (Nx & LX & A & (rr & g & T) & a & Rd & Ha & N). split; [exact Nx|].
    destruct (image_walk f st bl ok s w a props p Rd) as [Iw _]. destruct (Iw z Lz (proj1 Gp)) as (t & u & -> & Ef & Gt & At & _).
    pose proof W as (B & _). destruct (walk f st bl ok s F p w a _ B (proj1 Rd)) as [Wk _]. destruct (Wk _ Lz) as (t' & w1 & E1 & _ & _ & _ & Hg). rewrite Ef in E1. injection E1 as <- <-.
    specialize (Hg (proj2 Gp) 0 P Ha). destruct (nearest_up _ _ _ _ _ image_dec N) as [m M]. exists t, m. split; [exact Hg|]. intro d. cbn [w_get_image].
    rewrite T. destruct (link_text_at f st bl ok s inflate bc7 rayon w i v (txt "_inlink") A) as [(t' & Re' & ->)|[No _]]; [|destruct (No _ Re)]. rewrite (remarks_fun _ _ _ _ Re' Re). cbn [rbind].
    unfold resolve_inlink, get_parent_wz_image. destruct (filter_any _ _ _ _ _ M d) as [->|[L ->]]; cbn [rbind]; [|right; split; [exact L|reflexivity]].
    rewrite at_path_join by (try apply good_plain; apply Gp). rewrite Gt. left. reflexivity.
  Qed.

  Lemma no_in_any w i v a props : at_place w i (PlProp v) -> read_image f st bl ok s w a props -> nearest (w_heap w) an_image i a -> no_inlink props v ->
    exists m, forall d, let x := rbind (w_link_text w i (txt "_inlink")) (fun o => match o with Some p => resolve_inlink d (w_heap w) p i | None => Ok None end) in
      x = Ok None \/ ((d < m)%nat /\ x = OutOfFuel).
  Proof.
    intros A Rd N Ni. destruct (no_in f F st bl ok s inflate bc7 rayon w i v a props A Rd N Ni) as [m M]. exists m. intros d x. destruct (le_lt_dec m d) as [L|L]; [left; apply M, L|].
    specialize (M m ltac:(lia)). subst x. destruct (w_link_text w i (txt "_inlink")) as [[p|]| | |]; cbn [rbind] in *; try discriminate M; [|left; reflexivity].
    unfold resolve_inlink, get_parent_wz_image in *. destruct (nearest_up _ _ _ _ _ image_dec N) as [m' M']. pose proof (filter_any _ _ _ _ _ M') as Fa.
    destruct (Fa d) as [->|[_ ->]]; [|right; split; [exact L|reflexivity]]. destruct (Fa m) as [E|[_ E]]; rewrite E in M; [left; exact M|discriminate M].
  Qed.

  Lemma out_step w seen rd X Y i : base_world w -> locked w seen rd -> Forall (fun X => X <> []) seen -> hangs (w_heap w) 0 X i -> by_outlink top X Y ->
    Forall (fun Z => ~ beyond Z Y) (X :: seen) ->
    X <> [] /\ exists t w1 m, ext w w1 /\ base_world w1 /\ hangs (w_heap w1) 0 Y t /\ goes_on rd w i w1 t m.
  Proof.
    intros W Lk Ns H (P & props & v & z & C & Ni & Gp & Re & Lz) Nb.
    destruct (canvas_here f st bl ok s cs w P props X v i W C H) as (Nx & LX & A & (rr & g & T) & a & Rd & Ha & N). split; [exact Nx|].
    destruct (no_in_any w i v a props A Rd N Ni) as [m M].
    destruct (outlook f F st bl ok s cs w (X :: seen) (i :: rd) Y i X _ W ltac:(constructor; assumption) Gp Nb ltac:(constructor; assumption) Nx H LX) as [Lo _].
    destruct (Lo z Lz) as (m2 & j & w1 & X1 & W1 & Hj & M2). exists j, w1, (Nat.max m m2). split; [exact X1|]. split; [exact W1|]. split; [exact Hj|].
    intro d. cbn [w_get_image]. rewrite T. destruct (M d) as [E|[L E]]; cbv zeta in E; rewrite E; [|right; split; [lia|reflexivity]].
    destruct (link_text_at f st bl ok s inflate bc7 rayon w i v (txt "_outlink") A) as [(t' & Re' & ->)|[No _]]; [|destruct (No _ Re)]. rewrite (remarks_fun _ _ _ _ Re' Re).
    destruct (le_lt_dec m2 d) as [L|L]; [left; rewrite M2 by exact L; reflexivity|].
    destruct (base_found f st bl ok s cs w X i _ W Nx H LX) as [m3 M3]. pose proof (filter_any _ _ _ _ _ M3) as Fa. specialize (M2 m2 ltac:(lia)). unfold w_outlink, get_base_wz_file in *.
    destruct (Fa d) as [->|[_ ->]]; [|right; split; [lia|reflexivity]]. destruct (Fa m2) as [E2|[_ E2]]; rewrite E2 in M2; [left; rewrite M2; reflexivity|discriminate M2].
  Qed.

  (** The forced walk stops for ever at a locked node on the way. *)
  Lemma forced_block lk p2 j z : p2 <> [] -> In j lk -> forall p1 w i pl q, bounded w -> at_place w i pl -> Forall name_ok p1 -> hangs (w_heap w) 0 q i ->
    leads pl p1 z -> hangs (w_heap w) 0 (q ++ p1) j -> exists w', w_forced st bl f lk w i (p1 ++ p2) = (Panic, w').
  Proof.
    intros Ne Ij. induction p1 as [|n p1 IH]; intros w i pl q B A Nm H L Hj.
    - rewrite app_nil_r in Hj. assert (i = j) as ->. { apply hangs_fold in H. apply hangs_fold in Hj. congruence. } destruct p2 as [|c p2]; [contradiction|]. exists w. cbn [app w_forced].
      assert (Hd : held j lk = true). { destruct (held j lk) eqn:E; [reflexivity|]. apply held_not in E. contradiction. } rewrite Hd. reflexivity.
    - inversion Nm as [|? ? N1 N2]; subst. cbn [app w_forced]. destruct (held i lk); [eauto|].
      destruct (parse_place f st bl ok s w i pl F B A) as (w1 & P & X & B1 & A1 & [In1 No1] & _). rewrite P. inversion L as [|? ? y ? ? I L']; subst. destruct (In1 n y I) as (k & G & Ak & Sl & Ch). rewrite G.
      apply (IH w1 k y (q ++ [n])); [exact B1|exact Ak|exact N2| |exact L'|].
      + eapply hangs_child; [eapply hangs_ext; [exact B|exact X|exact H]|exact N1|exact Ch|exact Sl].
      + rewrite <- app_assoc. eapply hangs_ext; [exact B|exact X|exact Hj].
  Qed.
  Lemma out_block w rd p i X z0 Y k z : base_world w -> good_path p -> X <> [] -> hangs (w_heap w) 0 X i -> leads top X z0 ->
    beyond Y p -> Y <> [] -> In k rd -> hangs (w_heap w) 0 Y k -> leads top Y z ->
    exists m, forall d, (m <= d)%nat -> exists w', w_outlink st bl f d rd w (joined p) i = (Panic, w').
  Proof.
    intros W Gp Nx Hi Lx (rest & Ne & ->) Ny Ik Hk Ly. destruct (base_found f st bl ok s cs w X i z0 W Nx Hi Lx) as [m M]. pose proof W as (B & A & sl & H0).
    destruct (base_root f st bl ok s cs w W) as [R Ht]. destruct Y as [|n Y]; [contradiction|]. pose proof Gp as [_ Nm]. cbn [app] in Nm. inversion Nm as [|? ? N1 N2]; subst. apply Forall_app in N2 as [N2 _].
    destruct (place_read f st bl ok s w 0 top A ltac:(discriminate)) as [In1 _]. inversion Ly as [|? ? y ? ? I L']; subst. destruct (In1 n y I) as (j & G & Aj & Sl & Ch).
    destruct (forced_block (0 :: rd) rest k z Ne ltac:(right; exact Ik) Y w j y [n] B Aj N2 (hangs_child _ _ [] n j 0 Ht N1 Ch Sl) L' Hk) as [w' E].
    exists m. intros d Hd. unfold w_outlink. rewrite M by exact Hd. destruct (held 0 rd); [eauto|]. rewrite split_join by (try apply good_plain; apply Gp). cbn [app]. rewrite G. eauto.
  Qed.

  Lemma canvas_leads P props X v : canvas_at_path top P props X v -> X <> [] /\ leads top X (PlProp v).
  Proof using. clear. intros (Q & Nq & -> & L1 & L2 & _). split; [destruct P, Q; try discriminate; contradiction|eapply leads_join; eassumption]. Qed.
  Definition passed (X : list text) : Prop := X <> [] /\ exists z, leads top X z.
  Lemma blocked : forall seen X, jams top seen X -> forall w rd i, base_world w -> locked w seen rd -> Forall passed seen -> hangs (w_heap w) 0 X i ->
    exists d0, forall d, (d0 <= d)%nat -> exists w', image d rd w i = (Panic, w').
  Proof.
    assert (Pn : forall l, Forall passed l -> Forall (fun X => X <> []) l) by (intros l Fp; eapply Forall_impl; [|exact Fp]; intros x [Nx _]; exact Nx).
    induction 1 as [seen P props X v p Y C Ni Gp Re I Be|seen X Y Li _ IH|seen X Y Lo Nb _ IH]; intros w rd i W Lk Ps H.
    - destruct (canvas_here f st bl ok s cs w P props X v i W C H) as (Nx & LX & A & (rr & g & T) & a & Rd & Ha & N). destruct (no_in f F st bl ok s inflate bc7 rayon w i v a props A Rd N Ni) as [m M].
      assert (Lk' : exists k, In k (i :: rd) /\ hangs (w_heap w) 0 Y k).
      { clear - I Lk H. destruct I as [<-|I]; [exists i; split; [left; reflexivity|exact H]|]. induction Lk as [|X0 k seen rd Hk _ IH]; [destruct I|]. destruct I as [<-|I].
        - exists k. split; [right; left; reflexivity|exact Hk].
        - destruct (IH I) as (k' & [<-|Ik] & Hk'); [exists i|exists k']; (split; [|exact Hk']); [left; reflexivity|right; right; exact Ik]. }
      assert (PY : passed Y). { destruct I as [<-|I]; [split; [exact Nx|eauto]|]. rewrite Forall_forall in Ps. apply Ps, I. }
      destruct Lk' as (k & Ik & Hk). destruct PY as (Ny & z & Lz). destruct (out_block w (i :: rd) p i X _ Y k z W Gp Nx H LX Be Ny Ik Hk Lz) as [m2 M2].
      exists (S (Nat.max m m2)). intros [|d] Hd; [lia|]. cbn [w_get_image]. rewrite T, M by lia.
      destruct (link_text_at f st bl ok s inflate bc7 rayon w i v (txt "_outlink") A) as [(t' & Re' & ->)|[No _]]; [|destruct (No _ Re)]. rewrite (remarks_fun _ _ _ _ Re' Re).
      destruct (M2 d ltac:(lia)) as [w' ->]. eauto.
    - destruct (in_step w rd X Y i W H Li) as (Nx & t & m & Ht & Go). destruct Li as (P & props & v & p & z & C & _). destruct (canvas_leads _ _ _ _ C) as [_ LX].
      destruct (IH w (i :: rd) t W) as [d0 D]; [constructor; assumption|constructor; [split; [exact Nx|eauto]|exact Ps]|exact Ht|].
      exists (S (Nat.max d0 m)). intros [|d] Hd; [lia|]. destruct (Go d) as [->|[L _]]; [apply D; lia|lia].
    - destruct (out_step w seen rd X Y i W Lk (Pn _ Ps) H Lo Nb) as (Nx & t & w1 & m & X1 & W1 & Ht & Go). destruct Lo as (P & props & v & z & C & _). destruct (canvas_leads _ _ _ _ C) as [_ LX].
      pose proof W as (B & _).
      destruct (IH w1 (i :: rd) t W1) as [d0 D]; [apply (locked_ext f st bl w w1); [exact B|exact X1|constructor; assumption]|constructor; [split; [exact Nx|eauto]|exact Ps]|exact Ht|].
      exists (S (Nat.max d0 m)). intros [|d] Hd; [lia|]. destruct (Go d) as [->|[L _]]; [apply D; lia|lia].
  Qed.

  Lemma round (S : list text -> Prop) seen0 : goes_round top seen0 S -> forall d X w seen rd i, S X -> base_world w -> locked w seen rd ->
    Forall (fun X => (S X \/ In X seen0) /\ X <> []) seen -> hangs (w_heap w) 0 X i -> fst (image d rd w i) = OutOfFuel.
  Proof.
    intro G. induction d as [|d IH]; intros X w seen rd i SX W Lk Sn H; [reflexivity|]. destruct (G X SX) as (Y & SY & [Li|[Lo Nb]]).
    - destruct (in_step w rd X Y i W H Li) as (Nx & t & m & Ht & Go). destruct (Go d) as [->|[_ E]]; [|exact E].
      apply (IH Y w (X :: seen)); [exact SY|exact W|constructor; assumption|constructor; [split; [left; assumption|assumption]|exact Sn]|exact Ht].
    - assert (Ns : Forall (fun X => X <> []) seen) by (eapply Forall_impl; [|exact Sn]; intros x [_ Nx]; exact Nx).
      assert (Nb' : Forall (fun Z => ~ beyond Z Y) (X :: seen)). { constructor; [apply Nb; left; exact SX|]. eapply Forall_impl; [|exact Sn]. intros x [Sx _]. apply Nb, Sx. }
      destruct (out_step w seen rd X Y i W Lk Ns H Lo Nb') as (Nx & t & w1 & m & X1 & W1 & Ht & Go). destruct (Go d) as [->|[_ E]]; [|exact E]. pose proof W as (B & _).
      apply (IH Y w1 (X :: seen)); [exact SY|exact W1|apply (locked_ext f st bl w w1); [exact B|exact X1|constructor; assumption]|constructor; [split; [left; assumption|assumption]|exact Sn]|exact Ht].
  Qed.
  Lemma circled : forall seen X, circles top seen X -> forall w rd i, base_world w -> locked w seen rd -> Forall (fun X => X <> []) seen -> hangs (w_heap w) 0 X i ->
    forall d, fst (image d rd w i) = OutOfFuel.
  Proof.
    induction 1 as [seen S X G SX|seen X Y Li _ IH|seen X Y Lo Nb _ IH]; intros w rd i W Lk Ns H d.
    - eapply (round S seen G d X w seen); [exact SX|exact W|exact Lk| |exact H]. apply Forall_forall. intros x Ix. rewrite Forall_forall in Ns. split; [right; exact Ix|apply Ns, Ix].
    - destruct d as [|d]; [reflexivity|]. destruct (in_step w rd X Y i W H Li) as (Nx & t & m & Ht & Go). destruct (Go d) as [->|[_ E]]; [|exact E].
      apply (IH w (i :: rd) t W); [constructor; assumption|constructor; assumption|exact Ht].
    - destruct d as [|d]; [reflexivity|]. destruct (out_step w seen rd X Y i W Lk Ns H Lo Nb) as (Nx & t & w1 & m & X1 & W1 & Ht & Go). destruct (Go d) as [->|[_ E]]; [|exact E]. pose proof W as (B & _).
      apply (IH w1 (i :: rd) t W1); [apply (locked_ext f st bl w w1); [exact B|exact X1|constructor; assumption]|constructor; assumption|exact Ht].
  Qed.
End blocked.
