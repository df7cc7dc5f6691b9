(** Lemmas on pictures in packages called "Base". *)
From Coq Require Import ZArith List Bool Lia Arith ZifyBool ZifyNat.
From Coq Require String Ascii.
From Verif.Model Require Import Base Utf Keys Reader Header Offset VersionPkg2 Directory Image Media Guess File Png Node Ms World WorldPicture.
From Verif.Spec Require Import Wire StrWire Version PropWire PropView DirWire DirView PathSpec Tree Picture Whole Portrait Outlook.
From Verif.Proofs Require Import BaseL AtL ImageL NodeL UolL PictureL WorldL WalkWL LinkedL PortraitL.
Import ListNotations. Import String.StringSyntax.
Open Scope Z_scope.

(** A node hangs in one place. *)
Lemma hangs_place_once h r : rootless h r -> forall q i, hangs h r q i -> forall q', hangs h r q' i -> q' = q.
Proof.
  intros R. induction q as [|n q IH] using rev_ind; intros i H q' H'.
  - apply hangs_nil_inv in H as ->. destruct q' as [|m q'] using rev_ind; [reflexivity|]. apply hangs_snoc_inv in H' as (j & _ & _ & [(c & E & _ & P) (c2 & E2)] & _).
    destruct R as (c0 & E0 & R). rewrite E in E0. injection E0 as <-. rewrite (R j P) in E2. discriminate E2.
  - destruct (hangs_snoc_inv _ _ _ _ _ H) as (j & Hj & _ & Ch & _). destruct (hangs_child_inv h r q' i n j R H' Ch) as (p & -> & Hp). rewrite (IH j Hj p Hp). reflexivity.
Qed.
Lemma hangs_split h r : forall q p i, hangs h r (p ++ q) i -> exists a, hangs h r p a /\ hangs h a q i.
Proof.
  induction q as [|n q IH] using rev_ind; intros p i H.
  - rewrite app_nil_r in H. exists i. split; [exact H|]. destruct (hangs_alive _ _ _ _ H) as [c C]. econstructor; exact C.
  - rewrite app_assoc in H. apply hangs_snoc_inv in H as (j & Hj & N & Ch & Sl). destruct (IH p j Hj) as (a & Ha & Hq). exists a. split; [exact Ha|].
    eapply hangs_child; eassumption.
Qed.
Lemma held_not n l : held n l = false <-> ~ In n l.
Proof.
  unfold held. split.
  - intros H I. assert (existsb (Z.eqb n) l = true) by (apply existsb_exists; exists n; split; [exact I|apply Z.eqb_refl]). congruence.
  - intro H. destruct (existsb (Z.eqb n) l) eqn:E; [|reflexivity]. apply existsb_exists in E as (x & I & E). apply Z.eqb_eq in E as <-. destruct (H I).
Qed.

Section outlook.
  Variable f : nat.
  Hypothesis F : (0 < f)%nat.
  Variable st : list Z -> nat -> Z.
  Variable bl : list Z -> list Z -> Z -> list Z.
  Variable ok : rd -> Prop.
  Variable s : shared.
  Variable inflate : bool -> list Z -> Z -> option (list Z).
  Variable bc7 : list Z -> Z -> Z -> option (list Z).
  Variable rayon : bool.
  Variable cs : list (list Z * content).
  Local Notation at_place := (at_place f st bl ok s).
  Local Notation ext := (ext f st bl).
  Local Notation top := (PlDir cs).

  (** The world of an open file called "Base". *)
  Definition base_world (w : world) : Prop :=
    bounded w /\ at_place w 0 top /\ exists sl, w_heap w 0 = Some (mkCell [66; 97; 115; 101] (KFile true) None sl).
  Lemma base_ext w w' : base_world w -> ext w w' -> bounded w' -> base_world w'.
  Proof.
    intros (B & A & sl & H) X B'. split; [exact B'|]. split; [eapply ext_place; eassumption|]. exists sl.
    destruct X as [N' X]. destruct (X 0 (B 0 _ H)) as [[E _]|[(n & q & sl' & E & _)|(n & k' & q & r' & nm & off' & size' & ks & us & l' & E & U' & _)]].
    - rewrite E. exact H.
    - rewrite H in E. discriminate E.
    - rewrite H in E. injection E as _ <- _ _. discriminate U'.
  Qed.
  Lemma base_root w : base_world w -> rootless (w_heap w) 0 /\ hangs (w_heap w) 0 [] 0.
  Proof. intros (_ & _ & sl & H). split; [eexists; split; [exact H|discriminate]|econstructor; exact H]. Qed.

  (** What hangs somewhere is what is there. *)
  Lemma slot_read w i pl n j : at_place w i pl -> slot (w_heap w) i n j -> shows_inside f st bl ok s w i pl.
  Proof.
    intros A (c & C & _ & I). apply place_read; [exact A|]. intros props ->. destruct A as (p & name & R). inversion R as [? kids ? ? ? r off size k l H T O Ix Re L|]; subst.
    rewrite H in C. injection C as <-. cbn [nd_slots] in I.
    inversion T as [b ? ? ? ? Ek Et|buf e x Tx Ek Et]; subst.
    - destruct b; [eauto|]. rewrite L in I. destruct I.
    - rewrite L in I. destruct I.
  Qed.
  Lemma hangs_at w i pl : at_place w i pl -> forall Y j z, hangs (w_heap w) i Y j -> leads pl Y z -> at_place w j z.
  Proof.
    intros A. induction Y as [|n Y IH] using rev_ind; intros j z H L.
    - inversion L; subst. apply hangs_nil_inv in H as ->. exact A.
    - apply hangs_snoc_inv in H as (k & Hk & _ & _ & Sl). apply leads_snoc in L as (y & Ly & I). pose proof (IH k y Hk Ly) as Ak.
      destruct (slot_read w k y n j Ak Sl) as [In1 _]. destruct (In1 n z I) as (j' & G & Aj & Sl' & _).
      pose proof (slot_at _ _ _ _ Sl) as E. rewrite E in G. injection G as <-. exact Aj.
  Qed.
  (** Nothing below the top is a base file. *)
  Lemma not_base w Y j z : base_world w -> Y <> [] -> hangs (w_heap w) 0 Y j -> leads top Y z -> exists c, w_heap w j = Some c /\ ~ base_file c.
  Proof.
    intros (B & A & _) Ne H L. destruct (exists_last Ne) as (p & n & ->). clear Ne. apply hangs_snoc_inv in H as (k & Hk & _ & _ & Sl). apply leads_snoc in L as (y & Ly & I).
    pose proof (hangs_at w 0 top A p k y Hk Ly) as Ak. pose proof (slot_at _ _ _ _ Sl) as G.
    destruct y as [cs'|props|v].
    - destruct (dir_child f st bl ok s w k cs' n z j Ak I G) as (c & C & _ & N). eauto.
    - destruct (slot_read w k _ n j Ak Sl) as [In1 _]. destruct (In1 n z I) as (j' & G' & Aj & _). rewrite G in G'. injection G' as <-. inversion I; subst.
      destruct (prop_kind f st bl ok s w j _ Aj) as (c & C & _ & _ & N). eauto.
    - destruct (slot_read w k _ n j Ak Sl) as [In1 _]. destruct (In1 n z I) as (j' & G' & Aj & _). rewrite G in G'. injection G' as <-. inversion I; subst.
      destruct (prop_kind f st bl ok s w j _ Aj) as (c & C & _ & _ & N). eauto.
  Qed.
  Lemma below_dir w Y j cs' : base_world w -> Y <> [] -> hangs (w_heap w) 0 Y j -> leads top Y (PlDir cs') -> exists d, w_thing w j = ThDir s d.
  Proof.
    intros (B & A & _) Ne H L. destruct (exists_last Ne) as (p & n & ->). clear Ne. apply hangs_snoc_inv in H as (k & Hk & _ & _ & Sl). apply leads_snoc in L as (y & Ly & I).
    pose proof (hangs_at w 0 top A p k y Hk Ly) as Ak. pose proof (slot_at _ _ _ _ Sl) as G. inversion I as [cs2 ? c Lc E1 E2 E3| |]; subst.
    destruct c as [props|cs3]; [discriminate E3|]. destruct Ak as (name & kk & q & l & Hc & _ & _ & R). apply rcl_f2 in R.
    destruct (filled_last (fun n c j => rc f st bl ok w s c j (Some k) n) cs2 l R n _ Lc) as (j' & G' & Rj). unfold node_at in G. rewrite Hc in G. cbn [nd_slots] in G. rewrite G' in G. injection G as ->.
    inversion Rj; subst. eauto.
  Qed.
  Lemma base_above w : base_world w -> forall Y j z, Y <> [] -> hangs (w_heap w) 0 Y j -> leads top Y z -> nearest (w_heap w) base_file j 0.
  Proof.
    intros W. induction Y as [|n Y IH] using rev_ind; intros j z Ne H L; [contradiction|]. clear Ne.
    apply hangs_snoc_inv in H as (k & Hk & _ & Ch & Sl). apply leads_snoc in L as (y & Ly & I). destruct Y as [|m Y].
    - apply hangs_nil_inv in Hk as ->. destruct W as (_ & _ & sl & H0). eapply near_here; [exact Ch|exact H0|]. split; [reflexivity|]. exists true. reflexivity.
    - destruct (not_base w (m :: Y) k y W ltac:(discriminate) Hk Ly) as (c & C & N). eapply near_up; [exact Ch|exact C|exact N|]. eapply IH; [discriminate|exact Hk|exact Ly].
  Qed.
  Lemma base_found w Y j z : base_world w -> Y <> [] -> hangs (w_heap w) 0 Y j -> leads top Y z ->
    exists m, forall d, (m <= d)%nat -> get_base_wz_file d (w_heap w) j = Ok (Some 0).
  Proof. intros W Ne H L. unfold get_base_wz_file. eapply nearest_up; [apply base_dec|eapply base_above; eassumption]. Qed.

  (** The forced walk, with nodes locked that are not on the way. *)
  Definition free (w : world) (lk : list id) (Y : list text) : Prop :=
    forall w2 n, ext w w2 -> hangs (w_heap w2) 0 Y n -> ~ In n lk.
  Lemma free_ext w w' lk Y : ext w w' -> free w lk Y -> free w' lk Y.
  Proof. intros X Fr w2 n X2 H. apply (Fr w2 n); [eapply ext_trans; eassumption|exact H]. Qed.
  Lemma forced_walk lk : forall p w i pl q, bounded w -> at_place w i pl -> Forall name_ok p -> hangs (w_heap w) 0 q i ->
    (forall p1 p2, p = p1 ++ p2 -> p2 <> [] -> free w lk (q ++ p1)) ->
    (forall z, leads pl p z -> exists j w', w_forced st bl f lk w i p = (Ok (Some j), w') /\ ext w w' /\ bounded w' /\ hangs (w_heap w') 0 (q ++ p) j) /\
    (fails pl p -> exists w', w_forced st bl f lk w i p = (Ok None, w') /\ ext w w' /\ bounded w').
  Proof.
    induction p as [|n p IH]; intros w i pl q B A Nm H Fr.
    - split; [|intro X; inversion X]. intros z L. exists i, w. rewrite app_nil_r. split; [reflexivity|]. split; [apply ext_refl|]. split; assumption.
    - inversion Nm as [|? ? N1 N2]; subst. cbn [w_forced].
      assert (Hd : held i lk = false). { apply held_not. specialize (Fr [] (n :: p) eq_refl ltac:(discriminate)). rewrite app_nil_r in Fr. apply (Fr w i); [apply ext_refl|exact H]. }
      rewrite Hd. destruct (parse_place f st bl ok s w i pl F B A) as (w1 & P & X & B1 & A1 & [In1 No1] & _). rewrite P.
      assert (Go : forall y j, inside pl n y -> node_at (w_heap w1) i n = Some j -> at_place w1 j y /\ hangs (w_heap w1) 0 (q ++ [n]) j).
      { intros y j I G. destruct (In1 n y I) as (j' & G' & Aj & Sl & Ch). rewrite G in G'. injection G' as <-. split; [exact Aj|].
        eapply hangs_child; [eapply hangs_ext; [exact B|exact X|exact H]|exact N1|exact Ch|exact Sl]. }
      assert (Fr1 : forall p1 p2, p = p1 ++ p2 -> p2 <> [] -> free w1 lk ((q ++ [n]) ++ p1)).
      { intros p1 p2 -> Ne. rewrite <- app_assoc. eapply free_ext; [exact X|]. apply (Fr (n :: p1) p2); [reflexivity|exact Ne]. }
      split.
      + intros z L. inversion L as [|? ? y ? ? I L']; subst. destruct (In1 n y I) as (j & G & _). rewrite G. destruct (Go y j I G) as [Aj Hj].
        destruct (IH w1 j y (q ++ [n]) B1 Aj N2 Hj Fr1) as [Le _]. destruct (Le z L') as (j' & w' & E & X' & B' & H'). exists j', w'. split; [exact E|].
        split; [eapply ext_trans; eassumption|]. split; [exact B'|]. rewrite <- app_assoc in H'. exact H'.
      + intro Fa. inversion Fa as [? ? ? Nn|? ? y ? I Fa']; subst.
        * rewrite (No1 n Nn). exists w1. auto.
        * destruct (In1 n y I) as (j & G & _). rewrite G. destruct (Go y j I G) as [Aj Hj].
          destruct (IH w1 j y (q ++ [n]) B1 Aj N2 Hj Fr1) as [_ Fl]. destruct (Fl Fa') as (w' & E & X' & B'). exists w'. split; [exact E|]. split; [eapply ext_trans; eassumption|exact B'].
  Qed.
  Definition locked (w : world) (seen : list (list text)) (rd : list id) : Prop := Forall2 (fun X i => hangs (w_heap w) 0 X i) seen rd.
  Lemma locked_ext w w' seen rd : bounded w -> ext w w' -> locked w seen rd -> locked w' seen rd.
  Proof. intros B X L. induction L as [|Y i seen rd H _ IH]; constructor; [eapply hangs_ext; eassumption|exact IH]. Qed.
  Lemma good_plain p : good_path p -> plain p.
  Proof. intros [_ G]. eapply Forall_impl; [|exact G]. intros c [_ H]. exact H. Qed.
  Lemma outlook w seen rd p i Y z0 : base_world w -> locked w seen rd -> good_path p -> Forall (fun X => ~ beyond X p) seen -> Forall (fun X => X <> []) seen ->
    Y <> [] -> hangs (w_heap w) 0 Y i -> leads top Y z0 ->
    (forall z, leads top p z -> exists m j w', ext w w' /\ base_world w' /\ hangs (w_heap w') 0 p j /\ forall d, (m <= d)%nat -> w_outlink st bl f d rd w (joined p) i = (Ok (Some j), w')) /\
    (fails top p -> exists m w', ext w w' /\ base_world w' /\ forall d, (m <= d)%nat -> w_outlink st bl f d rd w (joined p) i = (Ok None, w')).
  Proof.
    intros W Lk Gp Nb Ns Ny Hi Ly. destruct (base_found w Y i z0 W Ny Hi Ly) as [m M]. pose proof W as (B & A & sl & H0). destruct (base_root w W) as [R Ht].
    assert (N0 : held 0 rd = false).
    { apply held_not. intro I. clear - I Lk Ns Ht R. induction Lk as [|X j seen rd H _ IH]; [exact I|]. inversion Ns as [|? ? X0 Ns']; subst. destruct I as [->|I]; [|exact (IH Ns' I)].
      apply X0. eapply hangs_place_once; [exact R|exact Ht|exact H]. }
    pose proof Gp as [Ne Nm]. destruct p as [|n p]; [contradiction|]. inversion Nm as [|? ? N1 N2]; subst.
    destruct (place_read f st bl ok s w 0 top A ltac:(discriminate)) as [In1 No1].
    assert (Fr : forall p1 p2, p = p1 ++ p2 -> p2 <> [] -> free w (0 :: rd) ([n] ++ p1)).
    { intros p1 p2 -> Ne2 w2 k X2 Hk. assert (R2 : rootless (w_heap w2) 0).
      { destruct X2 as [_ X2]. destruct (X2 0 (B 0 _ H0)) as [[E _]|[(n' & q & sl' & E & _)|(n' & k' & q & r' & nm & off' & size' & ks & us & l' & E & U' & _)]].
        - eexists. split; [rewrite E; exact H0|discriminate].
        - rewrite H0 in E. discriminate E.
        - rewrite H0 in E. injection E as _ <- _ _. discriminate U'. }
      intros [<-|I].
      - pose proof (hangs_place_once _ _ R2 _ _ (hangs_ext f st bl w w2 0 B X2 _ _ Ht) _ Hk). discriminate.
      - clear - I Lk Nb Hk R2 B X2 Ne2. induction Lk as [|X j seen rd H _ IH]; [exact I|]. inversion Nb as [|? ? Nx Nb']; subst. destruct I as [->|I]; [|exact (IH Nb' I)].
        apply Nx. exists p2. split; [exact Ne2|]. rewrite (hangs_place_once _ _ R2 _ _ Hk _ (hangs_ext f st bl w w2 0 B X2 _ _ H)). reflexivity. }
    assert (Sp : split_slash (joined (n :: p)) = n :: p) by (apply split_join; [exact Ne|apply good_plain, Gp]).
    assert (Go : forall y j, inside top n y -> node_at (w_heap w) 0 n = Some j -> at_place w j y /\ hangs (w_heap w) 0 [n] j).
    { intros y j I G. destruct (In1 n y I) as (j' & G' & Aj & Sl & Ch). rewrite G in G'. injection G' as <-. split; [exact Aj|]. apply (hangs_child _ _ [] n j 0 Ht N1 Ch Sl). }
    split.
    - intros z L. inversion L as [|? ? y ? ? I L']; subst. destruct (In1 n y I) as (j & G & _). destruct (Go y j I G) as [Aj Hj].
      destruct (forced_walk (0 :: rd) p w j y [n] B Aj N2 Hj Fr) as [Le _]. destruct (Le z L') as (j' & w' & E & X & B' & H'). exists m, j', w'. split; [exact X|].
      split; [eapply base_ext; eassumption|]. split; [exact H'|]. intros d Hd. unfold w_outlink. rewrite M, N0, Sp, G by exact Hd. exact E.
    - intro Fa. inversion Fa as [? ? ? Nn|? ? y ? I Fa']; subst.
      + exists m, w. split; [apply ext_refl|]. split; [exact W|]. intros d Hd. unfold w_outlink. rewrite M, N0, Sp, (No1 n Nn) by exact Hd. reflexivity.
      + destruct (In1 n y I) as (j & G & _). destruct (Go y j I G) as [Aj Hj]. destruct (forced_walk (0 :: rd) p w j y [n] B Aj N2 Hj Fr) as [_ Fl].
        destruct (Fl Fa') as (w' & E & X & B'). exists m, w'. split; [exact X|]. split; [eapply base_ext; eassumption|]. intros d Hd. unfold w_outlink. rewrite M, N0, Sp, G by exact Hd. exact E.
  Qed.

  Lemma canvas_here w P props X v i : base_world w -> canvas_at_path top P props X v -> hangs (w_heap w) 0 X i ->
    X <> [] /\ leads top X (PlProp v) /\ at_place w i (PlProp v) /\ (exists rr g, w_thing w i = ThProp rr (OPng g)) /\
    exists a, read_image f st bl ok s w a props /\ hangs (w_heap w) 0 P a /\ nearest (w_heap w) an_image i a.
  Proof.
    intros W (Q & Nq & -> & LP & LQ & Cv) H. pose proof W as (B & A & _).
    assert (L : leads top (P ++ Q) (PlProp v)).
    { clear - LP LQ. remember (PlImage props) as y eqn:E. revert E LQ. induction LP as [|p n q r z I _ IH]; intros E LQ; [exact LQ|]. cbn [app]. eapply leads_on; [exact I|apply IH; assumption]. }
    pose proof (hangs_at w 0 top A _ _ _ H L) as Ai. destruct (hangs_split _ _ _ _ _ H) as (a & Ha & Hq). pose proof (hangs_at w 0 top A _ _ _ Ha LP) as Aa.
    assert (Rd : read_image f st bl ok s w a props).
    { split; [exact Aa|]. destruct Q as [|n Q]; [contradiction|].
      assert (Sl : exists k, slot (w_heap w) a n k).
      { change (n :: Q) with ([n] ++ Q) in Hq. destruct (hangs_split _ _ _ _ _ Hq) as (k & Hk & _). apply (hangs_snoc_inv _ _ []) in Hk as (a' & Ha' & _ & _ & Sl).
        apply hangs_nil_inv in Ha' as ->. eauto. }
      destruct Sl as [k (c & C & _ & I)]. destruct Aa as (p & name & R). inversion R as [? kids ? ? ? r off size k' l Hc T O Ix Re Lx|]; subst.
      rewrite Hc in C. injection C as <-. cbn [nd_slots] in I. inversion T as [b ? ? ? ? Ek Et|buf e x Tx Ek Et]; subst.
      - destruct b; [eauto|]. rewrite Lx in I. destruct I.
      - rewrite Lx in I. destruct I. }
    split; [destruct P, Q; try discriminate; contradiction|]. split; [exact L|]. split; [exact Ai|]. split.
    - destruct Cv as (wd & h & fm & sc & pg & hd & off & size & kids & ->). destruct Ai as (rr & n & q & nm & O & R & S). inversion R; subst. inversion S; subst. eauto.
    - exists a. split; [exact Rd|]. split; [exact Ha|]. destruct (image_walk f st bl ok s w a props Q Rd) as [Iw _]. destruct (Iw _ LQ Nq) as (j & u & _ & _ & T & _ & N & _).
      apply hangs_fold in Hq. rewrite Hq in T. injection T as <-. exact N.
  Qed.

  Lemma leads_join p1 : forall pl p2 y z, leads pl p1 y -> leads y p2 z -> leads pl (p1 ++ p2) z.
  Proof. induction p1 as [|n p1 IH]; intros pl p2 y z L1 L2; inversion L1; subst; [exact L2|]. cbn [app]. eapply leads_on; [eassumption|eapply IH; eassumption]. Qed.

  Lemma no_in w i v a props : at_place w i (PlProp v) -> read_image f st bl ok s w a props -> nearest (w_heap w) an_image i a -> no_inlink props v ->
    exists m, forall d, (m <= d)%nat -> rbind (w_link_text w i (txt "_inlink")) (fun o => match o with Some p => resolve_inlink d (w_heap w) p i | None => Ok None end) = Ok None.
  Proof.
    intros A Rd N [Nt|(p & Gp & Re & Fa)].
    - exists 0%nat. intros d _. destruct (link_text_at f st bl ok s inflate bc7 rayon w i v (txt "_inlink") A) as [(t' & Re' & _)|[_ ->]]; [destruct (Nt _ Re')|reflexivity].
    - destruct (nearest_up _ _ _ _ _ image_dec N) as [m M]. exists m. intros d Hd.
      destruct (link_text_at f st bl ok s inflate bc7 rayon w i v (txt "_inlink") A) as [(t' & Re' & ->)|[No _]]; [|destruct (No _ Re)]. rewrite (remarks_fun _ _ _ _ Re' Re). cbn [rbind].
      unfold resolve_inlink, get_parent_wz_image. rewrite M by lia. cbn [rbind]. rewrite at_path_join by (try apply good_plain; apply Gp). rewrite (proj2 (image_walk f st bl ok s w a props p Rd) Fa). reflexivity.
  Qed.

  Lemma viewed : forall seen X r, views top seen X r -> forall w rd i, base_world w -> locked w seen rd -> Forall (fun X => X <> []) seen -> hangs (w_heap w) 0 X i ->
    exists d0 x w', shown_as ok inflate bc7 rayon r x /\ ext w w' /\ base_world w' /\ forall d, (d0 <= d)%nat -> w_get_image st bl f inflate bc7 rayon d rd w i = (x, w').
  Proof.
    induction 1 as [seen X z Nx L Nc|seen P props X v p z r C Gp Re Lz _ IH|seen P props X v p z r C Ni Gp Re Lz Nb _ IH|seen P props X v C Ni No]; intros w rd i W Lk Ns H.
    - exists 1%nat, (Err (EOther 70)), w. split; [reflexivity|]. split; [apply ext_refl|]. split; [exact W|]. intros [|d] Hd; [lia|]. cbn [w_get_image].
      pose proof W as (B & A & sl & H0). pose proof (hangs_at w 0 top A _ _ _ H L) as Ai. destruct (w_thing w i) as [| | | r0 o| |] eqn:T; try reflexivity. destruct o; try reflexivity.
      exfalso. destruct z as [cs'|props|v].
      + destruct (below_dir w X i cs' W Nx H L) as [d' E]. rewrite E in T. discriminate T.
      + destruct Ai as (q & name & R). inversion R as [? kids ? ? ? r1 off size k l Hc Sr|]; subst. rewrite T in Sr. inversion Sr.
      + apply (Nc v eq_refl). destruct Ai as (rr & n & q & nm & O & R & S). inversion R; subst. inversion S; subst; try congruence. unfold a_canvas. eauto 12.
    - destruct (canvas_here w P props X v i W C H) as (Nx & LX & A & (rr & g & T) & a & Rd & Ha & N).
      destruct (image_walk f st bl ok s w a props p Rd) as [Iw _]. destruct (Iw z Lz (proj1 Gp)) as (t & u & -> & Ef & Gt & At & _).
      pose proof W as (B & _). destruct (walk f st bl ok s F p w a _ B (proj1 Rd)) as [Wk _]. destruct (Wk _ Lz) as (t' & w1 & E1 & _ & _ & _ & Hg). rewrite Ef in E1. injection E1 as <- <-.
      specialize (Hg (proj2 Gp) 0 P Ha).
      destruct (IH w (i :: rd) t W ltac:(constructor; assumption) ltac:(constructor; assumption) Hg) as (d0 & x & w' & Sh & Xw & W' & D).
      destruct (nearest_up _ _ _ _ _ image_dec N) as [m M]. exists (S (Nat.max d0 m)), x, w'. split; [exact Sh|]. split; [exact Xw|]. split; [exact W'|]. intros [|d] Hd; [lia|]. cbn [w_get_image].
      rewrite T. destruct (link_text_at f st bl ok s inflate bc7 rayon w i v (txt "_inlink") A) as [(t' & Re' & ->)|[No _]]; [|destruct (No _ Re)]. rewrite (remarks_fun _ _ _ _ Re' Re). cbn [rbind].
      unfold resolve_inlink, get_parent_wz_image. rewrite M by lia. cbn [rbind]. rewrite at_path_join by (try apply good_plain; apply Gp). rewrite Gt. apply D. lia.
    - destruct (canvas_here w P props X v i W C H) as (Nx & LX & A & (rr & g & T) & a & Rd & Ha & N). destruct (no_in w i v a props A Rd N Ni) as [m M].
      destruct (outlook w (X :: seen) (i :: rd) p i X _ W ltac:(constructor; assumption) Gp Nb ltac:(constructor; assumption) Nx H LX) as [Lo _].
      destruct (Lo z Lz) as (m2 & j & w1 & X1 & W1 & Hj & M2). pose proof W as (B & _).
      destruct (IH w1 (i :: rd) j W1) as (d0 & x & w' & Sh & Xw & W' & D); [apply (locked_ext w w1); [exact B|exact X1|constructor; assumption]|constructor; assumption|exact Hj|].
      exists (S (Nat.max d0 (Nat.max m m2))), x, w'. split; [exact Sh|]. split; [eapply ext_trans; eassumption|]. split; [exact W'|]. intros [|d] Hd; [lia|]. cbn [w_get_image].
      rewrite T, M by lia. destruct (link_text_at f st bl ok s inflate bc7 rayon w i v (txt "_outlink") A) as [(t' & Re' & ->)|[No _]]; [|destruct (No _ Re)]. rewrite (remarks_fun _ _ _ _ Re' Re).
      rewrite M2 by lia. apply D. lia.
    - destruct (canvas_here w P props X v i W C H) as (Nx & LX & A & _ & a & Rd & Ha & N). destruct (no_in w i v a props A Rd N Ni) as [m M].
      assert (Ex : exists m2 w1, ext w w1 /\ base_world w1 /\ forall d, (m2 <= d)%nat ->
        match w_link_text w i (txt "_outlink") with Ok (Some p) => w_outlink st bl f d (i :: rd) w p i | Ok None => (Ok None, w) | Err e => (Err e, w) | Panic => (Panic, w) | OutOfFuel => (OutOfFuel, w) end = (Ok None, w1)).
      { destruct No as [Nt|(p & Gp & Re & Fa & Nb)].
        - exists 0%nat, w. split; [apply ext_refl|]. split; [exact W|]. intros d _. destruct (link_text_at f st bl ok s inflate bc7 rayon w i v (txt "_outlink") A) as [(t' & Re' & _)|[_ ->]]; [destruct (Nt _ Re')|reflexivity].
        - destruct (outlook w (X :: seen) (i :: rd) p i X _ W ltac:(constructor; assumption) Gp Nb ltac:(constructor; assumption) Nx H LX) as [_ Fo].
          destruct (Fo Fa) as (m2 & w1 & X1 & W1 & M2). exists m2, w1. split; [exact X1|]. split; [exact W1|]. intros d Hd.
          destruct (link_text_at f st bl ok s inflate bc7 rayon w i v (txt "_outlink") A) as [(t' & Re' & ->)|[No _]]; [|destruct (No _ Re)]. rewrite (remarks_fun _ _ _ _ Re' Re). apply M2, Hd. }
      destruct Ex as (m2 & w1 & X1 & W1 & M2). destruct C as (Q & _ & _ & _ & _ & wd & h & fm & sc & pg & hd & off & size & kids & ->).
      destruct A as (rr & n & q & nm & O & R & S). inversion R as [o ks ? ? ? l Hc T I Lr]; subst. inversion S; subst.
      exists (Datatypes.S (Nat.max m m2)). eexists _, w1. split; [exists rr; split; [exact O|reflexivity]|]. split; [exact X1|]. split; [exact W1|].
      intros [|d] Hd; [lia|]. cbn [w_get_image]. rewrite T, M by lia. rewrite M2 by lia. reflexivity.
  Qed.
End outlook.
