(** What opening a classic package accepts. *)
From Coq Require Import ZArith List Bool Lia ZifyBool ZifyNat.
From Verif.Model Require Import Base Utf Keys Reader WzStr Header Offset VersionPkg1 Image Directory.
From Verif.Spec Require Import Wire Stream StrWire Version PropWire DirWire DirView.
From Verif.Proofs Require Import BaseL WireL ReaderL StringL StrWireL VersionL Pkg1L AtL ImageL ParseL ScanL DirL.
Ltac Zify.zify_post_hook ::= idtac.

Lemma read_u8_at_inv buf off b : read_u8_at buf off = Ok b -> 0 <= off ->
  exists pre post, buf = pre ++ b :: post /\ zlen pre = off.
Proof.
  unfold read_u8_at, read_at. intros H H0. destruct (slice buf off (off + 1)) as [l|] eqn:E; [|discriminate].
  injection H as H. unfold slice in E.
  destruct ((0 <=? off) && (off <=? off + 1) && (off + 1 <=? zlen buf)) eqn:K; [|discriminate].
  injection E as <-. exists (firstn (Z.to_nat off) buf), (skipn (Z.to_nat off + 1) buf).
  assert (L : zlen (firstn (Z.to_nat off) buf) = off) by (unfold zlen in *; rewrite firstn_length; lia).
  split; [|exact L]. rewrite <- (firstn_skipn (Z.to_nat off) buf) at 1. f_equal.
  replace (Z.to_nat (off + 1 - off)) with 1%nat in H by lia.
  replace (Z.to_nat off + 1)%nat with (1 + Z.to_nat off)%nat by lia.
  assert (SK : skipn (1 + Z.to_nat off) buf = skipn 1 (skipn (Z.to_nat off) buf)).
  { generalize (Z.to_nat off) as n. clear. intro n. revert buf. induction n as [|n IH]; intros [|x t]; try reflexivity.
    exact (IH t). }
  rewrite SK. destruct (skipn (Z.to_nat off) buf) as [|x t] eqn:S.
  - apply (f_equal (@length Z)) in S. rewrite skipn_length in S. unfold zlen in *. cbn in S. lia.
  - cbn [firstn le_val] in H. rewrite Z.mul_0_r, Z.add_0_r in H. subst b. reflexivity.
Qed.

Section sane.
  Variable r : rd.
  Variable h : header.
  Variable p2 : bool.
  Variable v : offv.
  Variable hash : Z.

  Lemma off_calc_nonneg a b c d e : 0 <= off_calc v a b c d e.
  Proof. pose proof (off_u32 v a b c d e) as H. destruct H. assumption. Qed.

  Lemma entry_sane e nm n : verify_entry r h v hash e = Ok tt -> entry_node r h v hash e = Ok (nm, n) -> sane (rd_buf r) n.
  Proof.
    unfold verify_entry, entry_node. intros V N. destruct (get_string r (en_name e)) as [t| | |]; try discriminate.
    injection N as <- <-. destruct (zlen (rd_buf r) <? wrap 64 (en_off h v hash e + en_size e)) eqn:L; [discriminate|].
    destruct (en_type e); try apply sane_empty.
    - apply sane_dir. constructor.
    - destruct (read_u8_at (rd_buf r) (en_off h v hash e)) as [b| | |] eqn:B; try discriminate. cbn [rbind] in V.
      destruct (valid_image_header b) eqn:VB; [|discriminate].
      destruct (read_u8_at_inv _ _ _ B (off_calc_nonneg _ _ _ _ _)) as (pre & post & E & P).
      eapply sane_image; [exact E|exact P| |].
      + unfold valid_image_header in VB. lia.
      + change ((en_off h v hash e + en_size e) mod 2 ^ 64) with (wrap 64 (en_off h v hash e + en_size e)).
        unfold zlen in L. lia.
  Qed.

  Lemma nodes_sane es : verify_all r h v hash es = true -> forall l, entry_nodes r h v hash es = Ok l ->
    Forall (fun x => sane (rd_buf r) (snd x)) l.
  Proof.
    induction es as [|e t IH]; cbn [verify_all entry_nodes]; intros V l E.
    - injection E as <-. constructor.
    - destruct (verify_entry r h v hash e) as [[]| | |] eqn:VE; try discriminate.
      destruct (entry_node r h v hash e) as [[nm n]| | |] eqn:EN; try discriminate. cbn [rbind] in E.
      destruct (entry_nodes r h v hash t) as [l'| | |] eqn:ET; try discriminate. injection E as <-.
      constructor; [|auto]. cbn [snd]. eapply entry_sane; eauto.
  Qed.

  Lemma descend_sane f l l' : (forall d k d', f d = (Ok k, d') -> Forall (fun x => sane (rd_buf r) (snd x)) k) ->
    Forall (fun x => sane (rd_buf r) (snd x)) l -> descend f l = Ok l' -> Forall (fun x => sane (rd_buf r) (snd x)) l'.
  Proof.
    intros Hf. revert l'. induction l as [|[nm n] t IH]; cbn [descend]; intros l' F E.
    - injection E as <-. constructor.
    - inversion F as [|? ? Hn Ft]; subst. cbn [snd] in Hn. destruct n as [o s|d k|].
      + destruct (descend f t) as [x| | |]; try discriminate. injection E as <-. constructor; [exact Hn|auto].
      + destruct (f d) as [[sub| | |] d'] eqn:FD; try discriminate.
        destruct (descend f t) as [x| | |]; try discriminate. injection E as <-. constructor; [|auto].
        cbn [snd]. apply sane_dir. apply Forall_app. inversion Hn; subst. split; [assumption|eapply Hf, FD].
      + destruct (descend f t) as [x| | |]; try discriminate. injection E as <-. constructor; [exact Hn|auto].
  Qed.

  Lemma resolve_sane f : forall d l d', resolve_children r h p2 v hash f d = (Ok l, d') ->
    Forall (fun x => sane (rd_buf r) (snd x)) l.
  Proof.
    induction f as [|k IH]; intros d l d' H; [discriminate|]. cbn [resolve_children] in H.
    destruct (di_size d =? 0). { injection H as <- _. constructor. }
    destruct (prepare r h p2 v hash (S k) d) as [[[]| | |] d1]; try discriminate.
    destruct (verify_all r h v hash (di_entries d1)) eqn:V; [|discriminate].
    destruct (entry_nodes r h v hash (di_entries d1)) as [n| | |] eqn:EN; try discriminate. cbn [rbind] in H.
    destruct (descend (resolve_children r h p2 v hash k) n) as [l'| | |] eqn:D; try discriminate.
    injection H as <- _. eapply descend_sane; [|eapply nodes_sane; eauto|exact D]. intros d0 k0 d0' E. eapply IH, E.
  Qed.

  Lemma first_image_valid l : Forall (fun x => sane (rd_buf r) (snd x)) l ->
    match first_image l with
    | Some off => match read_u8_at (rd_buf r) off with Ok b => valid_image_header b | _ => false end
    | None => true
    end = true.
  Proof.
    intro F. unfold first_image.
    assert (G : Forall (fun x => sane (rd_buf r) (snd x)) (filter (fun x : text * dnode => match snd x with NImage _ _ => true | _ => false end) l)).
    { apply Forall_forall. intros x Hx. apply filter_In in Hx as [Hx _]. rewrite Forall_forall in F. auto. }
    destruct (filter _ l) as [|[nm [o s|d k|]] t]; try reflexivity.
    inversion G as [|? ? Sn _]; subst. cbn [snd] in Sn. inversion Sn as [off size b pre post E P B L| |]; subst.
    assert (X : read_u8_at (rd_buf r) (Z.of_nat (length pre)) = Ok b).
    { unfold read_u8_at, read_at. rewrite E. change (Z.of_nat (length pre)) with (zlen pre).
      change (b :: post) with ([b] ++ post). change (zlen pre + 1) with (zlen pre + zlen [b]). rewrite (slice_mid pre [b] post). cbn [le_val]. f_equal. lia. }
    rewrite X. unfold valid_image_header. destruct B as [->|[->| ->]]; reflexivity.
  Qed.

  (** One attempt: what [try_decode] gives, in terms of resolve_children. *)
  Lemma try_decode_eq f d : hash <> 0 -> verify_all r h v hash (di_entries d) = true ->
    try_decode r h p2 v hash f false d = resolve_children r h p2 v hash f d.
  Proof.
    intros Hh V. unfold try_decode. rewrite V. replace (hash =? 0) with false by lia. cbn [negb orb].
    destruct (resolve_children r h p2 v hash f d) as [[l| | |] d'] eqn:E; try reflexivity.
    rewrite (first_image_valid l); [reflexivity|]. eapply resolve_sane, E.
  Qed.

  Lemma try_decode_ok f b d l d' : try_decode r h p2 v hash f b d = (Ok l, d') ->
    hash <> 0 /\ resolve_children r h p2 v hash f d = (Ok l, d').
  Proof.
    unfold try_decode. destruct (hash =? 0) eqn:H0; [discriminate|]. cbn [orb].
    destruct (verify_all r h v hash (di_entries d)); [|discriminate]. cbn [negb].
    destruct (resolve_children r h p2 v hash f d) as [[l0| | |] d0] eqn:E; try discriminate.
    destruct (match first_image l0 with Some _ => _ | None => _ end); [|discriminate].
    destruct b; [discriminate|]. intro H. split; [lia|]. exact H.
  Qed.
End sane.

Lemma try_versions_ok r h p2 f b cands : forall d v hash l,
  try_versions r h p2 f b cands d = Ok (v, hash, l) ->
  In (v, hash) cands /\ hash <> 0 /\ exists d0 d', resolve_children r h p2 OPkg1 hash f d0 = (Ok l, d').
Proof.
  induction cands as [|[w k] t IH]; cbn [try_versions]; intros d v hash l H; [discriminate|].
  destruct (try_decode r h p2 OPkg1 k f (b && (w =? 113)) d) as [[l0| | |] d0] eqn:E; try discriminate.
  - injection H as <- <- <-. apply try_decode_ok in E as [Hk E]. split; [left; reflexivity|]. eauto.
  - apply IH in H as (A & B). split; [right; exact A|exact B].
Qed.

(** *** Detection *)
Section detect.
  Variable r : rd.
  Variable h : header.
  Variable p2 : bool.
  Variable es : list dirent.
  Variable off size : Z.
  Hypothesis Hv1 : hd_ident h = IV1.
  Hypothesis Hes : fst (resolve_pkg1 r h off) = Ok es.

  (** The two states the root directory can be in between attempts. *)
  Definition fresh (d : dir) : Prop := d = dir_new off size \/ d = mkDir off size false EntryCreated es.

  Lemma prepare_fresh hash f d : fresh d ->
    prepare r h p2 OPkg1 hash f d = (Ok tt, mkDir off size false EntryCreated es).
  Proof.
    intros [-> | ->]; unfold prepare; cbn [dir_new di_status]; [|reflexivity].
    unfold read_entries. rewrite Hv1. cbn [di_off di_size di_parsed dir_new]. rewrite Hes. reflexivity.
  Qed.

  Lemma resolve_fresh hash f d d' : fresh d -> fresh d' ->
    fst (resolve_children r h p2 OPkg1 hash f d) = fst (resolve_children r h p2 OPkg1 hash f d').
  Proof.
    intros F F'. destruct f as [|k]; [reflexivity|]. cbn [resolve_children].
    rewrite (prepare_fresh hash (S k) d F), (prepare_fresh hash (S k) d' F').
    replace (di_size d) with size by (destruct F as [-> | ->]; reflexivity).
    replace (di_size d') with size by (destruct F' as [-> | ->]; reflexivity).
    destruct (size =? 0); reflexivity.
  Qed.

  Lemma attempt_err hash f d e d' : fresh d ->
    try_decode r h p2 OPkg1 hash f false d = (Err e, d') -> fresh d'.
  Proof.
    intros F. unfold try_decode.
    destruct ((hash =? 0) || negb (verify_all r h OPkg1 hash (di_entries d))). { intro H. injection H as _ <-. exact F. }
    destruct (resolve_children r h p2 OPkg1 hash f d) as [[l| | |] d0] eqn:E; try discriminate.
    - rewrite (first_image_valid r l); [discriminate|]. eapply resolve_sane, E.
    - intro H. injection H as <- <-. destruct f as [|k]; [discriminate|]. cbn [resolve_children] in E.
      destruct (di_size d =? 0); [discriminate|]. rewrite (prepare_fresh hash (S k) d F) in E.
      destruct (verify_all _ _ _ _ _); [|injection E as _ <-; right; reflexivity].
      destruct (rbind _ _); try discriminate; injection E as _ <-; right; reflexivity.
  Qed.

  Lemma attempt_good hash f d l d' : hash <> 0 -> fresh d ->
    resolve_children r h p2 OPkg1 hash f (dir_new off size) = (Ok l, d') -> size <> 0 ->
    exists d2, try_decode r h p2 OPkg1 hash f false d = (Ok l, d2).
  Proof.
    intros Hh F E Hsz.
    assert (V : verify_all r h OPkg1 hash (di_entries d) = true).
    { destruct F as [-> | ->]; [reflexivity|]. destruct f as [|k]; [discriminate|]. cbn [resolve_children] in E.
      cbn [dir_new di_size] in E. replace (size =? 0) with false in E by lia.
      change (mkDir off size false Init []) with (dir_new off size) in E.
      rewrite (prepare_fresh hash (S k) (dir_new off size)) in E by (left; reflexivity). cbn [di_entries] in *.
      destruct (verify_all r h OPkg1 hash es); [reflexivity|discriminate]. }
    rewrite try_decode_eq by assumption.
    pose proof (resolve_fresh hash f d (dir_new off size) F (or_introl eq_refl)) as X. rewrite E in X. cbn [fst] in X.
    destruct (resolve_children r h p2 OPkg1 hash f d) as [x d2]. cbn [fst] in X. subst x. eauto.
  Qed.

  Lemma detect hash v f l d' cands : hash <> 0 -> size <> 0 ->
    resolve_children r h p2 OPkg1 hash f (dir_new off size) = (Ok l, d') ->
    In (v, hash) cands -> forall d, fresh d ->
    match try_versions r h p2 f false cands d with
    | Ok (v', hash', _) => exists before after, cands = before ++ (v', hash') :: after /\
        (In (v, hash) ((v', hash') :: after))
    | Err _ => False
    | Panic | OutOfFuel => True
    end.
  Proof.
    intros Hh Hsz E. induction cands as [|[w k] t IH]; intros I d F; [destruct I|]. cbn [try_versions].
    cbn [andb]. destruct (try_decode r h p2 OPkg1 k f false d) as [[l0| e | |] d0] eqn:T; try exact Logic.I.
    - exists [], t. split; [reflexivity|exact I].
    - destruct I as [I|I].
      + injection I as -> ->. destruct (attempt_good hash f d l d' Hh F E Hsz) as [d2 G]. congruence.
      + specialize (IH I d0 (attempt_err _ _ _ _ _ F T)).
        destruct (try_versions r h p2 f false t d0) as [[[v' h'] l1]| | |]; try exact IH.
        destruct IH as (be & af & -> & J). exists ((w, k) :: be), af. split; [reflexivity|exact J].
  Qed.
End detect.
