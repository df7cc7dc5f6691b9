(** C89, C90: what a directory listing may contain. *)
From Coq Require Import ZArith List Bool Lia ZifyBool ZifyNat.
From Coq Require String.
From Verif.Model Require Import Base Utf Keys Reader WzStr Header Offset VersionPkg1 Image Directory.
From Verif.Spec Require Import Wire Stream StrWire Version PropWire DirWire DirView DirWire2.
From Verif.Proofs Require Import BaseL WireL ReaderL StringL StrWireL EncL BlowL VersionL Pkg1L AtL ImageL ParseL ScanL DirL Dir2L OpenL.
From Verif.Props Require Import P_Offset P_Version P_Directory.
Import String.StringSyntax.
Ltac Zify.zify_post_hook ::= idtac.

(** ** Types of entries *)
Definition known (t : dtype) : Prop := t = DDir \/ t = DImage.
Ltac step E := match goal with |- context [let (_, _) := ?x in _] => destruct x as [[?| | |] ?] eqn:E; try discriminate end.
Lemma entries1_types r h n : forall p es q, entries1 r h n p = (Ok es, q) ->
  Forall (fun e => known (en_type e) \/ en_type e = DMeta) es.
Proof.
  induction n as [|n IH]; intros p es q; cbn [entries1]; [intros [= <- _]; constructor|].
  unfold bind. destruct (read_pkg1_entry r h p) as [[e| | |] p1]; try discriminate.
  destruct (en_type e) eqn:T; try discriminate; [exact (IH _ _ _)|..]; step E; intros [= <- _];
    (constructor; [unfold known; rewrite T; tauto|apply (IH _ _ _ E)]).
Qed.
Lemma entries2_types r h p2 f : forall c first p es q, entries2 r h p2 f c first p = (Ok es, q) ->
  Forall (fun e => known (en_type e) \/ en_type e = DMeta) es.
Proof.
  induction f as [|f IH]; intros c first p es q; cbn [entries2]; [discriminate|].
  unfold bind. destruct (read_pkg2_entry r h p2 c first p) as [[e| | |] p1]; try discriminate.
  destruct (en_type e) eqn:T; try discriminate; [intros [= <- _]; constructor|..]; step E; intros [= <- _];
    (constructor; [unfold known; rewrite T; tauto|apply (IH _ _ _ _ _ E)]).
Qed.
Lemma entries64_types r h p2 f : forall c first p es q, entries64 r h p2 f c first p = (Ok es, q) ->
  Forall (fun e => known (en_type e) \/ en_type e = DMeta) es.
Proof.
  induction f as [|f IH]; intros c first p es q; cbn [entries64]; [intros [= <- _]; constructor|].
  unfold bind. destruct (read_pkg2_entry r h p2 c first p) as [[e| | |] p1]; try discriminate.
  destruct (en_type e) eqn:T; try discriminate; step E; intros [= <- _];
    (constructor; [unfold known; rewrite T; tauto|apply (IH _ _ _ _ _ E)]).
Qed.
Lemma fill_types (P : dtype -> Prop) r es : forall p es' q, fill_offsets r es p = (Ok es', q) ->
  Forall (fun e => P (en_type e)) es -> Forall (fun e => P (en_type e)) es'.
Proof.
  induction es as [|e es IH]; intros p es' q; cbn [fill_offsets]; [intros [= <- _]; auto|].
  unfold bind. cbn [get_pos]. destruct (read_u32 r p) as [[x| | |] p1]; try discriminate.
  destruct (fill_offsets r es p1) as [[t| | |] p2] eqn:E; try discriminate. intros [= <- _] F.
  inversion_clear F. constructor; [assumption|]. apply (IH _ _ _ E). assumption.
Qed.

(** C90: a listing that is accepted, in whatever format, has no entry of an unknown type. *)
Theorem C90_listing_types : forall r h p2 v hash fuel off es, read_entries r h p2 v hash fuel off = Ok es ->
  Forall (fun e => en_type e = DDir \/ en_type e = DImage \/ en_type e = DMeta) es.
Proof.
  intros r h p2 v hash fuel off es H.
  enough (G : Forall (fun e => known (en_type e) \/ en_type e = DMeta) es).
  { eapply Forall_impl; [|exact G]. unfold known. intros e. cbv beta. tauto. }
  unfold read_entries in H. destruct (hd_ident h); [..|discriminate].
  - unfold resolve_pkg1, bind in H. destruct (read_wz_int r off) as [[n| | |] p]; try discriminate.
    destruct (_ || _); [discriminate|]. destruct (entries1 r h (Z.to_nat n) p) as [x q] eqn:E. cbn in H. subst x.
    apply (entries1_types _ _ _ _ _ _ E).
  - destruct (is_pkg2_64 h).
    + destruct v; try discriminate. unfold resolve_pkg2_64, bind in H.
      destruct (read_wz_int64 r off) as [[n| | |] p]; try discriminate.
      unfold lift in H. destruct (entry_count_64 _ _ _) as [c| | |]; try discriminate.
      destruct (_ <? _); [discriminate|].
      destruct (entries64 _ _ _ _ _ _ _) as [[t| | |] q] eqn:E; try discriminate.
      destruct (fill_offsets r t q) as [x q'] eqn:F. cbn in H. subst x.
      apply (fill_types (fun t => known t \/ t = DMeta) _ _ _ _ _ F). apply (entries64_types _ _ _ _ _ _ _ _ _ E).
    + unfold resolve_pkg2, bind in H.
      destruct (read_wz_int r off) as [[n| | |] p]; try discriminate.
      destruct (entries2 _ _ _ _ _ _ _) as [[t| | |] q] eqn:E; try discriminate.
      destruct (read_wz_int r q) as [[n'| | |] q2]; try discriminate.
      destruct (_ || _); [discriminate|].
      destruct (fill_offsets r t q2) as [x q'] eqn:F. cbn in H. subst x.
      apply (fill_types (fun t => known t \/ t = DMeta) _ _ _ _ _ F). apply (entries2_types _ _ _ _ _ _ _ _ _ E).
Qed.
Print Assumptions C90_listing_types.

(** C90: a subdirectory whose entry count, at its offset, is negative makes reading its parent fail. *)
Theorem C90_negative_count : forall r h p2 v hash fuel d es e q c, zlen (rd_buf r) < 2 ^ 31 ->
  di_status d = Init -> di_size d <> 0 -> read_entries r h p2 v hash (S fuel) (di_off d) = Ok es ->
  In e es -> en_type e = DDir -> c < 0 ->
  (if is_pkg2_64 h then - 2 ^ 63 <= c /\ at_ (rd_buf r) (en_off h v hash e) q (enc_wzint 8 c)
   else int_at (rd_buf r) (en_off h v hash e) q c) ->
  fst (resolve_children r h p2 v hash (S fuel) d) = Err EWrongVersion.
Proof.
  intros r h p2 v hash fuel d es e q c Hs St Sz R I T Hc A. cbn [resolve_children].
  replace (di_size d =? 0) with false by lia. unfold prepare. rewrite St, R. cbn [di_entries].
  assert (V : verify_entry r h v hash e <> Ok tt).
  { unfold verify_entry. rewrite T. destruct (_ <? _); [discriminate|].
    destruct (is_pkg2_64 h).
    - rewrite (at_wzint64 r Hs _ q c ltac:(lia) (proj2 A)). cbn [fst rbind]. replace (c <? 0) with true by lia. discriminate.
    - rewrite (at_wzint r Hs _ q c A). cbn [fst rbind]. replace (c <? 0) with true by lia. discriminate. }
  replace (verify_all r h v hash es) with false; [reflexivity|]. symmetry. clear -V I.
  induction es as [|x es IH]; [destruct I|]. cbn [verify_all]. destruct I as [->|I].
  - destruct (verify_entry r h v hash e) as [[]| | |]; congruence.
  - rewrite (IH I). destruct (verify_entry r h v hash x); reflexivity.
Qed.
Print Assumptions C90_negative_count.

(** A package whose only entry is a directory with count -1 (byte 255) at offset 10. *)
Definition ex_negdir : list Z :=
  [1] ++ [3] ++ enc_str key0 (codes "d") ++ [1; 0] ++ stored OPkg1 0 0 1876 6 10 ++ [0xFF].
Example C90_ex :
  fst (resolve_children (rd0 ex_negdir) h_cycle false OPkg1 1876 3 (dir_new 0 11)) = Err EWrongVersion /\  exists es, read_entries (rd0 ex_negdir) h_cycle false OPkg1 1876 3 0 = Ok es /\ map en_type es = [DDir].
Proof. split; [vm_compute; reflexivity|]. eexists. split; vm_compute; reflexivity. Qed.
(** The same with type byte 9. *)
Example C90_ex_type : read_entries (rd0 ([1] ++ [9] ++ skipn 2 ex_negdir)) h_cycle false OPkg1 1876 3 0 = Err EDirType.
Proof. vm_compute. reflexivity. Qed.

(** C89: full statement: an opened package consists of directories and images.  False: an entry with its
    name elsewhere (type 2) whose type byte there is 2 again becomes an empty node. *)
Definition ex_meta : list Z :=
  [1] ++ [2] ++ enc_le 4 12 ++ [0; 0] ++ stored OPkg1 0 0 1876 8 0 ++ [2] ++ enc_str key0 (codes "i").
Theorem C89_only_known_nodes_refuted : exists r h, bytes (rd_buf r) /\ zlen (rd_buf r) = 15 /\ hd_ident h = IV1 /\  parse_pkg1 3 r h false 15 83 = Ok (83, 1876, [(codes "i", NEmpty)]).
Proof.
  exists (rd0 ex_meta), h_cycle. split; [vm_compute; repeat constructor; discriminate|]. split; [reflexivity|]. split; [reflexivity|].
  vm_compute. reflexivity.
Qed.
Print Assumptions C89_only_known_nodes_refuted.

(** C91: full statement: reading a directory of a 64-bit package with a profile that was not made for it
    is an error.  False: it is a panic, and the profile a new directory has is such a one. *)
Theorem C91_wrong_profile_refuted : exists h v, hd_ident h = IV2 /\ is_pkg2_64 h = true /\ v = OPkg1 /\
  forall r p2 hash fuel off size, size <> 0 -> fst (resolve_children r h p2 v hash (S fuel) (dir_new off size)) = Panic.
Proof.
  exists (mkHeader IV2 0 0 0 None 0 0 FRandom64), OPkg1. split; [reflexivity|]. split; [reflexivity|]. split; [reflexivity|].
  intros r p2 hash fuel off size Hs. cbn [resolve_children dir_new di_size]. replace (size =? 0) with false by lia. reflexivity.
Qed.
Print Assumptions C91_wrong_profile_refuted.
