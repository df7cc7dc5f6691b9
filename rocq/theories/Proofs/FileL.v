(** Opening package files. *)
From Coq Require Import ZArith List Bool Lia ZifyBool ZifyNat.
From Verif.Model Require Import Base Utf Keys Reader WzStr Header Offset VersionPkg1 VersionPkg2 Directory Guess File.
From Verif.Spec Require Import Wire Stream StrWire Version PropWire DirWire DirView DirWire2 KeyFind.
From Verif.Proofs Require Import BaseL WireL ReaderL StrWireL AtL OpenL MediaL GuessL Dir2L.
Import ListNotations.
Open Scope Z_scope.
Ltac Zify.zify_post_hook ::= idtac.

Section one.
  Variable r : rd.
  Variable h : header.
  Variable p2 : bool.
  Variable v : offv.
  Variable hash : Z.

  (** What resolving does after the entries have been read. *)
  Lemma resolve_prepared f d l d' d1 : di_size d <> 0 -> prepare r h p2 v hash f d = (Ok tt, d1) ->
    resolve_children r h p2 v hash f d = (Ok l, d') ->
    resolve_children r h p2 v hash f d1 = (Ok l, d') /\ verify_all r h v hash (di_entries d1) = true /\
    exists nodes, entry_nodes r h v hash (di_entries d1) = Ok nodes.
  Proof.
    intros Sz P E. destruct f as [|k]; [discriminate E|]. cbn [resolve_children] in *. replace (di_size d =? 0) with false in E by lia.
    rewrite P in E.
    assert (S1 : di_size d1 = di_size d /\ prepare r h p2 v hash (S k) d1 = (Ok tt, d1)).
    { unfold prepare in P. destruct (di_status d) eqn:St.
      - destruct (read_entries r h p2 v hash (S k) (di_off d)); try discriminate P. injection P as <-. split; reflexivity.
      - injection P as <-. split; [reflexivity|]. unfold prepare. rewrite St. reflexivity.
      - injection P as <-. split; [reflexivity|]. unfold prepare. rewrite St. reflexivity. }
    destruct S1 as [S1 P1]. rewrite S1, P1. replace (di_size d =? 0) with false by lia.
    destruct (verify_all r h v hash (di_entries d1)); [|discriminate E].
    destruct (entry_nodes r h v hash (di_entries d1)) as [nodes| | |]; try discriminate E. eauto.
  Qed.

  Lemma nodes_verify d1 nodes : di_status d1 = EntryCreated -> entry_nodes r h v hash (di_entries d1) = Ok nodes -> verify_string r d1 = true.
  Proof.
    intros St E. unfold verify_string. rewrite St. destruct (di_entries d1) as [|e t]; [reflexivity|]. cbn [entry_nodes] in E.
    unfold entry_node in E. destruct (get_string r (en_name e)); [reflexivity|discriminate E..].
  Qed.

  Lemma resolve_has_prepared f off size l d' : size <> 0 -> resolve_children r h p2 v hash f (dir_new off size) = (Ok l, d') ->
    exists es, read_entries r h p2 v hash f off = Ok es /\
      prepare r h p2 v hash f (dir_new off size) = (Ok tt, mkDir off size false EntryCreated es).
  Proof.
    intros Sz E. destruct f as [|k]; [discriminate E|]. cbn [resolve_children] in E. cbn [dir_new di_size] in E.
    replace (size =? 0) with false in E by lia. unfold prepare in *. cbn [dir_new di_status di_off di_size di_parsed] in *.
    destruct (read_entries r h p2 v hash (S k) off) as [es| | |]; try discriminate E. eauto.
  Qed.
End one.

Section file.
  Variable stream : list Z -> nat -> Z.
  Variable buf : list Z.
  Variable h : header.
  Variable fuel : nat.

  (** A profile under which the directory resolves is taken. *)
  Lemma profile_good p hash k off size l d' : hash <> 0 -> size <> 0 ->
    resolve_children (reader_of stream buf (profile_key h p hash)) h true (prof_offset p) hash fuel (dir_new off size) = (Ok l, d') ->
    try_profile stream buf h fuel false p hash (k, dir_new off size) = (Ok l, (profile_key h p hash, d')).
  Proof.
    intros Hh Sz E. destruct (resolve_has_prepared _ _ _ _ _ _ _ _ _ _ Sz E) as (es & _ & P).
    destruct (resolve_prepared _ _ _ _ _ _ (dir_new off size) _ _ _ Sz P E) as (E1 & V & nodes & N).
    unfold try_profile. change (is_pkg2 (profile_key h p hash)) with true. rewrite P.
    rewrite (nodes_verify _ _ _ _ (mkDir off size false EntryCreated es) nodes eq_refl N). rewrite (try_decode_eq _ _ _ _ _ _ _ Hh V), E1. reflexivity.
  Qed.
End file.

Section nothing.
  Variable st : list Z -> nat -> Z.
  Variable buf : list Z.
  Variable h : header.
  Hypothesis Hs : zlen buf < 2 ^ 31.
  Hypothesis Hb : bytes buf.
  Hypothesis Hh : header_of buf = Ok h.
  Hypothesis H2 : hd_ident h = IV2.

  Lemma unlike_none : unlike_entry buf (hd_data_start h) ->
    guess_decr st buf = Ok None /\ forall d, exists e, verify_decr st buf d = Err e.
  Proof.
    intros (a & b & c & d & e & f & A & N3 & N4 & Q). set (p := hd_data_start h) in *.
    pose proof (at_bytes _ _ _ _ Hb A) as B. pose proof (at_range _ _ _ _ A) as (R0 & _ & R1).
    change ([128; a; b; c; d; e; f]) with ([128] ++ [a; b; c; d] ++ [e] ++ [f]) in A.
    apply at_split in A as [A0 A]. apply at_split in A as [A1 A]. apply at_split in A as [A2 A3].
    change (zlen [128]) with 1 in *. change (zlen [a; b; c; d]) with 4 in *. change (zlen [e]) with 1 in *.
    replace (p + 1 + 4) with (p + 5) in * by lia. replace (p + 5 + 1) with (p + 6) in * by lia.
    assert (Be : byte e /\ byte f /\ bytes [a; b; c; d]).
    { unfold bytes in *. rewrite !Forall_cons_iff in *. tauto. }
    destruct Be as (Be & Bf & B4). unfold byte in Be, Bf.
    destruct (le4_signed _ B4 eq_refl) as (n & Nr & E4). rewrite E4 in A1.
    set (r := plain_rd buf).
    destruct (at_i8 r Hs p (p + 1) (-128) ltac:(lia) A0) as [I8 _].
    destruct (at_i32 r Hs (p + 1) (p + 5) n Nr A1) as [I32 _].
    destruct (at_u8 r Hs (p + 5) (p + 6) e Be A2) as [U8 _].
    assert (I : read_wz_int r p = (Ok n, p + 5)).
    { unfold read_wz_int. rewrite (bind_ok _ _ _ _ _ I8). exact I32. }
    assert (U : read_u8_at buf (p + 5) = Ok e) by (apply (f_equal fst) in U8; exact U8).
    assert (M : first_meta buf = Err EDecrypt).
    { unfold first_meta. rewrite Hh. cbn [rbind]. fold r p. rewrite (bind_ok _ _ _ _ _ I). rewrite H2.
      unfold bind at 1. unfold bind at 1. unfold get_pos at 1. unfold bind at 1. unfold lift at 1. rewrite U.
      assert (T : dtype_of e <> DDir /\ dtype_of e <> DImage).
      { unfold dtype_of. destruct (e =? 1); [split; discriminate|]. destruct (e =? 2); [split; discriminate|].
        replace (e =? 3) with false by lia. replace (e =? 4) with false by lia. split; discriminate. }
      destruct T. destruct (dtype_of e); try congruence; reflexivity. }
    assert (M2 : match first_pkg2_meta buf with Ok m => sm_type m = SEmpty | Err _ => True | _ => False end).
    { unfold first_pkg2_meta. rewrite Hh. cbn [rbind]. rewrite H2. fold r p. rewrite (bind_ok _ _ _ _ _ I). rewrite (bind_ok _ _ _ _ _ U8).
      destruct (e =? 128) eqn:E128.
      - unfold bind at 1. unfold get_pos at 1. unfold bind at 1. unfold seek at 1. unfold bind at 1.
        pose proof (good_int r (wrap 64 (p + 6 - 1))) as G.
        destruct (read_wz_int r (wrap 64 (p + 6 - 1))) as [[x|x| |] q]; cbn [fst] in *; try contradiction; [|exact Logic.I].
        destruct (x =? n); cbn; auto.
      - destruct Q as [Q|Q]; [lia|].
        assert (I8' : read_i8 r (p + 6) = (Ok f, p + 7)).
        { replace (p + 7) with (p + 6 + 1) by lia. apply at_i8; [exact Hs|lia|]. rewrite Z.mod_small by lia. replace (p + 6 + 1) with (p + 7) by lia. exact A3. }
        unfold read_pkg2_dir_meta. rewrite (bind_ok _ _ _ _ _ I8'). replace (0 <=? f) with true by lia. reflexivity. }
    split.
    - unfold guess_decr. rewrite M. cbn [try_all rbind].
      destruct (first_pkg2_meta buf) as [m| | |]; try contradiction; [|reflexivity]. cbn [try_all]. rewrite M2. reflexivity.
    - intro k. unfold verify_decr. rewrite M. cbn [rbind]. eauto.
  Qed.

  Lemma unlike_open iv existing : unlike_entry buf (hd_data_start h) -> open_file st buf iv existing = Ok (false, pkg2_default).
  Proof.
    intro Un. destruct (unlike_none Un) as [G V]. unfold open_file, open_decr.
    destruct (match existing with Some d => Some d | None => option_map DEcb iv end) as [d|].
    - destruct (V d) as [e ->]. rewrite G. reflexivity.
    - rewrite G. reflexivity.
  Qed.
End nothing.

(** The cache, for 64-bit packages. *)
Lemma cached_wide h cache x : is_pkg2_64 h = true ->
  In x (cached h cache) <-> In x cache /\ x = (P1202, Z.lxor (Z.lxor (hd_hash1 h) (hd_hash2 h)) VERIFY_KEY_V6).
Proof.
  intro W. unfold cached. rewrite filter_In, W. destruct x as [p t]. cbn [fst snd]. unfold prof_verify, verify_v6.
  destruct p; cbn [prof_64 Bool.eqb andb]; split; intros [A B]; (split; [exact A|]); try discriminate B.
  - f_equal. lia.
  - injection B as ->. apply Z.eqb_refl.
Qed.

Lemma candidates_wide h : is_pkg2_64 h = true ->
  candidates h = [(P1202, Z.lxor (Z.lxor (hd_hash1 h) (hd_hash2 h)) VERIFY_KEY_V6)].
Proof. intro W. unfold candidates. rewrite W. reflexivity. Qed.

(** Only the bytes of the keys matter. *)
Section ext.
  Variable buf : list Z.
  Variable ks pks pks' : nat -> Z.
  Hypothesis E : forall j, pks j = pks' j.
  Variable wide p2 : bool.
  Variable fstart hash1 hash : Z.
  Variable v : offv.
  Variable strict : bool.

  Lemma body_pkg2_ext us : body_pkg2 pks us = body_pkg2 pks' us.
  Proof. unfold body_pkg2. apply flat_map_ext. intro i. rewrite !E. reflexivity. Qed.

  Lemma heads_ext first p q kids : laid_heads buf ks pks wide p2 first p q kids -> laid_heads buf ks pks' wide p2 first p q kids.
  Proof.
    induction 1 as [|first p a b c q checksum name t kids A N S0 I1 I2 _ IH]; [constructor|].
    eapply heads_cons; eauto. destruct N as [F U B|F U W L B|F U W L B].
    - apply name_plain; assumption.
    - apply name_keyed; try assumption. unfold enc_pkg2_name in *. rewrite <- body_pkg2_ext. exact B.
    - apply name_keyed_wide; try assumption. rewrite <- body_pkg2_ext. exact B.
  Qed.

  Lemma laid_dir2_ext off kids : laid_dir2 buf ks pks wide p2 fstart hash1 hash v strict off kids ->
    laid_dir2 buf ks pks' wide p2 fstart hash1 hash v strict off kids.
  Proof.
    revert off kids. apply (laid_dir2_mut buf ks pks wide p2 fstart hash1 hash v strict
      (laid_dir2 buf ks pks' wide p2 fstart hash1 hash v strict) (laid_offs buf ks pks' wide p2 fstart hash1 hash v strict)).
    - intros. eapply dir_narrow; eauto using heads_ext.
    - intros. eapply dir_wide; eauto using heads_ext.
    - intros. apply offs_nil.
    - intros. eapply offs_image; eauto.
    - intros. eapply offs_dir; eauto.
    - intros. eapply offs_empty_dir; eauto.
  Qed.
End ext.

(** ** Packages with 32-bit counts *)
Section narrow.
  Variable st : list Z -> nat -> Z.
  Variable buf : list Z.
  Variable h : header.
  Variable fuel : nat.
  Variable off size : Z.
  Variable es : list dirent.
  Let d0 := mkDir off size false EntryCreated es.

  Definition used (verified : bool) (k : decr) (p : prof) (hash : Z) : decr := if verified then k else profile_key h p hash.

  Lemma decode_err r p2 v hash d e d' : di_status d = EntryCreated -> try_decode r h p2 v hash fuel false d = (Err e, d') -> d' = d.
  Proof.
    intro St. unfold try_decode.
    destruct ((hash =? 0) || negb (verify_all r h v hash (di_entries d))). { intro H. injection H as _ <-. reflexivity. }
    destruct (resolve_children r h p2 v hash fuel d) as [[l| | |] d1] eqn:E; try discriminate.
    - rewrite (first_image_valid r l); [discriminate|]. eapply resolve_sane, E.
    - intro H. injection H as <- <-. destruct fuel as [|k]; [discriminate|]. cbn [resolve_children] in E.
      destruct (di_size d =? 0); [discriminate|]. unfold prepare in E. rewrite St in E.
      destruct (verify_all _ _ _ _ _); [|injection E as _ <-; reflexivity].
      destruct (rbind _ _); try discriminate; injection E as _ <-; reflexivity.
  Qed.

  Lemma profile_err verified p hash k e k' d' : try_profile st buf h fuel verified p hash (k, d0) = (Err e, (k', d')) ->
    d' = d0 /\ (verified = true -> k' = k).
  Proof.
    unfold try_profile. destruct verified.
    - destruct (try_decode _ _ _ _ _ _ _ _) as [x d1] eqn:T. intro H. injection H as -> <- <-.
      split; [|reflexivity]. eapply decode_err; [|exact T]. reflexivity.
    - unfold prepare. cbn [d0 di_status]. destruct (verify_string _ _).
      + destruct (try_decode _ _ _ _ _ _ _ _) as [x d1] eqn:T. intro H. injection H as -> <- <-.
        split; [|discriminate]. eapply decode_err; [|exact T]. reflexivity.
      + intro H. injection H as <- <- <-. split; [reflexivity|discriminate].
  Qed.

  Lemma profile_ok verified p hash k l : hash <> 0 -> size <> 0 ->
    fst (resolve_children (reader_of st buf (used verified k p hash)) h (is_pkg2 (used verified k p hash)) (prof_offset p) hash fuel d0) = Ok l ->
    fst (try_profile st buf h fuel verified p hash (k, d0)) = Ok l.
  Proof.
    intros Hh Sz E. set (kk := used verified k p hash) in *.
    destruct (resolve_children (reader_of st buf kk) h (is_pkg2 kk) (prof_offset p) hash fuel d0) as [x d'] eqn:R. cbn [fst] in E. subst x.
    destruct (resolve_prepared _ _ _ _ _ _ d0 l d' d0 Sz eq_refl R) as (_ & V & nodes & N).
    unfold try_profile. destruct verified.
    - change k with kk. rewrite (try_decode_eq _ _ _ _ _ _ _ Hh V), R. reflexivity.
    - change (profile_key h p hash) with kk. unfold prepare. cbn [d0 di_status]. fold d0.
      rewrite (nodes_verify _ _ _ _ d0 nodes eq_refl N), (try_decode_eq _ _ _ _ _ _ _ Hh V), R. reflexivity.
  Qed.

  (** What a successful attempt has found. *)
  Lemma profile_found verified p hash k l k' d' : try_profile st buf h fuel verified p hash (k, d0) = (Ok l, (k', d')) ->
    k' = used verified k p hash /\
    fst (resolve_children (reader_of st buf k') h (is_pkg2 k') (prof_offset p) hash fuel d0) = Ok l.
  Proof.
    unfold try_profile, used. destruct verified.
    - destruct (try_decode _ _ _ _ _ _ _ _) as [x d1] eqn:T. intro H. injection H as -> <- <-.
      apply try_decode_ok in T as [_ T]. rewrite T. auto.
    - unfold prepare. cbn [d0 di_status]. destruct (verify_string _ _); [|discriminate].
      destruct (try_decode _ _ _ _ _ _ _ _) as [x d1] eqn:T. intro H. injection H as -> <- <-.
      apply try_decode_ok in T as [_ T]. fold d0 in T. rewrite T. auto.
  Qed.

  (** A list of attempts. *)
  Lemma pairs_result verified ps : forall k, Forall (fun x => prof_64 (fst x) = false) ps ->
    match try_pairs st buf h fuel verified ps (k, d0) with
    | Ok (Some (p, hash, l, k'), _) => In (p, hash) ps /\ (verified = true -> k' = k) /\ k' = used verified k' p hash /\
        fst (resolve_children (reader_of st buf k') h (is_pkg2 k') (prof_offset p) hash fuel d0) = Ok l
    | Ok (None, (k', d')) => d' = d0 /\ (verified = true -> k' = k) /\
        forall p hash, In (p, hash) ps -> exists k1 e, (verified = true -> k1 = k) /\ fst (try_profile st buf h fuel verified p hash (k1, d0)) = Err e
    | Err _ => False
    | Panic | OutOfFuel => True
    end.
  Proof.
    induction ps as [|[p hash] t IH]; intros k F; cbn [try_pairs].
    - split; [reflexivity|]. split; [auto|]. intros ? ? [].
    - inversion F as [|? ? P64 F']; subst. cbn [fst] in P64. rewrite P64.
      destruct (try_profile st buf h fuel verified p hash (k, d0)) as [[l|e| |] [k1 d1]] eqn:T; try exact Logic.I.
      + destruct (profile_found _ _ _ _ _ _ _ T) as [K R]. split; [left; reflexivity|]. unfold used in *.
        destruct verified; subst; auto. split; [discriminate|]. split; auto.
      + destruct (profile_err _ _ _ _ _ _ _ T) as [-> K]. specialize (IH k1 F').
        destruct (try_pairs st buf h fuel verified t (k1, d0)) as [[[[[[p' h'] l] k']|] s]| | |]; try exact IH.
        * destruct IH as (I & V & X). split; [right; exact I|]. split; [|exact X]. intro Q. rewrite <- (K Q). auto.
        * destruct s as [k' d']. destruct IH as (D & V & X). split; [exact D|]. split; [intro Q; rewrite <- (K Q); auto|].
          intros p' h' [I|I].
          -- injection I as <- <-. exists k, e. split; [auto|]. rewrite T. reflexivity.
          -- destruct (X _ _ I) as (k2 & e2 & V2 & X2). exists k2, e2. split; [intro Q; rewrite <- (K Q); auto|exact X2].
  Qed.

  (** The attempts before the one that worked have failed. *)
  Lemma pairs_first verified ps : forall k p hash l k' s, Forall (fun x => prof_64 (fst x) = false) ps ->
    try_pairs st buf h fuel verified ps (k, d0) = Ok (Some (p, hash, l, k'), s) ->
    exists pre post, ps = pre ++ (p, hash) :: post /\
      forall p1 h1, In (p1, h1) pre -> exists k1 e, (verified = true -> k1 = k) /\ fst (try_profile st buf h fuel verified p1 h1 (k1, d0)) = Err e.
  Proof.
    induction ps as [|[p0 h0] t IH]; intros k p hash l k' s F; cbn [try_pairs]; [discriminate|].
    inversion F as [|? ? P64 F']; subst. cbn [fst] in P64. rewrite P64.
    destruct (try_profile st buf h fuel verified p0 h0 (k, d0)) as [[l0|e| |] [k1 d1]] eqn:T; try discriminate.
    - intro H. injection H as <- <- <- <- <-. exists [], t. split; [reflexivity|]. intros ? ? [].
    - destruct (profile_err _ _ _ _ _ _ _ T) as [-> K]. intro H. destruct (IH _ _ _ _ _ _ F' H) as (pre & post & -> & X).
      exists ((p0, h0) :: pre), post. split; [reflexivity|]. intros p1 h1 [I|I].
      + injection I as <- <-. exists k, e. split; [auto|]. rewrite T. reflexivity.
      + destruct (X _ _ I) as (k2 & e2 & V2 & X2). exists k2, e2. split; [intro Q; rewrite <- (K Q); auto|exact X2].
  Qed.
End narrow.

(** The entries do not depend on the keys. *)
Lemma entries_same st buf h k k' v hash v' hash' fuel off : is_pkg2_64 h = false -> is_pkg2 k = is_pkg2 k' ->
  read_entries (reader_of st buf k) h (is_pkg2 k) v hash fuel off = read_entries (reader_of st buf k') h (is_pkg2 k') v' hash' fuel off.
Proof.
  intros W E. unfold read_entries. rewrite W. destruct k as [x|x], k' as [y|y]; try discriminate E; destruct (hd_ident h); reflexivity.
Qed.
