(** C234-C237: which client generation a package is taken for, and requested versions of any size. *)
From Coq Require Import ZArith List Bool Lia ZifyBool ZifyNat.
From Coq Require String Ascii.
From Verif.Model Require Import Base Utf Keys Reader WzStr Header Offset VersionPkg1 VersionPkg2 Directory Image Media Guess File.
From Verif.Spec Require Import Wire Stream StrWire HeaderSpec Version Media PropWire DirWire DirView DirWire2 Aes KeyFind.
From Verif.Proofs Require Import OpenL BaseL WireL KeysL StringL ReaderL StrWireL HeaderL AtL DirL MediaL StrictL VersionL Pkg1L ImageL GuessL FileL EncL.
From Verif.Props Require Import P_Media P_Header P_Strict P_Version P_Directory P_Guess P_File.
Import ListNotations. Import String.StringSyntax.
Open Scope Z_scope.

(** C234: a package with 32-bit counts written by a client of generation [q], with no earlier result to go by, is taken for
    one of generation [q] or of a newer one, never for an older one. *)
Theorem C234_newest_first : forall buf h p iv existing patch0 patch q hash kids cache,
  bytes buf -> zlen buf < 2 ^ 31 -> read_header buf = Ok (h, p) -> hd_ident h = IV2 -> is_pkg2_64 h = false ->
  open_file (iv_key (aes256 user_key)) buf iv existing = Ok (false, pkg2_default) ->
  prof_64 q = false -> 0 < hash < 2 ^ 32 ->
  profile_eq q (hd_hash1 h) (hd_hash2 h) hash -> findable q (hd_hash1 h) hash ->
  (forall q' v, In (q', v) cache -> ~ profile_eq q' (hd_hash1 h) (hd_hash2 h) v) ->
  laid_dir2 buf (fun _ => 0) (number_key (narrow_number h hash)) false true (hd_fstart h) (hd_hash1 h) hash (client_offsets q) true (hd_data_start h) kids ->
  exists f0, forall f, (f0 <= f)%nat ->
    match parse_file (iv_key (aes256 user_key)) f buf iv existing patch0 patch cache with
    | Ok x => exists q', pf_version x = inr q' /\ (age q' <= age q)%nat
    | Err _ => False
    | Panic | OutOfFuel => True
    end.
Proof.
  intros buf h p iv existing patch0 patch q hash kids cache Hb Hs Hd Hi W O Q64 Hh Eq Fi Nc L. rewrite <- client_offsets_eq in L.
  assert (U : u32 (narrow_number h hash)).
  { unfold narrow_number. rewrite <- !mix_spec. apply mix_u32. apply (lxor_range 32); [lia| |lia]. apply mix_u32.
    apply (lxor_range 32); [lia| |lia]. apply (lxor_range 32); [lia|apply u32_mod|lia]. }
  assert (U' : 0 <= narrow_number h hash < 2 ^ 64) by (unfold u32 in U; pows; lia).
  assert (K : used h false pkg2_default q hash = DPkg2 (pkg2_keys (narrow_number h hash))).
  { unfold used, profile_key. rewrite Q64. unfold kmst1199_key, narrow_number. rewrite !mix_spec. rewrite (wrap_small 32 hash) by lia. reflexivity. }
  assert (E : forall i, nth (i mod 8) (pkg2_keys (narrow_number h hash)) 0 = number_key (narrow_number h hash) i) by (intro; apply number_key_eq, U').
  destruct (narrow_opens (iv_key (aes256 user_key)) buf h p iv existing patch0 patch false pkg2_default q hash kids cache Hs Hd Hb Hi W O
    (fun _ => eq_refl) Q64 ltac:(lia) ltac:(unfold u64; pows; lia) (source buf h p q hash cache Hb Hd Eq (or_intror Fi))) as (f0 & X).
  - rewrite K. intro j. cbn [reader_of rd_ks]. unfold byte. cbn. lia.
  - rewrite K. intro j. cbn [reader_of rd_pks]. rewrite E. unfold number_key, byte. apply Z.mod_pos_bound. lia.
  - rewrite K. cbn [reader_of rd_ks rd_pks is_pkg2]. eapply laid_dir2_ext; [|exact L]. intro j. symmetry. apply E.
  - exists f0. intros f Hfu. specialize (X f Hfu). destruct (parse_file _ f buf iv existing patch0 patch cache) as [x| | |]; try exact X.
    destruct X as (q' & V & _ & _ & _ & G). exists q'. split; [exact V|]. apply G.
    destruct (cached h cache) as [|[x1 y1] t] eqn:Ec; [reflexivity|exfalso].
    assert (I : In (x1, y1) (cached h cache)) by (rewrite Ec; now left). unfold cached in I. apply filter_In in I as [I J].
    apply andb_prop in J as [_ J]. cbn [fst snd] in J. apply C50_cached_hash_check in J. exact (Nc _ _ I J).
Qed.
Print Assumptions C234_newest_first.

(** The attempts of two generations that agree in everything have the same results. *)
Lemma same_attempt st buf h f verified p q hash k d : prof_64 p = prof_64 q -> prof_offset p = prof_offset q ->
  try_profile st buf h f verified p hash (k, d) = try_profile st buf h f verified q hash (k, d).
Proof. intros E1 E2. unfold try_profile, profile_key. rewrite E1, E2. reflexivity. Qed.

Lemma attempt_ok_free st buf h f verified p hash k k1 d l : (verified = true -> k1 = k) ->
  fst (try_profile st buf h f verified p hash (k, d)) = Ok l -> fst (try_profile st buf h f verified p hash (k1, d)) = Ok l.
Proof. intro V. destruct verified; [rewrite V by reflexivity|]; exact (fun H => H). Qed.

Lemma prepared_shape r h p2 v hash f off size d : prepare r h p2 v hash f (dir_new off size) = (Ok tt, d) -> exists es, d = mkDir off size false EntryCreated es.
Proof.
  unfold prepare. cbn [dir_new di_status di_off di_size di_parsed]. destruct (read_entries _ _ _ _ _ _ _); try discriminate.
  intro H. injection H as <-. eauto.
Qed.

Lemma winner_first st buf h f verified ps off size es : forall k p hash l k' s,
  let d0 := mkDir off size false EntryCreated es in Forall (fun x => prof_64 (fst x) = false) ps ->
  try_pairs st buf h f verified ps (k, d0) = Ok (Some (p, hash, l, k'), s) ->
  exists pre post k1, ps = pre ++ (p, hash) :: post /\ (verified = true -> k1 = k) /\ fst (try_profile st buf h f verified p hash (k1, d0)) = Ok l /\
    forall p1 h1, In (p1, h1) pre -> exists k1 e, (verified = true -> k1 = k) /\ fst (try_profile st buf h f verified p1 h1 (k1, d0)) = Err e.
Proof.
  induction ps as [|[p0 h0] t IH]; intros k p hash l k' s d0 F; cbn [try_pairs]; [discriminate|].
  inversion F as [|? ? P64 F']; subst. cbn [fst] in P64. rewrite P64.
  destruct (try_profile st buf h f verified p0 h0 (k, d0)) as [[l0|e| |] [k1 d1]] eqn:T; try discriminate.
  - intro H. injection H as <- <- <- <- <-. exists [], t, k. split; [reflexivity|]. split; [auto|]. rewrite T. split; [reflexivity|]. intros ? ? [].
  - destruct (profile_err _ _ _ _ _ _ _ _ _ _ _ _ _ _ T) as [-> K]. intro H. destruct (IH _ _ _ _ _ _ F' H) as (pre & post & k2 & -> & V & R & X).
    exists ((p0, h0) :: pre), post, k2. split; [reflexivity|]. split; [intro Q; rewrite <- (K Q); auto|]. split; [exact R|]. intros p1 h1 [I|I].
    + injection I as <- <-. exists k, e. split; [auto|]. rewrite T. reflexivity.
    + destruct (X _ _ I) as (k3 & e2 & V2 & X2). exists k3, e2. split; [intro Q; rewrite <- (K Q); auto|exact X2].
Qed.

Lemma hashes_1199 h1 h2 : prof_hashes P1199 h1 h2 = prof_hashes P1201 h1 h2.
Proof. unfold prof_hashes. reflexivity. Qed.

(** C235: no package is ever taken for one of generation 1199, unless the caller's earlier results say so: those of 1201
    agree with them in everything and come first. *)
Theorem C235_never_1199 : forall st f buf iv existing patch0 patch cache x,
  (forall v, ~ In (P1199, v) cache) -> parse_file st f buf iv existing patch0 patch cache = Ok x ->
  pf_version x <> inr P1199 /\ forall v, ~ In (P1199, v) (pf_cache x).
Proof.
  intros st f buf iv existing patch0 patch cache x Nc. unfold parse_file.
  destruct (open_file st buf iv existing) as [[verified k]| | |]; try discriminate. cbn [rbind].
  destruct (header_of buf) as [h| | |]; try discriminate. cbn [rbind].
  destruct (hd_ident h); try discriminate.
  { destruct (parse_pkg1 _ _ _ _ _ _) as [[[v hash] l]| | |]; try discriminate. intro H. injection H as <-. split; [discriminate|exact Nc]. }
  unfold parse_pkg2.
  assert (Nc' : forall v, ~ In (P1199, v) (cached h cache)).
  { intros v I. unfold cached in I. apply filter_In in I as [I _]. exact (Nc _ I). }
  assert (InAny : forall vf ps s p hash l k' s', try_pairs st buf h f vf ps s = Ok (Some (p, hash, l, k'), s') -> In (p, hash) ps).
  { clear. intros vf ps. induction ps as [|[p0 h0] t IH]; intros [k d] p hash l k' s'; cbn [try_pairs]; [discriminate|].
    destruct (try_profile _ _ _ _ _ _ _ _) as [[l0|e| |] [k1 d1]]; try discriminate.
    - intro H. injection H as <- <- <- <- <-. now left.
    - intro H. right. eapply IH, H. }
  destruct (is_pkg2_64 h) eqn:W.
  - destruct (try_pairs st buf h f verified (cached h cache) _) as [[[[[[q' h'] l] k']|] s]| | |] eqn:T1; try discriminate; cbn [rbind].
    + intro H. injection H as <-. cbn [pf_version pf_cache]. split; [|exact Nc]. intro H. injection H as ->. exact (Nc' _ (InAny _ _ _ _ _ _ _ _ T1)).
    + destruct (try_pairs st buf h f verified (candidates h) s) as [[[[[[q' h'] l] k']|] s']| | |] eqn:T2; try discriminate; cbn [rbind].
      intro H. injection H as <-. cbn [pf_version pf_cache fst]. pose proof (InAny _ _ _ _ _ _ _ _ T2) as I.
      assert (q' <> P1199).
      { intros ->. unfold candidates in I. apply in_flat_map in I as (z & Iz & I). apply filter_In in Iz as [_ Iz].
        apply in_map_iff in I as (w & E & _). injection E as -> _. rewrite W in Iz. discriminate Iz. }
      split; [congruence|]. intros v J. apply in_app_or in J as [J|[J|[]]]; [exact (Nc _ J)|congruence].
  - destruct (prepare (reader_of st buf k) h (is_pkg2 k) OPkg1 0 f (dir_new (hd_data_start h) (zlen buf))) as [[[]| | |] d] eqn:Pr; try discriminate.
    destruct (prepared_shape _ _ _ _ _ _ _ _ _ Pr) as (es & ->). clear Pr.
    assert (Fc : Forall (fun x => prof_64 (fst x) = false) (cached h cache)).
    { apply Forall_forall. intros [a b] I. unfold cached in I. apply filter_In in I as [_ I]. rewrite W in I. cbn [fst snd] in *. destruct (prof_64 a); [discriminate|reflexivity]. }
    assert (Fd : Forall (fun x => prof_64 (fst x) = false) (candidates h)).
    { apply Forall_forall. intros [a b] I. unfold candidates in I. apply in_flat_map in I as (z & Iz & I). apply filter_In in Iz as [_ Iz].
      apply in_map_iff in I as (w & E & _). injection E as -> _. rewrite W in Iz. cbn [fst]. destruct (prof_64 a); [discriminate|reflexivity]. }
    pose proof (pairs_result st buf h f (hd_data_start h) (zlen buf) es verified (cached h cache) k Fc) as X.
    destruct (try_pairs st buf h f verified (cached h cache) _) as [[[[[[q' h'] l] k']|] s]| | |] eqn:T1; try discriminate; cbn [rbind].
    + intro H. injection H as <-. cbn [pf_version pf_cache]. split; [|exact Nc]. intro H. injection H as ->. exact (Nc' _ (InAny _ _ _ _ _ _ _ _ T1)).
    + destruct s as [k1 d1]. destruct X as (-> & V & _).
      destruct (try_pairs st buf h f verified (candidates h) _) as [[[[[[q' h'] l] k']|] s']| | |] eqn:T2; try discriminate; cbn [rbind].
      intro H. injection H as <-. cbn [pf_version pf_cache fst].
      assert (q' <> P1199).
      { intros ->. destruct (winner_first _ _ _ _ _ _ _ _ _ _ _ _ _ _ _ Fd T2) as (pre & post & k2 & Ep & V2 & R & X).
        pose proof (InAny _ _ _ _ _ _ _ _ T2) as I.
        assert (J : In (P1201, h') (candidates h)).
        { unfold candidates in *. apply in_flat_map in I as (z & Iz & I). apply in_map_iff in I as (w & E & I). injection E as -> ->.
          apply in_flat_map. exists P1201. split; [apply filter_In; split; [cbn; tauto|rewrite W; reflexivity]|].
          apply in_map_iff. exists h'. split; [reflexivity|]. rewrite <- hashes_1199. exact I. }
        destruct (X P1201 h' (candidates_order _ _ _ _ _ _ _ Ep J ltac:(cbn; lia))) as (k3 & e & V3 & T3).
        rewrite (same_attempt st buf h f verified P1201 P1199) in T3 by reflexivity.
        rewrite (attempt_ok_free _ _ _ _ _ _ _ k2 k3 _ l) in T3; [discriminate T3| |exact R].
        intro Q. rewrite (V3 Q), (V2 Q). reflexivity. }
      split; [congruence|]. intros v J. apply in_app_or in J as [J|[J|[]]]; [exact (Nc _ J)|congruence].
Qed.
Print Assumptions C235_never_1199.

(** A package like that of C156, but of generation 1199. *)
Definition hash2_1199 (h1 v : Z) : Z := 2 ^ 32 - 1 - lhs_v45 h1 v.
Definition package_1199 (pks : nat -> Z) (name : list Z) : list Z :=
  let n := zlen (enc_pkg2_name pks name) in
  PKG2 ++ enc_le 8 (n + 9) ++ enc_le 4 16 ++ enc_le 4 0xDEADBEEF ++ enc_le 4 (hash2_1199 0xDEADBEEF 12345) ++
  [9; 4] ++ enc_pkg2_name pks name ++ [1; 0; 9] ++ stored OPkg2V3 16 0xDEADBEEF 12345 (29 + n) (33 + n) ++ [115].
Definition head_1199 (n : Z) := mkHeader IV2 (n + 9) 16 24 None 0xDEADBEEF (hash2_1199 0xDEADBEEF 12345) FNone.
Definition free_1199 := Eval vm_compute in package_1199 (number_key (narrow_number (head_1199 0) 12345)) (codes "Mob00000.img").

Lemma laid_1199 : laid_dir2 free_1199 (fun _ => 0) (number_key (narrow_number (head_1199 25) 12345)) false true 16 0xDEADBEEF 12345 OPkg2V3 true 24
    [(codes "Mob00000.img", TImage 58 1)].
Proof.
  apply (dir_narrow _ _ _ _ _ _ _ _ _ _ 24 25 53 54 58 9);
    [reflexivity|discriminate|lia|split; [lia|at_tac]| |split; [lia|at_tac]|].
  - apply (heads_cons _ _ _ _ _ true 25 51 52 53 53 0); [at_tac| |cbn; lia|split; [cbn; lia|at_tac]|split; [lia|at_tac]|constructor].
    apply name_keyed; [reflexivity|apply lit_unicode; reflexivity|reflexivity|vm_compute; split; discriminate|at_tac].
  - apply (offs_image _ _ _ _ _ _ _ _ _ _ 54 58 (codes "Mob00000.img") 58 1 (stored_num OPkg2V3 16 0xDEADBEEF 12345 54 58) 0x73);
      [vm_compute; discriminate|vm_compute; split; congruence|at_tac|apply pkg2_holds; pk_side|auto|at_tac|constructor].
Qed.

(** C237: full statement: a package is taken for one of the generation that wrote it.  False: this one of generation 1199 is
    opened, but never as one of 1199. *)
Theorem C237_own_generation_refuted : exists buf h p q hash kids,
  bytes buf /\ zlen buf < 2 ^ 31 /\ read_header buf = Ok (h, p) /\ hd_ident h = IV2 /\ is_pkg2_64 h = false /\
  open_file (iv_key (aes256 user_key)) buf None None = Ok (false, pkg2_default) /\
  0 < hash < 2 ^ 32 /\ profile_eq q (hd_hash1 h) (hd_hash2 h) hash /\ findable q (hd_hash1 h) hash /\
  laid_dir2 buf (fun _ => 0) (number_key (narrow_number h hash)) false true (hd_fstart h) (hd_hash1 h) hash (client_offsets q) true (hd_data_start h) kids /\
  exists f0, forall f, (f0 <= f)%nat ->
    match parse_file (iv_key (aes256 user_key)) f buf None None (-1) None [] with
    | Ok x => pf_version x <> inr q
    | Err _ => False
    | Panic | OutOfFuel => True
    end.
Proof.
  exists free_1199, (head_1199 25), 16, P1199, 12345, [(codes "Mob00000.img", TImage 58 1)].
  assert (B : bytes free_1199) by byte_list.
  assert (R : read_header free_1199 = Ok (head_1199 25, 16)) by (vm_compute; reflexivity).
  assert (O : open_file (iv_key (aes256 user_key)) free_1199 None None = Ok (false, pkg2_default)) by (vm_compute; reflexivity).
  assert (E : profile_eq P1199 0xDEADBEEF (hd_hash2 (head_1199 25)) 12345) by (apply C50_cached_hash_check; vm_compute; reflexivity).
  assert (F : findable P1199 0xDEADBEEF 12345) by (cbn; lia).
  assert (S1 : zlen free_1199 < 2 ^ 31) by reflexivity.
  split; [exact B|]. split; [exact S1|]. split; [exact R|]. split; [reflexivity|]. split; [reflexivity|]. split; [exact O|].
  split; [lia|]. split; [exact E|]. split; [exact F|]. split; [exact laid_1199|].
  destruct (C234_newest_first free_1199 (head_1199 25) 16 None None (-1) None P1199 12345 _ [] B S1 R eq_refl eq_refl O eq_refl ltac:(lia) E F
    (fun _ _ I => False_ind _ I) laid_1199) as (f0 & X).
  exists f0. intros f Hf. specialize (X f Hf).
  pose proof (C235_never_1199 (iv_key (aes256 user_key)) f free_1199 None None (-1) None []) as N.
  destruct (parse_file (iv_key (aes256 user_key)) f free_1199 None None (-1) None []) as [x| | |]; try exact X.
  exact (proj1 (N x (fun _ I => I) eq_refl)).
Qed.
Print Assumptions C237_own_generation_refuted.

(** C234: the package of C156 is of the oldest generation; the hypotheses of C234 hold of it and of the one of 1199. *)
Example C234_example :
  findable P1196 0xDEADBEEF 12345 /\ findable P1199 0xDEADBEEF 12345 /\
  profile_eq P1199 0xDEADBEEF (hd_hash2 (head_1199 25)) 12345 /\ profile_eq P1201 0xDEADBEEF (hd_hash2 (head_1199 25)) 12345 /\
  (age P1201 < age P1199 < age P1196)%nat.
Proof.
  split; [cbn; lia|]. split; [cbn; lia|]. split; [apply C50_cached_hash_check; vm_compute; reflexivity|].
  split; [apply C50_cached_hash_check; vm_compute; reflexivity|]. cbn. lia.
Qed.

(** C235: the same package with the hash of 1199 or of 1201 among the earlier results. *)
Example C235_example :
  let run cache := match parse_file (iv_key (aes256 user_key)) 3 free_1199 None None (-1) None cache with
                   | Ok x => Some (pf_version x, pf_hash x, pf_kids x) | _ => None end in
  run [(P1199, 12345)] = Some (inr P1199, 12345, [(codes "Mob00000.img", NImage 58 1)]) /\
  run [(P1201, 12345)] = Some (inr P1201, 12345, [(codes "Mob00000.img", NImage 58 1)]).
Proof. vm_compute. split; reflexivity. Qed.

(** C236: a requested version may be any 32-bit number other than -1: its decimal notation, with the sign if there is one, is
    hashed modulo 2^32. *)
Theorem C236_any_version : forall e v ds, 0 <= e < 65536 -> - 2 ^ 31 <= v < 2 ^ 31 -> v <> -1 -> decimal (Z.abs v) ds ->
  let hash := digit_hash (if v <? 0 then 46 else 0) ds mod 2 ^ 32 in
  ((folded hash = e \/ v = e) /\ hash <> 0 -> pkg1_candidates (Some e) (Some v) = [(v, hash)]) /\
  (~ (folded hash = e \/ v = e) \/ hash = 0 -> pkg1_candidates (Some e) (Some v) = []).
Proof.
  intros e v ds He Hv Nv D hash.
  assert (E : version_hash v = hash).
  { unfold hash. destruct (Z.ltb_spec v 0) as [Lt|Ge].
    - unfold version_hash, to_string. replace (v <? 0) with true by lia. cbn [fold_left].
      pose proof D as (Hne & Hd & Eh & Hh). rewrite Z.abs_neq in Eh by lia. rewrite <- Eh, digits_go_decimal; auto.
      + rewrite app_nil_r. apply hash_fold. reflexivity.
      + eapply decimal_length; [exact D| |lia]. change (10 ^ Z.of_nat 10) with 10000000000. change (2 ^ 31) with 2147483648 in Hv. lia.
    - rewrite Z.abs_eq in D by lia. apply version_hash_decimal; [exact D|lia]. }
  unfold pkg1_candidates. replace (v =? -1) with false by lia. unfold usable. cbn [filter snd].
  assert (C : check_version e v = if (e =? v) || (folded hash =? e) then hash else 0).
  { unfold check_version. rewrite E, check_enc, (wrap_small 32 e) by lia. destruct (e =? v); reflexivity. }
  rewrite C. split.
  - intros [F N]. replace ((e =? v) || (folded hash =? e)) with true by lia. replace (hash =? 0) with false by lia. reflexivity.
  - intros [F|N]; [replace ((e =? v) || (folded hash =? e)) with false by lia; reflexivity|].
    rewrite N. destruct ((e =? v) || (folded 0 =? e)); reflexivity.
Qed.
Print Assumptions C236_any_version.

(** C236: -83 is not 83. *)
Example C236_example :
  pkg1_candidates (Some 172) (Some 83) = [(83, 1876)] /\ digit_hash 46 [8; 3] mod 2 ^ 32 = 48980 /\ folded 48980 = 20 /\
  pkg1_candidates (Some 20) (Some (-83)) = [(-83, 48980)] /\ pkg1_candidates (Some 172) (Some (-83)) = [].
Proof. vm_compute. repeat split. Qed.
