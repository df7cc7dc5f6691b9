(** C22-C24, C67-C76: directories. *)
From Coq Require Import ZArith List Bool Lia ZifyBool ZifyNat Sorted.
From Coq Require String.
From Verif.Model Require Import Base Utf Keys Reader WzStr Header Offset VersionPkg1 Image Directory.
From Verif.Spec Require Import Wire Stream StrWire Version PropWire DirWire DirView DirWire2.
From Verif.Proofs Require Import BaseL WireL ReaderL StringL StrWireL EncL BlowL VersionL Pkg1L AtL ImageL ParseL ScanL DirL Dir2L OpenL.
From Verif.Props Require Import P_Offset P_Version.
Import String.StringSyntax.
Ltac Zify.zify_post_hook ::= idtac.

(** ** Classic packages *)

(** C22: a directory tree laid out in the classic format, with offsets stored
    for the hash in use, is read back: same names, same kinds, same sizes, real
    offsets, at every depth. *)
Theorem C22_directory_roundtrip :
  forall r h p2 hash off size kids,
    zlen (rd_buf r) < 2 ^ 31 -> (forall j, byte (rd_ks r j)) ->
    hd_ident h = IV1 -> is_pkg2_64 h = false -> u32 (hd_fstart h) -> u32 hash -> size <> 0 ->
    laid_dir (rd_buf r) (rd_ks r) (hd_fstart h) hash off kids ->
    exists f0 kids' d', shows_trees kids' kids /\
      forall f, (f0 <= f)%nat -> resolve_children r h p2 OPkg1 hash f (dir_new off size) = (Ok kids', d').
Proof.
  intros r h p2 hash off size kids Hs Hk Hv Hfl Hf Hh Hsz L.
  destruct (laid_dirs_ok r h p2 hash Hs Hk Hv Hfl Hf Hh) as [P _].
  destruct (P off kids L) as (f0 & kids' & Sh & _ & E). eauto 6.
Qed.
Print Assumptions C22_directory_roundtrip.

(** C22: opening with the right version number. *)
Theorem C22_open_with_version :
  forall r h p2 e v ds block_size kids,
    zlen (rd_buf r) < 2 ^ 31 -> (forall j, byte (rd_ks r j)) ->
    hd_ident h = IV1 -> is_pkg2_64 h = false -> u32 (hd_fstart h) -> block_size <> 0 ->
    hd_encver h = Some e -> 0 <= v < 1000000 -> decimal v ds -> folded (digit_hash 0 ds) = e ->
    laid_dir (rd_buf r) (rd_ks r) (hd_fstart h) (digit_hash 0 ds) (hd_data_start h) kids ->
    exists f0 kids', shows_trees kids' kids /\
      forall f, (f0 <= f)%nat -> parse_pkg1 f r h p2 block_size v = Ok (v, digit_hash 0 ds, kids').
Proof.
  intros r h p2 e v ds bs kids Hs Hk Hv Hfl Hf Hsz He Hvr D F L.
  pose proof (version_hash_exact v ds D ltac:(lia)) as E. pose proof (digit_hash_range v ds D ltac:(lia)) as [P Pm].
  assert (Hh : u32 (digit_hash 0 ds)) by (unfold u32; pows; lia).
  assert (He0 : 0 <= e < 256).
  { rewrite <- F. unfold folded. assert (M : forall x, 0 <= x mod 256 < 2 ^ 8) by (intro; apply Z.mod_pos_bound; lia).
    apply (lxor_range 8); [lia|lia|]. apply lxor_range; [lia| |]; apply lxor_range; auto; lia. }
  destruct (check_version_spec e v _ E P ltac:(change (2 ^ 32) with 4294967296; lia)) as [S1 S2].
  assert (C : check_version e v = digit_hash 0 ds) by (apply S2, S1; left; exact F).
  destruct (C22_directory_roundtrip r h p2 _ _ bs kids Hs Hk Hv Hfl Hf Hh Hsz L) as (f0 & kids' & d' & Sh & X).
  exists f0, kids'. split; [exact Sh|]. intros f Hfu. unfold parse_pkg1.
  rewrite He. replace (v =? -1) with false by lia. cbv zeta. rewrite C. cbn [andb].
  rewrite try_decode_eq by (lia || reflexivity). rewrite X by exact Hfu. reflexivity.
Qed.
Print Assumptions C22_open_with_version.

(** C67: opening without a version number never reports an error for a
    well-formed package (it may take a smaller candidate, see C68). *)
Theorem C67_detection_accepts :
  forall r h p2 v ds block_size kids,
    zlen (rd_buf r) < 2 ^ 31 -> (forall j, byte (rd_ks r j)) ->
    hd_ident h = IV1 -> is_pkg2_64 h = false -> u32 (hd_fstart h) -> block_size <> 0 ->
    1 <= v <= 2000 -> decimal v ds -> hd_encver h = Some (folded (digit_hash 0 ds)) ->
    laid_dir (rd_buf r) (rd_ks r) (hd_fstart h) (digit_hash 0 ds) (hd_data_start h) kids ->
    exists f0, forall f, (f0 <= f)%nat ->
      match parse_pkg1 f r h p2 block_size (-1) with
      | Ok (v', hash', kids') => v' <= v /\ (v' = v -> shows_trees kids' kids)
      | Err _ => False
      | Panic | OutOfFuel => True
      end.
Proof.
  intros r h p2 v ds bs kids Hs Hk Hv Hfl Hf Hsz Hvr D He L.
  pose proof (digit_hash_range v ds D ltac:(lia)) as [P Pm].
  assert (Hh : u32 (digit_hash 0 ds)) by (unfold u32; pows; lia).
  destruct (C22_directory_roundtrip r h p2 _ _ bs kids Hs Hk Hv Hfl Hf Hh Hsz L) as (f0 & kids' & d' & Sh & X).
  exists (S f0). intros f Hfu. specialize (X f ltac:(lia)).
  assert (ES : exists es, fst (resolve_pkg1 r h (hd_data_start h)) = Ok es).
  { destruct f as [|k]; [lia|]. cbn [resolve_children dir_new di_size] in X. replace (bs =? 0) with false in X by lia.
    unfold prepare in X. cbn [dir_new di_status di_off] in X. unfold read_entries in X. rewrite Hv in X.
    destruct (fst (resolve_pkg1 r h (hd_data_start h))) as [es| | |]; [eauto|cbn in X; discriminate X..]. }
  destruct ES as [es ES]. unfold parse_pkg1. rewrite He. change (-1 =? -1) with true. cbv iota zeta.
  set (e := folded (digit_hash 0 ds)) in *.
  pose proof (C09_guess_complete v ds Hvr D) as I. fold e in I. cbn [pkg1_candidates] in I.
  assert (I2 : In (v, digit_hash 0 ds) (version_scan e 1 2000)).
  { unfold usable in I. apply filter_In in I. apply I. }
  pose proof (detect r h p2 es (hd_data_start h) bs Hv ES (digit_hash 0 ds) v f kids' d' (version_scan e 1 2000) ltac:(lia) Hsz X I2
    (dir_new (hd_data_start h) bs) (or_introl eq_refl)) as R.
  destruct (try_versions r h p2 f false (version_scan e 1 2000) (dir_new (hd_data_start h) bs)) as [[[v' h'] l]| | |] eqn:T; try exact R.
  destruct R as (be & af & EQ & J).
  assert (SS : StronglySorted Z.lt (map fst (version_scan e 1 2000))).
  { rewrite version_scan_eq, map_map. cbn [fst]. rewrite map_id. apply zrange_sorted. }
  assert (VLE : v' <= v /\ (v' = v -> h' = digit_hash 0 ds)).
  { destruct J as [J|J]; [injection J as -> ->; split; [lia|reflexivity]|].
    rewrite EQ, map_app in SS. cbn [map fst] in SS.
    assert (SS2 : StronglySorted Z.lt (v' :: map fst af)).
    { clear - SS. induction (map fst be) as [|x t IH]; [exact SS|]. cbn [app] in SS. inversion SS; subst. auto. }
    inversion SS2 as [|? ? _ FA]; subst. rewrite Forall_forall in FA.
    assert (v' < v) by (apply FA; apply in_map_iff; exists (v, digit_hash 0 ds); auto). split; lia. }
  destruct VLE as [V1 V2]. split; [exact V1|]. intro Q. specialize (V2 Q). subst v' h'.
  (* the attempt that succeeded starts from a fresh directory *)
  assert (G : forall cands d l0, fresh es (hd_data_start h) bs d ->
     try_versions r h p2 f false cands d = Ok (v, digit_hash 0 ds, l0) -> l0 = kids').
  { clear T EQ J SS. induction cands as [|[w k] t IH]; intros d l0 F T; [discriminate|]. cbn [try_versions andb] in T.
    destruct (try_decode r h p2 OPkg1 k f false d) as [[l1|err| |] d1] eqn:TD; try discriminate.
    - injection T as -> -> ->. destruct (attempt_good r h p2 es _ bs Hv ES (digit_hash 0 ds) f d kids' d' ltac:(lia) F X Hsz) as [d2 G2].
      congruence.
    - eapply IH; [|exact T]. eapply attempt_err; eauto. }
  rewrite (G _ _ _ (or_introl eq_refl) T). exact Sh.
Qed.
Print Assumptions C67_detection_accepts.

(** C69: whatever the content of the file: if opening succeeds, the reported
    hash is that of the reported version, the version fits the header, and
    every image in the tree starts with an image header byte and ends (modulo
    2^64, see C75) inside the file. *)
Theorem C69_accepted_tree :
  forall f r h p2 block_size patch v hash kids,
    (patch = -1 \/ 0 <= patch < 1000000) ->
    (forall e, hd_encver h = Some e -> 0 <= e < 65536) ->
    parse_pkg1 f r h p2 block_size patch = Ok (v, hash, kids) ->
    (patch <> -1 -> v = patch) /\
    (exists ds, decimal v ds /\ hash = digit_hash 0 ds /\
       let e := match hd_encver h with Some x => x | None => 770 end in folded hash = e \/ v = e) /\
    Forall (fun x => sane (rd_buf r) (snd x)) kids.
Proof.
  intros f r h p2 bs patch v hash kids Hp Henc H. unfold parse_pkg1 in H.
  set (e := match hd_encver h with Some x => x | None => V64 end) in *.
  assert (He : 0 <= e < 65536).
  { unfold e, V64. destruct (hd_encver h) as [x|]; [apply Henc; reflexivity|lia]. }
  assert (K : forall w, 0 <= w < 1000000 -> check_version e w <> 0 -> exists ds, decimal w ds /\ check_version e w = digit_hash 0 ds /\
    (folded (digit_hash 0 ds) = e \/ w = e)).
  { intros w Hw Hn. destruct (decimal_exists w ltac:(lia)) as [ds D]. exists ds. split; [exact D|].
    pose proof (version_hash_exact w ds D ltac:(lia)) as E. pose proof (digit_hash_range w ds D ltac:(lia)) as [P _].
    destruct (check_version_spec e w _ E P ltac:(change (2 ^ 32) with 4294967296; lia)) as [S1 S2].
    split; [apply S2, Hn|apply S1, Hn]. }
  assert (KE : forall ds, folded (digit_hash 0 ds) = e \/ v = e ->
    let e0 := match hd_encver h with Some x => x | None => 770 end in folded (digit_hash 0 ds) = e0 \/ v = e0) by (intros ds X; exact X).
  destruct (patch =? -1) eqn:PE.
  - split; [intro; lia|].
    apply try_versions_ok in H as (I & Hn & d0 & d' & R). split; [|eapply resolve_sane, R].
    assert (B : 0 <= v < 1000000 /\ hash = check_version e v).
    { assert (U : In (v, hash) (usable (if match hd_encver h with Some _ => false | None => true end
         then version_scan e V64 (V64 + 10) else version_scan e 1 2000))).
      { unfold usable. apply filter_In. split; [exact I|]. cbn [snd]. lia. }
      destruct (match hd_encver h with Some _ => false | None => true end); apply usable_scan_In in U; unfold V64 in U;
        (split; [lia|apply U]). }
    destruct B as [B ->]. destruct (K v B Hn) as (ds & D & E & C). exists ds. split; [exact D|]. split; [exact E|]. rewrite E. apply KE, C.
  - destruct (try_decode _ _ _ _ _ _ _ _) as [[l| | |] d'] eqn:T; try discriminate. injection H as -> <- ->.
    split; [reflexivity|]. apply try_decode_ok in T as [Hn R]. split; [|eapply resolve_sane, R].
    destruct (K v ltac:(lia) Hn) as (ds & D & E & C). exists ds. split; [exact D|]. split; [exact E|]. rewrite E. apply KE, C.
Qed.
Print Assumptions C69_accepted_tree.

(** *** A concrete classic package *)
Definition rd0 (buf : list Z) := mkRd buf key0 key0.
(** The stored form of offset [off] at position [pos]. *)
Definition stored (v : offv) (fstart hash1 hash pos off : Z) : list Z :=
  let k := match v with OPkg1 => 2 * fstart | _ => fstart end in
  enc_le 4 (Z.lxor ((off_calc v fstart hash1 hash 0 pos - k) mod 2 ^ 32) ((off - k) mod 2 ^ 32)).
Definition h_v1 : header := mkHeader IV1 0 4 6 (Some 172) 0 0 FNone.
(** Version 83: an image "i" and a directory "d" that holds an image "j". *)
Definition ex_v1 : list Z :=
  [0; 0; 0; 0; 172; 0] ++ [2] ++
  [4] ++ enc_str key0 (codes "i") ++ [1; 0] ++ stored OPkg1 4 0 1876 12 25 ++
  [3] ++ enc_str key0 (codes "d") ++ [21; 0] ++ stored OPkg1 4 0 1876 21 26 ++
  [0x73] ++ [2] ++ [1; 0; 0; 0; 0; 0; 0; 0; 0; 0; 0] ++
  [4] ++ enc_str key0 (codes "j") ++ [1; 0] ++ stored OPkg1 4 0 1876 43 25.
Definition kids_v1 : list (list Z * dtree) :=
  [(codes "i", TImage 25 1); (codes "d", TDir 26 21 [(codes "j", TImage 25 1)])].

Lemma classic_holds fstart hash pos enc off : u32 fstart -> u32 hash -> u32 enc ->
  off_calc OPkg1 fstart 0 hash enc pos = off -> classic_offset fstart hash pos enc off.
Proof.
  intros Hf Hh He E. destruct (C08_classic_formula fstart 0 hash enc pos Hf Hh He) as (a & x & -> & R & E2).
  exists x. cbv zeta. split; [exact R|]. congruence.
Qed.

Ltac at_tac := match goal with |- at_ ?b ?p ?q ?l =>
  exists (firstn (Z.to_nat p) b), (skipn (Z.to_nat q) b); vm_compute; repeat split; reflexivity end.
Ltac lit := repeat (constructor; [lia|]); constructor.

Lemma ex_v1_laid : laid_dir ex_v1 key0 4 1876 6 kids_v1.
Proof.
  apply (dir_at _ _ _ _ 6 7 25 2); [lia|split; [lia|at_tac]|].
  apply (ents_image _ _ _ _ 7 10 16 25 1 (codes "i") 25 1 0x73).
  - apply head_inline; [apply lit_unicode; reflexivity|at_tac|at_tac].
  - exists 11, 12, 0, (Z.lxor ((off_calc OPkg1 4 0 1876 0 12 - 8) mod 2 ^ 32) ((25 - 8) mod 2 ^ 32)).
    split; [lia|]. split; [split; [lia|at_tac]|]. split; [split; [lia|at_tac]|]. split; [vm_compute; split; congruence|].
    split; [at_tac|]. split; [|vm_compute; discriminate]. apply classic_holds; [vm_compute; split; congruence..|vm_compute; reflexivity].
  - auto.
  - at_tac.
  - apply (ents_dir _ _ _ _ 16 19 25 25 0 (codes "d") 26 21).
    + apply head_inline; [apply lit_unicode; reflexivity|at_tac|at_tac].
    + exists 20, 21, 0, (Z.lxor ((off_calc OPkg1 4 0 1876 0 21 - 8) mod 2 ^ 32) ((26 - 8) mod 2 ^ 32)).
      split; [lia|]. split; [split; [lia|at_tac]|]. split; [split; [lia|at_tac]|]. split; [vm_compute; split; congruence|].
      split; [at_tac|]. split; [|vm_compute; discriminate]. apply classic_holds; [vm_compute; split; congruence..|vm_compute; reflexivity].
    + lia.
    + apply (dir_at _ _ _ _ 26 27 47 2); [lia|split; [lia|at_tac]|].
      apply (ents_skip _ _ _ _ 27 47 1); [at_tac|].
      apply (ents_image _ _ _ _ 38 41 47 47 0 (codes "j") 25 1 0x73).
      * apply head_inline; [apply lit_unicode; reflexivity|at_tac|at_tac].
      * exists 42, 43, 0, (Z.lxor ((off_calc OPkg1 4 0 1876 0 43 - 8) mod 2 ^ 32) ((25 - 8) mod 2 ^ 32)).
        split; [lia|]. split; [split; [lia|at_tac]|]. split; [split; [lia|at_tac]|]. split; [vm_compute; split; congruence|].
        split; [at_tac|]. split; [|vm_compute; discriminate]. apply classic_holds; [vm_compute; split; congruence..|vm_compute; reflexivity].
      * auto.
      * at_tac.
      * constructor.
    + constructor.
Qed.

Example C22_ex :
  laid_dir ex_v1 key0 4 1876 6 kids_v1 /\
  parse_pkg1 5 (rd0 ex_v1) h_v1 false 47 83 =
    Ok (83, 1876, [(codes "i", NImage 25 1);
                   (codes "d", NDir (mkDir 26 21 false Verified []) [(codes "j", NImage 25 1)])]).
Proof. split; [exact ex_v1_laid|vm_compute; reflexivity]. Qed.

Example C67_ex :
  parse_pkg1 5 (rd0 ex_v1) h_v1 false 47 (-1) = parse_pkg1 5 (rd0 ex_v1) h_v1 false 47 83.
Proof. vm_compute. reflexivity. Qed.

Example C69_ex : exists v hash kids, parse_pkg1 5 (rd0 ex_v1) h_v1 false 47 (-1) = Ok (v, hash, kids) /\ kids <> [] /\
  Forall (fun x => sane ex_v1 (snd x)) kids /\ folded hash = 172.
Proof.
  do 3 eexists. split; [rewrite C67_ex; exact (proj2 C22_ex)|]. split; [discriminate|]. split; [|reflexivity].
  eapply (C69_accepted_tree 5 (rd0 ex_v1) h_v1 false 47 83); [right; lia| |exact (proj2 C22_ex)].
  intros e E. injection E as <-. lia.
Qed.

(** C68: full statement: opening a well-formed package without giving the
    version reports the version it was made with.  False: the first candidate
    under which the entries happen to verify is taken, and an empty listing
    verifies under every candidate. *)
Theorem C68_detected_version_refuted :
  exists r h v ds v' hash', 1 <= v <= 2000 /\ decimal v ds /\ hd_ident h = IV1 /\
    hd_encver h = Some (folded (digit_hash 0 ds)) /\
    laid_dir (rd_buf r) (rd_ks r) (hd_fstart h) (digit_hash 0 ds) (hd_data_start h) [] /\
    v' <> v /\ hash' <> digit_hash 0 ds /\
    parse_pkg1 5 r h false (zlen (rd_buf r)) (-1) = Ok (v', hash', []).
Proof.
  exists (rd0 [0; 0; 0; 0; 172; 0; 0]), h_v1, 630, [6; 3; 0], 83, 1876.
  split; [lia|]. split; [repeat split; try discriminate; repeat constructor; lia|].
  split; [reflexivity|]. split; [reflexivity|]. split; [|split; [lia|split; [discriminate|vm_compute; reflexivity]]].
  apply (dir_at _ _ _ _ 6 7 7 0); [lia|split; [lia|at_tac]|constructor].
Qed.
Print Assumptions C68_detected_version_refuted.

(** ** Package-2 directories *)

(** C70: directory trees in the package-2 formats (32-bit and 64-bit), under
    each offset scheme and with or without the name key, are read back. *)
Theorem C70_pkg2_roundtrip :
  forall r h p2 hash v off size kids,
    zlen (rd_buf r) < 2 ^ 31 -> (forall j, byte (rd_ks r j)) -> (forall j, byte (rd_pks r j)) ->
    hd_ident h = IV2 -> u32 (hd_fstart h) -> u64 (hd_hash1 h) -> u64 hash -> size <> 0 ->
    laid_dir2 (rd_buf r) (rd_ks r) (rd_pks r) (is_pkg2_64 h) p2 (hd_fstart h) (hd_hash1 h) hash v true off kids ->
    exists f0 kids' d', shows_trees kids' kids /\
      forall f, (f0 <= f)%nat -> resolve_children r h p2 v hash f (dir_new off size) = (Ok kids', d').
Proof.
  intros r h p2 hash v off size kids Hs Hk Hpk Hv Hf H1 Hh Hsz L.
  destruct (laid_dirs2_ok r h p2 hash v Hs Hk Hpk Hv Hf H1 Hh) as [P _].
  destruct (P off kids L) as (f0 & kids' & Sh & E). eauto 6.
Qed.
Print Assumptions C70_pkg2_roundtrip.

Definition pks0 : nat -> Z := fun j => (Z.of_nat j * 7 + 5) mod 256.
Lemma pks0_byte j : byte (pks0 j). Proof. apply Z.mod_pos_bound. lia. Qed.
Definition rd2 (buf : list Z) := mkRd buf key0 pks0.

Lemma pkg2_holds v fstart hash1 hash pos enc off : v <> OPkg1 -> u32 fstart -> u32 enc ->
  off_calc v fstart hash1 hash enc pos = off -> pkg2_offset v fstart hash1 hash pos enc off.
Proof.
  intros V Hf He E. rewrite off_calc_low in E.
  destruct (C08_pkg2_formula v fstart (hash1 mod 2 ^ 32) (hash mod 2 ^ 32) enc pos V Hf (u32_mod _) (u32_mod _) He)
    as (m & k & d & x & Sc & R & E2).
  exists m, k, d, x. split; [destruct v; try exact Sc; congruence|]. split; [exact R|]. congruence.
Qed.

Definition stored_num (v : offv) (fstart hash1 hash pos off : Z) : Z :=
  let k := match v with OPkg1 => 2 * fstart | _ => fstart end in
  Z.lxor ((off_calc v fstart hash1 hash 0 pos - k) mod 2 ^ 32) ((off - k) mod 2 ^ 32).

(** 32-bit counts, third offset scheme, keyed first names. *)
Definition h_v2 : header := mkHeader IV2 0 2 0 None 0xDEADBEEF 0 FRandom32.
Definition st2 := stored OPkg2V3 2 0xDEADBEEF 12345.
Definition ex_v2 : list Z :=
  [7] ++ [4] ++ enc_pkg2_name pks0 (codes "i") ++ [1; 0] ++ [3] ++ enc_str key0 (codes "d") ++ [12; 0] ++ [7] ++
  st2 13 21 ++ st2 17 22 ++ [0x73] ++
  [7] ++ [4] ++ enc_pkg2_name pks0 (codes "j") ++ [1; 0] ++ [7] ++ st2 30 21.
(** 64-bit counts. *)
Definition h_v2w : header := mkHeader IV2 0 2 0 None 1 0 FRandom64.
Definition stw := stored OPkg264 2 1 2.
Definition wcount (n low : Z) : list Z := enc_wzint 8 (Z.lxor (Z.lxor (Z.lxor (n * 65536 + low) 1) 2) 0x550EC4DD02C468EC).
Definition wname (s : list Z) : list Z := enc_le 2 (- Z.of_nat (length (units16 s))) ++ body_pkg2 pks0 (units16 s).
Definition ex_v2w : list Z :=
  wcount 2 77 ++ [4] ++ wname (codes "i") ++ [1; 0] ++ [3] ++ enc_str key0 (codes "d") ++ [20; 0] ++
  stw 21 29 ++ stw 25 30 ++ [0x73] ++
  wcount 1 0 ++ [4] ++ wname (codes "j") ++ [1; 0] ++ stw 46 29.

Ltac pk_side := first [lia | discriminate | (vm_compute; split; congruence) | (vm_compute; reflexivity)].

Lemma ex_v2_laid : laid_dir2 ex_v2 key0 pks0 false true 2 0xDEADBEEF 12345 OPkg2V3 true 0
  [(codes "i", TImage 21 1); (codes "d", TDir 22 12 [(codes "j", TImage 21 1)])].
Proof.
  apply (dir_narrow _ _ _ _ _ _ _ _ _ _ 0 1 12 13 21 7);
    [reflexivity|discriminate|lia|split; [lia|at_tac]| |split; [lia|at_tac]|].
  - apply (heads_cons _ _ _ _ _ true 1 5 6 7 12 0); [at_tac| |cbn; lia|split; [cbn; lia|at_tac]|split; [lia|at_tac]|].
    + apply name_keyed; [reflexivity|apply lit_unicode; reflexivity|reflexivity|vm_compute; split; discriminate|at_tac].
    + apply (heads_cons _ _ _ _ _ false 7 10 11 12 12 0); [at_tac| |cbn; lia|split; [cbn; lia|at_tac]|split; [lia|at_tac]|constructor].
      apply name_plain; [reflexivity|apply lit_unicode; reflexivity|at_tac].
  - apply (offs_image _ _ _ _ _ _ _ _ _ _ 13 21 (codes "i") 21 1 (stored_num OPkg2V3 2 0xDEADBEEF 12345 13 21) 0x73);
      [vm_compute; discriminate|vm_compute; split; congruence|at_tac|apply pkg2_holds; pk_side|auto|at_tac|].
    apply (offs_dir _ _ _ _ _ _ _ _ _ _ 17 21 (codes "d") 22 12 (stored_num OPkg2V3 2 0xDEADBEEF 12345 17 22));
      [vm_compute; discriminate|vm_compute; split; congruence|at_tac|apply pkg2_holds; pk_side| |lia| |constructor].
    + intros _. exists 23, 7. split; [lia|]. split; [lia|at_tac].
    + apply (dir_narrow _ _ _ _ _ _ _ _ _ _ 22 23 29 30 34 7);
        [reflexivity|discriminate|lia|split; [lia|at_tac]| |split; [lia|at_tac]|].
      * apply (heads_cons _ _ _ _ _ true 23 27 28 29 29 0); [at_tac| |cbn; lia|split; [cbn; lia|at_tac]|split; [lia|at_tac]|constructor].
        apply name_keyed; [reflexivity|apply lit_unicode; reflexivity|reflexivity|vm_compute; split; discriminate|at_tac].
      * apply (offs_image _ _ _ _ _ _ _ _ _ _ 30 34 (codes "j") 21 1 (stored_num OPkg2V3 2 0xDEADBEEF 12345 30 21) 0x73);
          [vm_compute; discriminate|vm_compute; split; congruence|at_tac|apply pkg2_holds; pk_side|auto|at_tac|constructor].
Qed.

Example C70_ex_narrow :
  laid_dir2 ex_v2 key0 pks0 false true 2 0xDEADBEEF 12345 OPkg2V3 true 0
    [(codes "i", TImage 21 1); (codes "d", TDir 22 12 [(codes "j", TImage 21 1)])] /\
  fst (resolve_children (rd2 ex_v2) h_v2 true OPkg2V3 12345 5 (dir_new 0 34)) =
    Ok [(codes "i", NImage 21 1); (codes "d", NDir (mkDir 22 12 false Verified []) [(codes "j", NImage 21 1)])].
Proof. split; [exact ex_v2_laid|vm_compute; reflexivity]. Qed.

Lemma ex_v2w_laid : laid_dir2 ex_v2w key0 pks0 true true 2 1 2 OPkg264 true 0
  [(codes "i", TImage 29 1); (codes "d", TDir 30 20 [(codes "j", TImage 29 1)])].
Proof.
  apply (dir_wide _ _ _ _ _ _ _ _ _ _ 0 9 21 29 (Z.lxor (Z.lxor (Z.lxor (2 * 65536 + 77) 1) 2) 0x550EC4DD02C468EC) 77);
    [reflexivity|reflexivity|cbn; lia|lia|vm_compute; split; congruence|vm_compute; reflexivity|at_tac| |].
  - apply (heads_cons _ _ _ _ _ true 9 14 15 16 21 0); [at_tac| |cbn; lia|split; [cbn; lia|at_tac]|split; [lia|at_tac]|].
    + apply name_keyed_wide; [reflexivity|apply lit_unicode; reflexivity|reflexivity|vm_compute; split; discriminate|at_tac].
    + apply (heads_cons _ _ _ _ _ false 16 19 20 21 21 0); [at_tac| |cbn; lia|split; [cbn; lia|at_tac]|split; [lia|at_tac]|constructor].
      apply name_plain; [reflexivity|apply lit_unicode; reflexivity|at_tac].
  - apply (offs_image _ _ _ _ _ _ _ _ _ _ 21 29 (codes "i") 29 1 (stored_num OPkg264 2 1 2 21 29) 0x73);
      [vm_compute; discriminate|vm_compute; split; congruence|at_tac|apply pkg2_holds; pk_side|auto|at_tac|].
    apply (offs_dir _ _ _ _ _ _ _ _ _ _ 25 29 (codes "d") 30 20 (stored_num OPkg264 2 1 2 25 30));
      [vm_compute; discriminate|vm_compute; split; congruence|at_tac|apply pkg2_holds; pk_side| |lia| |constructor].
    + intros _. exists 39, (Z.lxor (Z.lxor (Z.lxor (1 * 65536 + 0) 1) 2) 0x550EC4DD02C468EC).
      split; [vm_compute; discriminate|]. split; [vm_compute; reflexivity|at_tac].
    + apply (dir_wide _ _ _ _ _ _ _ _ _ _ 30 39 46 50 (Z.lxor (Z.lxor (Z.lxor (1 * 65536 + 0) 1) 2) 0x550EC4DD02C468EC) 0);
        [reflexivity|reflexivity|cbn; lia|lia|vm_compute; split; congruence|vm_compute; reflexivity|at_tac| |].
      * apply (heads_cons _ _ _ _ _ true 39 44 45 46 46 0); [at_tac| |cbn; lia|split; [cbn; lia|at_tac]|split; [lia|at_tac]|constructor].
        apply name_keyed_wide; [reflexivity|apply lit_unicode; reflexivity|reflexivity|vm_compute; split; discriminate|at_tac].
      * apply (offs_image _ _ _ _ _ _ _ _ _ _ 46 50 (codes "j") 29 1 (stored_num OPkg264 2 1 2 46 29) 0x73);
          [vm_compute; discriminate|vm_compute; split; congruence|at_tac|apply pkg2_holds; pk_side|auto|at_tac|constructor].
Qed.
Example C70_ex_wide :
  laid_dir2 ex_v2w key0 pks0 true true 2 1 2 OPkg264 true 0
    [(codes "i", TImage 29 1); (codes "d", TDir 30 20 [(codes "j", TImage 29 1)])] /\
  fst (resolve_children (rd2 ex_v2w) h_v2w true OPkg264 2 5 (dir_new 0 50)) =
    Ok [(codes "i", NImage 29 1); (codes "d", NDir (mkDir 30 20 false Verified []) [(codes "j", NImage 29 1)])].
Proof. split; [exact ex_v2w_laid|vm_compute; reflexivity]. Qed.

(** C71: full statement: whatever number the enciphered entry count happens to
    be, the listing is read back.  False: a count of 3 is itself taken for the
    start of another entry. *)
Definition ex_count3 : list Z :=
  [3] ++ [4] ++ enc_str key0 (codes "i") ++ [1; 0] ++ [3] ++ stored OPkg2V1 0 5 9 7 11 ++ [0x73].
Theorem C71_any_count_refuted :
  exists r h v hash kids, hd_ident h = IV2 /\ is_pkg2_64 h = false /\
    laid_dir2 (rd_buf r) (rd_ks r) (rd_pks r) false false (hd_fstart h) (hd_hash1 h) hash v false 0 kids /\
    length kids = 1%nat /\
    forall f, fst (resolve_children r h false v hash (S (S (S f))) (dir_new 0 (zlen (rd_buf r)))) = Err ERead.
Proof.
  exists (rd0 ex_count3), (mkHeader IV2 0 0 0 None 5 0 FRandom32), OPkg2V1, 9, [(codes "i", TImage 11 1)].
  split; [reflexivity|]. split; [reflexivity|]. split; [|split; [reflexivity|intro f; vm_compute; reflexivity]].
  cbn [rd_buf rd_ks rd_pks rd0 hd_fstart hd_hash1].
  apply (dir_narrow _ _ _ _ _ _ _ _ _ _ 0 1 6 7 11 3);
    [reflexivity|discriminate|discriminate|split; [lia|at_tac]| |split; [lia|at_tac]|].
  - apply (heads_cons _ _ _ _ _ true 1 4 5 6 6 0); [at_tac| |cbn; lia|split; [cbn; lia|at_tac]|split; [lia|at_tac]|constructor].
    apply name_plain; [reflexivity|apply lit_unicode; reflexivity|at_tac].
  - apply (offs_image _ _ _ _ _ _ _ _ _ _ 7 11 (codes "i") 11 1 (stored_num OPkg2V1 0 5 9 7 11) 0x73);
      [vm_compute; discriminate|vm_compute; split; congruence|at_tac|apply pkg2_holds; pk_side|auto|at_tac|constructor].
Qed.
Print Assumptions C71_any_count_refuted.

(** C72: full statement: an empty directory is read back as empty.  False for
    32-bit packages: it is refused (and with it the package that contains it). *)
Theorem C72_empty_directory_refuted :
  exists r h v hash, hd_ident h = IV2 /\ is_pkg2_64 h = false /\
    laid_dir2 (rd_buf r) (rd_ks r) (rd_pks r) false false (hd_fstart h) (hd_hash1 h) hash v false 0 [] /\
    forall f, fst (resolve_children r h false v hash (S f) (dir_new 0 (zlen (rd_buf r)))) = Err EWrongVersion.
Proof.
  exists (rd0 [7; 7]), (mkHeader IV2 0 0 0 None 5 0 FRandom32), OPkg2V1, 9.
  split; [reflexivity|]. split; [reflexivity|]. split; [|intro f; vm_compute; reflexivity].
  apply (dir_narrow _ _ _ _ _ _ _ _ _ _ 0 1 1 2 2 7);
    [reflexivity|discriminate|discriminate|split; [lia|at_tac]|constructor|split; [lia|at_tac]|constructor].
Qed.
Print Assumptions C72_empty_directory_refuted.

(** C73: full statement: 64-bit packages with subdirectories are read back,
    whatever their hashes.  False: a subdirectory entry is accepted only if the
    enciphered count it points at is not negative as a number. *)
Theorem C73_wide_subdirectory_refuted :
  exists r h hash off size sub, is_pkg2_64 h = true /\ hd_ident h = IV2 /\
    laid_dir2 (rd_buf r) (rd_ks r) (rd_pks r) true false (hd_fstart h) (hd_hash1 h) hash OPkg264 false 0
      [(codes "d", TDir off size sub)] /\
    forall f, fst (resolve_children r h false OPkg264 hash (S f) (dir_new 0 (zlen (rd_buf r)))) = Err EWrongVersion.
Proof.
  exists (rd0 ((enc_wzint 8 (Z.lxor (Z.lxor (1 * 65536) (2 ^ 63)) 0x550EC4DD02C468EC - 2 ^ 64)) ++
     [3] ++ enc_str key0 (codes "d") ++ [9; 0] ++ stored OPkg264 0 (2 ^ 63) 0 14 18 ++
     (enc_wzint 8 (Z.lxor (2 ^ 63) 0x550EC4DD02C468EC - 2 ^ 64)))),
    (mkHeader IV2 0 0 0 None (2 ^ 63) 0 FRandom64), 0, 18, 9, [].
  split; [reflexivity|]. split; [reflexivity|]. split; [|intro f; vm_compute; reflexivity].
  apply (dir_wide _ _ _ _ _ _ _ _ _ _ 0 9 14 18 (Z.lxor (Z.lxor (1 * 65536) (2 ^ 63)) 0x550EC4DD02C468EC - 2 ^ 64) 0);
    [reflexivity|reflexivity|cbn; lia|lia|vm_compute; split; congruence|vm_compute; reflexivity|at_tac| |].
  + apply (heads_cons _ _ _ _ _ true 9 12 13 14 14 0); [at_tac| |cbn; lia|split; [cbn; lia|at_tac]|split; [lia|at_tac]|constructor].
    apply name_plain; [reflexivity|apply lit_unicode; reflexivity|at_tac].
  + apply (offs_dir _ _ _ _ _ _ _ _ _ _ 14 18 (codes "d") 18 9 (stored_num OPkg264 0 (2 ^ 63) 0 14 18));
      [vm_compute; discriminate|vm_compute; split; congruence|at_tac|apply pkg2_holds; pk_side|discriminate|lia| |constructor].
    apply (dir_wide _ _ _ _ _ _ _ _ _ _ 18 27 27 27 (Z.lxor (2 ^ 63) 0x550EC4DD02C468EC - 2 ^ 64) 0);
      [reflexivity|reflexivity|cbn; lia|lia|vm_compute; split; congruence|vm_compute; reflexivity|at_tac|constructor|constructor].
Qed.
Print Assumptions C73_wide_subdirectory_refuted.

(** C73: when [hash1 xor hash] has its top bit set, no subdirectory at all is accepted. *)
Theorem C73_top_bit_rejected :
  forall r h p2 v hash e off sub,
     zlen (rd_buf r) < 2 ^ 31 -> is_pkg2_64 h = true -> u64 (hd_hash1 h) -> u64 hash ->
     Z.testbit (Z.lxor (hd_hash1 h) hash) 63 = true ->
     laid_dir2 (rd_buf r) (rd_ks r) (rd_pks r) true p2 (hd_fstart h) (hd_hash1 h) hash v false off sub ->
     en_type e = DDir -> en_off h v hash e = off -> verify_entry r h v hash e = Err EWrongVersion.
Proof.
  intros r h p2 v hash e off sub Hs Hw H1 Hh Ht L Ty Off. unfold verify_entry. rewrite Off, Ty, Hw.
  destruct (zlen (rd_buf r) <? wrap 64 (off + en_size e)); [reflexivity|].
  inversion L as [|o a b q n low kids W Hv Len Low Nr E A LH LO]; [congruence|]; subst.
  rewrite (at_wzint64 r Hs _ _ _ Nr A). cbn [fst rbind].
  assert (B : Z.testbit (n mod 2 ^ 64) 63 = true).
  { rewrite E, !Z.lxor_spec. rewrite Z.lxor_spec in Ht.
    change (Z.testbit 0x550EC4DD02C468EC 63) with false.
    assert (T0 : Z.testbit (Z.of_nat (length sub) * 2 ^ 16 + low) 63 = false).
    { apply Z.bits_above_log2; [change (2 ^ 16) with 65536 in *; lia|].
      destruct (Z.eq_dec (Z.of_nat (length sub) * 2 ^ 16 + low) 0) as [->|]; [cbn; lia|].
      apply Z.log2_lt_pow2; change (2 ^ 16) with 65536 in *; pows; lia. }
    rewrite T0. destruct (Z.testbit (hd_hash1 h) 63), (Z.testbit hash 63); cbn in *; congruence. }
  destruct (n <? 0) eqn:N; [reflexivity|]. exfalso.
  rewrite Z.mod_small in B by (pows; lia). rewrite Z.bits_above_log2 in B; [discriminate|lia|].
  destruct (Z.eq_dec n 0) as [->|]; [cbn; lia|]. apply Z.log2_lt_pow2; lia.
Qed.
Print Assumptions C73_top_bit_rejected.

(** ** Termination and panics *)

(** C23: full statement: reading a directory tree terminates.  False: a
    directory that lists itself is read for ever ... *)
Definition ex_cycle : list Z := [1] ++ [3] ++ enc_str key0 (codes "d") ++ [6; 0] ++ stored OPkg1 0 0 1876 6 0.
Definition h_cycle : header := mkHeader IV1 0 0 0 (Some 172) 0 0 FNone.
Theorem C23_cyclic_directory_refuted :
  exists r h, bytes (rd_buf r) /\ zlen (rd_buf r) = 10 /\ hd_ident h = IV1 /\
    forall f, parse_pkg1 f r h false 10 83 = OutOfFuel.
Proof.
  exists (rd0 ex_cycle), h_cycle. split; [vm_compute; repeat constructor; discriminate|].
  split; [reflexivity|]. split; [reflexivity|]. intro f.
  assert (G : forall f size, size <> 0 -> fst (resolve_children (rd0 ex_cycle) h_cycle false OPkg1 1876 f (dir_new 0 size)) = OutOfFuel).
  { clear f. induction f as [|k IH]; intros size Hsz; [reflexivity|]. cbn [resolve_children dir_new di_size].
    replace (size =? 0) with false by lia. unfold prepare. cbn [dir_new di_status di_off di_size di_parsed].
    set (E := read_entries _ _ _ _ _ _ _).
    assert (X : E = Ok [mkEnt (mkMeta 3 1 SAscii) DDir 6 6 (stored_num OPkg1 0 0 1876 6 0)]) by (vm_compute; reflexivity).
    rewrite X. cbn [di_entries].
    set (V := verify_all _ _ _ _ _). assert (Y : V = true) by (vm_compute; reflexivity). rewrite Y.
    set (N := entry_nodes _ _ _ _ _).
    assert (Z : N = Ok [(codes "d", NDir (dir_new 0 6) [])]) by (vm_compute; reflexivity). rewrite Z.
    cbn [rbind descend]. specialize (IH 6 ltac:(lia)).
    destruct (resolve_children (rd0 ex_cycle) h_cycle false OPkg1 1876 k (dir_new 0 6)) as [x d]. cbn [fst] in IH. subst x. reflexivity. }
  unfold parse_pkg1. cbn [h_cycle hd_encver hd_data_start]. change (83 =? -1) with false. cbv iota zeta.
  replace (check_version 172 83) with 1876 by (vm_compute; reflexivity). cbn [andb].
  rewrite try_decode_eq by (reflexivity || lia). specialize (G f 10 ltac:(lia)).
  destruct (resolve_children _ _ _ _ _ f _) as [x d]. cbn [fst] in G. subst x. reflexivity.
Qed.
Print Assumptions C23_cyclic_directory_refuted.

(** ... and a single 32-bit package-2 entry whose name has a negative length
    is read over and over, the list of entries growing each time. *)
Definition ex_negname : list Z := [0; 5; 4; 0x80; 0xF8; 0xFF; 0xFF; 0xFF].
Theorem C23_pkg2_listing_refuted :
  exists r h v hash, bytes (rd_buf r) /\ zlen (rd_buf r) = 8 /\ hd_ident h = IV2 /\
    forall f, fst (resolve_children r h false v hash f (dir_new 1 8)) = OutOfFuel.
Proof.
  exists (rd0 ex_negname), (mkHeader IV2 0 0 0 None 5 0 FRandom32), OPkg2V1, 9.
  split; [vm_compute; repeat constructor; discriminate|]. split; [reflexivity|]. split; [reflexivity|].
  assert (G : forall f b, fst (entries2 (rd0 ex_negname) (mkHeader IV2 0 0 0 None 5 0 FRandom32) false f 5 b 2) = OutOfFuel).
  { induction f as [|k IH]; intro b; [reflexivity|]. cbn [entries2].
    assert (E : read_pkg2_entry (rd0 ex_negname) (mkHeader IV2 0 0 0 None 5 0 FRandom32) false 5 b 2 =
      (Ok (mkEnt (mkMeta 8 (2 ^ 32 - 8) SAscii) DImage 0 0 0), 2)) by (destruct b; vm_compute; reflexivity).
    step E. cbn [en_type]. specialize (IH false). unfold bind. destruct (entries2 _ _ _ k _ _ _) as [x p]. cbn [fst] in IH. subst x. reflexivity. }
  intros [|k]; [reflexivity|]. cbn [resolve_children dir_new di_size]. change (8 =? 0) with false. cbv iota.
  unfold prepare. cbn [dir_new di_status di_off di_size di_parsed]. unfold read_entries. cbn [hd_ident].
  change (is_pkg2_64 _) with false. cbv iota. unfold resolve_pkg2.
  assert (E : read_wz_int (rd0 ex_negname) 1 = (Ok 5, 2)) by (vm_compute; reflexivity). step E.
  unfold bind at 1. specialize (G (S k) true). destruct (entries2 _ _ _ (S k) _ _ _) as [x p]. cbn [fst] in G. subst x. reflexivity.
Qed.
Print Assumptions C23_pkg2_listing_refuted.

(** C74: full statement: opening a package never panics.  False: the name of an
    entry that reaches behind the end of the file is unwrapped. *)
Definition ex_badname : list Z :=
  [1; 2; 12; 0; 0; 0; 0; 0] ++ stored OPkg1 0 0 1876 8 0 ++ [2; 0x80; 100; 0; 0; 0].
Theorem C74_no_panic_refuted :
  exists r h, bytes (rd_buf r) /\ zlen (rd_buf r) = 18 /\ hd_ident h = IV1 /\
    forall f, parse_pkg1 (S f) r h false 18 83 = Panic.
Proof.
  exists (rd0 ex_badname), h_cycle. split; [vm_compute; repeat constructor; discriminate|].
  split; [reflexivity|]. split; [reflexivity|]. intro f. vm_compute. reflexivity.
Qed.
Print Assumptions C74_no_panic_refuted.

(** C75: full statement: every image of an opened package lies inside the file.
    False: a negative size is accepted (offset plus size wraps around). *)
Definition ex_negsize : list Z :=
  [1] ++ [4] ++ enc_str key0 (codes "i") ++ [0xFB; 0] ++ stored OPkg1 0 0 1876 6 10 ++ [0x73].
Theorem C75_images_inside_refuted :
  exists r h off size, bytes (rd_buf r) /\ zlen (rd_buf r) = 11 /\ hd_ident h = IV1 /\
    parse_pkg1 3 r h false 11 83 = Ok (83, 1876, [(codes "i", NImage off size)]) /\
    zlen (rd_buf r) < off + size.
Proof.
  exists (rd0 ex_negsize), h_cycle, 10, (2 ^ 64 - 5). split; [vm_compute; repeat constructor; discriminate|].
  repeat split; vm_compute; reflexivity.
Qed.
Print Assumptions C75_images_inside_refuted.

(** C24: full statement: unparse followed by parse restores the children.
    False for directory nodes, whatever the file: the second parse succeeds and
    the directory stays empty. *)
Theorem C24_reparse_loses_children :
  forall r h p2 v hash f f' off size n1,
     parse_dir r h p2 v hash f (dir_new off size, []) = (Ok tt, n1) -> size <> 0 ->
     exists d2, parse_dir r h p2 v hash (S f') (unparse_dir n1) = (Ok tt, (d2, [])).
Proof.
  intros r h p2 v hash f f' off size n1 H Hsz. unfold parse_dir in H. cbn [di_parsed dir_new] in H.
  change (mkDir off size false Init []) with (dir_new off size) in H.
  destruct (resolve_children r h p2 v hash f (dir_new off size)) as [[l| | |] d'] eqn:E; try discriminate.
  injection H as <-. cbn [app unparse_dir di_off di_size di_status di_entries].
  assert (D : d' = mkDir off size false Verified []).
  { destruct f as [|k]; [discriminate|]. cbn [resolve_children dir_new di_size] in E. replace (size =? 0) with false in E by lia.
    unfold prepare in E. cbn [dir_new di_status di_off di_size di_parsed] in E.
    destruct (read_entries r h p2 v hash (S k) off) as [es| | |]; try discriminate. cbn [di_entries] in E.
    destruct (verify_all r h v hash es); [|discriminate]. destruct (rbind _ _); try discriminate.
    injection E as _ <-. reflexivity. }
  subst d'. cbn [di_off di_size di_status di_entries]. unfold parse_dir. cbn [di_parsed resolve_children di_size].
  replace (size =? 0) with false by lia. cbn. eexists. reflexivity.
Qed.
Print Assumptions C24_reparse_loses_children.

Theorem C24_reparse_directory_refuted :
  exists r h off size d1 k d2,
    parse_dir r h false OPkg1 1876 5 (dir_new off size, []) = (Ok tt, (d1, [k])) /\
    parse_dir r h false OPkg1 1876 5 (unparse_dir (d1, [k])) = (Ok tt, (d2, [])).
Proof.
  exists (rd0 ex_v1), h_v1, 26, 21, (mkDir 26 21 true Verified []), (codes "j", NImage 25 1), (mkDir 26 21 true Verified []).
  split; vm_compute; reflexivity.
Qed.
Print Assumptions C24_reparse_directory_refuted.
