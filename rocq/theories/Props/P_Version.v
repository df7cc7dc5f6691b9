(** C09-C15, C50, C53-C57: patch versions and version hashes. *)
From Coq Require Import ZArith List Bool Lia Sorted.
From Verif.Model Require Import Base Keys Header Offset VersionPkg1 VersionPkg2.
From Verif.Spec Require Import Version.
From Verif.Proofs Require Import BaseL VersionL Pkg1L.

(** *** Classic packages *)

(** C09: guessing with a version field [e]: exactly the versions 1..2000 whose
    hash folds to [e] or that are literally equal to [e], in increasing order,
    each with its own hash. *)
Theorem C09_guess_exact :
  forall e, 0 <= e < 65536 ->
    (forall v h, In (v, h) (pkg1_candidates (Some e) None) <->
       1 <= v <= 2000 /\ (exists ds, decimal v ds /\ h = digit_hash 0 ds) /\ (folded h = e \/ v = e)) /\
    StronglySorted Z.lt (map fst (pkg1_candidates (Some e) None)).
Proof.
  intros e He. split.
  - intros v h. cbn [pkg1_candidates]. rewrite usable_scan_In.
    assert (G : 1 <= v <= 2000 -> exists ds, decimal v ds /\ version_hash v = digit_hash 0 ds /\ 0 < digit_hash 0 ds).
    { intro Hv. destruct (decimal_exists v ltac:(lia)) as [ds D]. exists ds. split; [exact D|].
      split; [apply version_hash_exact; [exact D|lia]|]. apply (digit_hash_range v ds D). lia. }
    split.
    + intros (Hv & -> & Hn). destruct (G Hv) as (ds & D & E & P).
      destruct (check_version_spec e v _ E P ltac:(change (2 ^ 32) with 4294967296; lia)) as [S1 S2].
      split; [exact Hv|]. rewrite (S2 Hn). split; [eauto|]. apply S1, Hn.
    + intros (Hv & (ds & D & ->) & Hf). split; [exact Hv|].
      pose proof (version_hash_exact v ds D ltac:(lia)) as E. pose proof (digit_hash_range v ds D ltac:(lia)) as [P _].
      destruct (check_version_spec e v _ E P ltac:(change (2 ^ 32) with 4294967296; lia)) as [S1 S2].
      pose proof (proj2 S1 Hf) as Hn. rewrite (S2 Hn). split; [reflexivity|lia].
  - cbn [pkg1_candidates]. rewrite version_scan_eq. apply usable_sorted, zrange_sorted.
Qed.
Print Assumptions C09_guess_exact.

(** C09: the version the file was made with is never missed. *)
Theorem C09_guess_complete :
  forall v ds, 1 <= v <= 2000 -> decimal v ds ->
    In (v, digit_hash 0 ds) (pkg1_candidates (Some (folded (digit_hash 0 ds))) None).
Proof.
  intros v ds Hv D. apply C09_guess_exact; [|split; [exact Hv|]; split; [eauto|left; reflexivity]].
  assert (0 <= folded (digit_hash 0 ds) < 256).
  { unfold folded.
    assert (M : forall x, 0 <= x mod 256 < 2 ^ 8) by (intro; apply Z.mod_pos_bound; lia).
    apply (lxor_range 8); [lia|lia|]. apply lxor_range; [lia| |]; apply lxor_range; auto; lia. }
  lia.
Qed.
Print Assumptions C09_guess_complete.

(** C09: the hash of an explicitly requested version is used if it fits. *)
Theorem C09_explicit :
  forall e v ds, 0 <= e < 65536 -> 0 <= v < 1000000 -> decimal v ds ->
    (folded (digit_hash 0 ds) = e \/ v = e ->
       pkg1_candidates (Some e) (Some v) = [(v, digit_hash 0 ds)]) /\
    (folded (digit_hash 0 ds) <> e -> v <> e -> pkg1_candidates (Some e) (Some v) = []).
Proof.
  intros e v ds He Hv D.
  pose proof (version_hash_exact v ds D ltac:(lia)) as E. pose proof (digit_hash_range v ds D ltac:(lia)) as [P _].
  destruct (check_version_spec e v _ E P ltac:(change (2 ^ 32) with 4294967296; lia)) as [S1 S2].
  unfold pkg1_candidates. replace (v =? -1) with false by (symmetry; apply Z.eqb_neq; lia).
  unfold usable. cbn [filter snd]. split.
  - intro F. apply S1 in F. rewrite (S2 F). destruct (Z.eqb_spec (digit_hash 0 ds) 0); [lia|reflexivity].
  - intros F1 F2. destruct (Z.eqb_spec (check_version e v) 0); [reflexivity|]. exfalso. apply S1 in n. tauto.
Qed.
Print Assumptions C09_explicit.

Example C09_ex :
  pkg1_candidates (Some 172) (Some 83) = [(83, 1876)] /\
  In (83, 1876) (pkg1_candidates (Some 172) None) /\
  decimal 83 [8; 3] /\ digit_hash 0 [8; 3] = 1876 /\ folded 1876 = 172.
Proof.
  assert (D : decimal 83 [8; 3]) by (repeat split; try discriminate; repeat constructor; lia).
  split; [vm_compute; reflexivity|]. split; [exact (C09_guess_complete 83 [8; 3] ltac:(lia) D)|].
  split; [exact D|]. split; reflexivity.
Qed.

(** C53: full statement: only versions whose hash folds to the header field are
    offered.  False: a version number equal to the field is offered too. *)
Theorem C53_guess_strict_refuted :
  exists e v h, 0 <= e < 256 /\ In (v, h) (pkg1_candidates (Some e) None) /\
    decimal v [v] /\ h = digit_hash 0 [v] /\ folded h <> e.
Proof.
  exists 1, 1, 50. split; [lia|]. split.
  - apply C09_guess_exact; [lia|]. split; [lia|]. split; [|right; reflexivity].
    exists [1]. split; [|reflexivity]. repeat split; try discriminate; repeat constructor; lia.
  - split; [repeat split; try discriminate; repeat constructor; lia|]. split; [reflexivity|]. vm_compute. discriminate.
Qed.
Print Assumptions C53_guess_strict_refuted.

(** C10: full statement: without a version field each version 770..780 is
    offered.  False: only 770 is. *)
Theorem C10_scan_770_780_refuted :
  exists v, 770 <= v <= 780 /\ forall h, ~ In (v, h) (pkg1_candidates None None).
Proof.
  exists 771. split; [lia|]. intros h H. vm_compute in H. destruct H as [H|[]]. injection H. lia.
Qed.
Print Assumptions C10_scan_770_780_refuted.

Theorem C10_scan_only_770 :
  pkg1_candidates None None = [(770, digit_hash 0 [7; 7; 0])] /\
  forall v, 0 <= v < 1000000 -> v <> 770 ->
    (forall ds, decimal v ds -> folded (digit_hash 0 ds) <> 770).
Proof.
  split; [vm_compute; reflexivity|]. intros v Hv Hn ds D.
  assert (0 <= folded (digit_hash 0 ds) < 2 ^ 8).
  { unfold folded.
    assert (M : forall x, 0 <= x mod 256 < 2 ^ 8) by (intro; apply Z.mod_pos_bound; lia).
    apply (lxor_range 8); [lia|lia|]. apply lxor_range; [lia| |]; apply lxor_range; auto; lia. }
  change (2 ^ 8) with 256 in H. lia.
Qed.
Print Assumptions C10_scan_only_770.

(** C54: full statement: a user who knows the version of a package without
    version field can pass it.  False for every version but 770. *)
Theorem C54_explicit_only_770 :
  forall v, 0 <= v < 1000000 -> v <> 770 -> pkg1_candidates None (Some v) = [].
Proof.
  intros v Hv Hn. destruct (decimal_exists v ltac:(lia)) as [ds D].
  pose proof (C09_explicit 770 v ds ltac:(lia) Hv D) as [_ G].
  assert (X : pkg1_candidates None (Some v) = pkg1_candidates (Some 770) (Some v)).
  { unfold pkg1_candidates. replace (v =? -1) with false by (symmetry; apply Z.eqb_neq; lia). reflexivity. }
  rewrite X. apply G; [|assumption]. apply (proj2 C10_scan_only_770 v Hv Hn ds D).
Qed.
Print Assumptions C54_explicit_only_770.

Theorem C54_explicit_without_field_refuted :
  exists v, 770 <= v <= 780 /\ pkg1_candidates None (Some v) = [].
Proof. exists 771. split; [lia|]. apply C54_explicit_only_770; lia. Qed.
Print Assumptions C54_explicit_without_field_refuted.

Example C54_ex : pkg1_candidates None (Some 771) = [] /\ version_hash 771 = 59186.
Proof. vm_compute. split; reflexivity. Qed.

(** *** Package 2: closed form schemes *)

(** C11: one candidate, and it is the one and only solution. *)
Theorem C11_v1_unique :
  forall h1 h2, u32 h1 -> u32 h2 ->
    exists c, calc_v1 h1 h2 = [c] /\ u32 c /\ eq_v1 h1 h2 c /\ forall v, eq_v1 h1 h2 v -> v = c.
Proof.
  intros h1 h2 H1 H2. eexists. split; [reflexivity|].
  pose proof (rotl32_u32 h1 7 H1) as Hr. split; [apply u32_lxor; assumption|].
  split.
  - exists (rotl32 h1 7). split; [apply rotl32_rotated, H1|]. rewrite lxor_cancel_l. reflexivity.
  - intros v (r & R & ->). apply rotated_iff in R; [|assumption]. subst r. rewrite lxor_cancel_l. reflexivity.
Qed.
Print Assumptions C11_v1_unique.

Theorem C11_v6_unique :
  forall h1 h2, u64 h1 -> u64 h2 ->
    exists c, calc_v6 h1 h2 = [c] /\ u64 c /\ eq_v6 h1 h2 c /\ forall v, eq_v6 h1 h2 v -> v = c.
Proof.
  intros h1 h2 H1 H2. eexists. split; [reflexivity|]. unfold VERIFY_KEY_V6, eq_v6.
  split; [apply (lxor_range 64); [lia|apply (lxor_range 64); [lia|assumption|assumption]|lia]|].
  split; [apply lxor_cancel_l|]. intros v E. rewrite <- E. rewrite lxor_cancel_l. reflexivity.
Qed.
Print Assumptions C11_v6_unique.

Example C11_ex :
  calc_v1 0x80000001 0x1234 = [0x12F4] /\
  calc_v6 5 9 = [0xABCDEF0123456785].
Proof. vm_compute. split; reflexivity. Qed.

(** *** Package 2: bit search *)

(** C12: only solutions are returned. *)
Theorem C12_bit_search_sound :
  forall h1 h2 v, u32 h1 -> u32 h2 ->
    (In v (calc_v2 h1 h2) -> u32 v /\ eq_v2 h1 h2 v) /\
    (In v (calc_v3 h1 h2) -> u32 v /\ eq_v3 h1 h2 v).
Proof.
  intros h1 h2 v H1 H2. split; intro H.
  - apply (proj1 (calc_v2_exact _ _ _ H1 H2)) in H. destruct H as (A & B & _). split; [exact A|].
    apply verify_v2_iff; assumption.
  - apply (proj1 (calc_v3_exact _ _ _ H1 H2)) in H. destruct H as (A & B & _). split; [exact A|].
    apply verify_v3_iff; assumption.
Qed.
Print Assumptions C12_bit_search_sound.

(** C56: exactly which solutions are found: those that rotate by a non-zero
    amount, and 0. *)
Theorem C56_bit_search_exact :
  forall h1 h2 v, u32 h1 -> u32 h2 -> u32 v ->
    (In v (calc_v2 h1 h2) <-> eq_v2 h1 h2 v /\ (v mod 32 <> 0 \/ v = 0)) /\
    (In v (calc_v3 h1 h2) <-> eq_v3 h1 h2 v /\ (v mod 16 + h1 mod 16 <> 0 \/ v = 0)).
Proof.
  intros h1 h2 v H1 H2 Hv. rewrite calc_v2_exact, calc_v3_exact, verify_v2_iff, verify_v3_iff by assumption. tauto.
Qed.
Print Assumptions C56_bit_search_exact.

(** C56: so a header made from a hash whose rotation amount is not 0 is opened. *)
Example C56_ex :
  let h2 := Z.lxor (rotl32 (Z.lxor 0xDEADBEEF 0x1A2B4082) 21) 0x435 in
  In 0x435 (calc_v2 0xDEADBEEF h2).
Proof.
  intro h2. refine (proj2 (calc_v2_exact _ _ _ _ _) _); [unfold u32; lia| |].
  - subst h2. apply u32_lxor; [apply rotl32_u32; unfold u32; vm_compute; split; [discriminate|reflexivity]|unfold u32; lia].
  - split; [unfold u32; lia|]. split; [vm_compute; reflexivity|]. left. vm_compute. discriminate.
Qed.

(** C13: full statement: the hash the header was made from is always found.
    False for hashes divisible by 32 (V2), and for V3 when the low four bits of
    the hash and of the first header hash are all 0. *)
Theorem C13_bit_search_complete_refuted :
  exists h1 h2 v, u32 h1 /\ u32 h2 /\ u32 v /\ eq_v2 h1 h2 v /\ ~ In v (calc_v2 h1 h2) /\
  exists h2', u32 h2' /\ eq_v3 h1 h2' v /\ ~ In v (calc_v3 h1 h2').
Proof.
  exists 0, (Z.lxor 0x1A2B3C6D 32), 32.
  assert (U1 : u32 0) by (unfold u32; lia).
  assert (U2 : u32 (Z.lxor 0x1A2B3C6D 32)) by (unfold u32; vm_compute; split; [discriminate|reflexivity]).
  assert (U3 : u32 32) by (unfold u32; lia).
  split; [exact U1|]. split; [exact U2|]. split; [exact U3|].
  split; [apply verify_v2_iff; [exact U1|vm_compute; reflexivity]|].
  split. { intro H. apply (proj1 (calc_v2_exact _ _ _ U1 U2)) in H. destruct H as (_ & _ & [H|H]); [apply H; reflexivity|discriminate]. }
  exists (2 ^ 32 - 1 - Z.lxor 0x1A2B3C6D 32).
  assert (U4 : u32 (2 ^ 32 - 1 - Z.lxor 0x1A2B3C6D 32)) by (unfold u32; vm_compute; split; [discriminate|reflexivity]).
  split; [exact U4|]. split; [apply verify_v3_iff; [exact U1|vm_compute; reflexivity]|].
  intro H. apply (proj1 (calc_v3_exact _ _ _ U1 U4)) in H. destruct H as (_ & _ & [H|H]); [apply H; reflexivity|discriminate].
Qed.
Print Assumptions C13_bit_search_complete_refuted.

(** *** Package 2: exhaustive schemes *)

(** C14: below 2^32 - 1 exactly the solutions, in increasing order. *)
Theorem C14_brute_force_exact :
  forall h1 h2 v, u32 h1 -> u32 h2 ->
    (In v (calc_v4 h1 h2) <-> 0 <= v < 2 ^ 32 - 1 /\ eq_v4 h1 h2 v) /\
    (In v (calc_v5 h1 h2) <-> 0 <= v < 2 ^ 32 - 1 /\ eq_v5 h1 h2 v) /\
    NoDup (calc_v4 h1 h2) /\ NoDup (calc_v5 h1 h2).
Proof.
  intros h1 h2 v H1 H2. unfold calc_v4, calc_v5, brute_force.
  rewrite !filter_In, zrange_In, verify_v4_iff, verify_v5_iff by assumption.
  split; [tauto|]. split; [tauto|]. split; apply NoDup_filter, zrange_NoDup.
Qed.
Print Assumptions C14_brute_force_exact.

Example C14_ex :
  let h2 := 2 ^ 32 - 1 - lhs_v45 0xDEADBEEF 1234567 in In 1234567 (calc_v4 0xDEADBEEF h2).
Proof.
  intro h2. assert (U : u32 h2) by (subst h2; unfold u32; vm_compute; split; [discriminate|reflexivity]).
  refine (proj2 (proj1 (C14_brute_force_exact _ _ _ _ U)) _); [unfold u32; lia|]. split; [lia|].
  apply verify_v4_iff; [unfold u32; lia|]. subst h2. vm_compute. reflexivity.
Qed.

(** C55: full statement: every solution is returned.  False: the range leaves
    out the hash 0xFFFFFFFF. *)
Theorem C55_brute_force_all_refuted :
  exists h1 h2 v, u32 h1 /\ u32 h2 /\ u32 v /\ eq_v4 h1 h2 v /\ ~ In v (calc_v4 h1 h2) /\
  exists h2', u32 h2' /\ eq_v5 h1 h2' v /\ ~ In v (calc_v5 h1 h2').
Proof.
  exists 0, (2 ^ 32 - 1 - lhs_v45 0 0xFFFFFFFF), 0xFFFFFFFF.
  assert (U1 : u32 0) by (unfold u32; lia).
  assert (U2 : u32 (2 ^ 32 - 1 - lhs_v45 0 0xFFFFFFFF)) by (unfold u32; vm_compute; split; [discriminate|reflexivity]).
  split; [exact U1|]. split; [exact U2|]. split; [unfold u32; lia|].
  split; [apply verify_v4_iff; [exact U1|vm_compute; reflexivity]|].
  split. { intro H. apply (proj1 (proj1 (C14_brute_force_exact _ _ _ U1 U2))) in H. destruct H as [H _]. change (2 ^ 32) with 4294967296 in H. lia. }
  exists (Z.lxor (lhs_v45 0 0xFFFFFFFF) 0x2A2C818B).
  assert (U3 : u32 (Z.lxor (lhs_v45 0 0xFFFFFFFF) 0x2A2C818B)) by (unfold u32; vm_compute; split; [discriminate|reflexivity]).
  split; [exact U3|]. split; [apply verify_v5_iff; [exact U1|vm_compute; reflexivity]|].
  intro H. apply (proj1 (proj1 (proj2 (C14_brute_force_exact _ _ _ U1 U3)))) in H. destruct H as [H _]. change (2 ^ 32) with 4294967296 in H. lia.
Qed.
Print Assumptions C55_brute_force_all_refuted.

(** *** The chained generator *)
Lemma vgen_drain cur gens : Forall (fun l => l <> []) gens ->
  forall n, (length cur + length (concat gens) <= n)%nat ->
  vgen_loop n (mkVgen (Some cur) gens) = cur ++ concat gens.
Proof.
  revert cur. induction gens as [|g gens IH]; intros cur Hg.
  - induction cur as [|x cur IH]; intros n Hn; cbn [concat app] in *; rewrite ?app_nil_r in *.
    + destruct n; reflexivity.
    + destruct n; [cbn in Hn; lia|]. cbn [vgen_loop vgen_next vg_cur vg_gens]. f_equal.
      rewrite IH; [|cbn in *; lia]. rewrite ?app_nil_r. reflexivity.
  - induction cur as [|x cur IHc]; intros n Hn.
    + inversion_clear Hg. destruct g as [|x g]; [congruence|].
      cbn [concat app length] in *. rewrite app_length in Hn. destruct n; [lia|].
      cbn [vgen_loop vgen_next vg_cur vg_gens]. f_equal. apply IH; [assumption|]. lia.
    + destruct n; [cbn in Hn; lia|]. cbn [vgen_loop vgen_next vg_cur vg_gens app]. f_equal.
      apply IHc. cbn [length] in Hn. lia.
Qed.

(** C57: if each of the three schemes has a candidate, a loop over the chained
    generator visits all candidates: V3, then V2, then V1. *)
Theorem C57_chain_complete_when_nonempty :
  forall h1 h2 n, calc_v3 h1 h2 <> [] -> calc_v2 h1 h2 <> [] ->
    (length (calc_v3 h1 h2) + length (calc_v2 h1 h2) + 1 <= n)%nat ->
    vgen_loop n (vgen_new h1 h2) = calc_v3 h1 h2 ++ calc_v2 h1 h2 ++ calc_v1 h1 h2.
Proof.
  intros h1 h2 n H3 H2 Hn. unfold vgen_new.
  destruct (calc_v3 h1 h2) as [|x l3] eqn:E3; [congruence|].
  destruct n as [|n]; [lia|]. cbn [vgen_loop vgen_next vg_cur vg_gens].
  rewrite vgen_drain.
  - cbn [concat app]. rewrite app_nil_r. reflexivity.
  - repeat constructor; [assumption|]. unfold calc_v1. discriminate.
  - cbn [concat app]. rewrite !app_length. unfold calc_v1. cbn [length] in *. lia.
Qed.
Print Assumptions C57_chain_complete_when_nonempty.

Example C57_ex :
  let h1 := 0x100 in let h2 := Z.lxor (rotl32 (Z.lxor h1 0x1A2B3C52) 5) 5 in
  In 5 (calc_v2 h1 h2) /\ calc_v1 h1 h2 <> [].
Proof.
  intros h1 h2. split; [|discriminate].
  refine (proj2 (calc_v2_exact _ _ _ _ _) _); [unfold u32; subst h1; lia| |].
  - subst h2 h1. unfold u32. vm_compute. split; [discriminate|reflexivity].
  - split; [unfold u32; lia|]. split; [vm_compute; reflexivity|]. left. vm_compute. discriminate.
Qed.

(** C15: full statement: a loop visits the candidates of all schemes.  False:
    a scheme without candidates ends the iteration. *)
Theorem C15_chain_complete_refuted :
  exists h1 h2 v, u32 h1 /\ u32 h2 /\ eq_v1 h1 h2 v /\ u32 v /\
    forall n, vgen_loop n (vgen_new h1 h2) = [].
Proof.
  exists 0, 0, 0. assert (U : u32 0) by (unfold u32; lia).
  split; [exact U|]. split; [exact U|]. split; [apply verify_v1_iff; [exact U|reflexivity]|]. split; [exact U|].
  assert (E : calc_v3 0 0 = []) by (vm_compute; reflexivity).
  intros [|n]; [reflexivity|]. unfold vgen_new. rewrite E. reflexivity.
Qed.
Print Assumptions C15_chain_complete_refuted.

(** *** Reusing a known profile *)

(** The header equation of each profile (64-bit values for the last one). *)
Definition profile_eq (p : prof) (h1 h2 v : Z) : Prop :=
  match p with
  | P1202 => eq_v6 h1 h2 v
  | P1201 | P1199 => eq_v4 (h1 mod 2 ^ 32) (h2 mod 2 ^ 32) (v mod 2 ^ 32)
  | P1200 => eq_v5 (h1 mod 2 ^ 32) (h2 mod 2 ^ 32) (v mod 2 ^ 32)
  | P1198 => eq_v3 (h1 mod 2 ^ 32) (h2 mod 2 ^ 32) (v mod 2 ^ 32)
  | P1197 => eq_v2 (h1 mod 2 ^ 32) (h2 mod 2 ^ 32) (v mod 2 ^ 32)
  | P1196 => eq_v1 (h1 mod 2 ^ 32) (h2 mod 2 ^ 32) (v mod 2 ^ 32)
  end.

(** C50: a cached version hash is accepted for another file exactly if it
    satisfies the equation of the profile. *)
Theorem C50_cached_hash_check :
  forall p hash h1 h2, prof_verify p hash h1 h2 = true <-> profile_eq p h1 h2 hash.
Proof.
  intros p hash h1 h2. unfold prof_verify, profile_eq.
  destruct p; cbn [prof_64].
  - apply verify_v6_iff.
  - apply verify_v4_iff, u32_wrap.
  - apply verify_v5_iff, u32_wrap.
  - apply verify_v4_iff, u32_wrap.
  - apply verify_v3_iff, u32_wrap.
  - apply verify_v2_iff, u32_wrap.
  - apply verify_v1_iff, u32_wrap.
Qed.
Print Assumptions C50_cached_hash_check.

(** C50: every hash a profile generates for a file is accepted for it. *)
Theorem C50_generated_accepted :
  forall p h1 h2 v, u64 h1 -> u64 h2 -> In v (prof_hashes p h1 h2) -> prof_verify p v h1 h2 = true.
Proof.
  intros p h1 h2 v H1 H2 H. apply C50_cached_hash_check. unfold profile_eq, prof_hashes in *.
  pose proof (u32_wrap h1) as W1. pose proof (u32_wrap h2) as W2.
  assert (S : forall x, u32 x -> x mod 2 ^ 32 = x) by (intros x [A B]; apply Z.mod_small; auto).
  change (h1 mod 2 ^ 32) with (wrap 32 h1). change (h2 mod 2 ^ 32) with (wrap 32 h2).
  assert (B4 : In v (calc_v4 (wrap 32 h1) (wrap 32 h2)) -> eq_v4 (wrap 32 h1) (wrap 32 h2) (v mod 2 ^ 32)).
  { intro X. apply (proj1 (proj1 (C14_brute_force_exact _ _ _ W1 W2))) in X. destruct X as [X1 X2].
    rewrite S; [exact X2|unfold u32; lia]. }
  destruct p.
  - destruct (C11_v6_unique h1 h2 H1 H2) as (c & E & _ & X & _). rewrite E in H. destruct H as [<-|[]]. exact X.
  - apply B4, H.
  - apply (proj1 (proj1 (proj2 (C14_brute_force_exact _ _ _ W1 W2)))) in H. destruct H as [X1 X2].
    rewrite S; [exact X2|unfold u32; lia].
  - apply B4, H.
  - apply (C12_bit_search_sound _ _ v W1 W2) in H. destruct H as [X1 X2]. rewrite S; assumption.
  - apply (C12_bit_search_sound _ _ v W1 W2) in H. destruct H as [X1 X2]. rewrite S; assumption.
  - destruct (C11_v1_unique _ _ W1 W2) as (c & E & U & X & _). rewrite E in H. destruct H as [<-|[]]. rewrite S; assumption.
Qed.
Print Assumptions C50_generated_accepted.

Example C50_ex :
  prof_verify P1202 (Z.lxor (Z.lxor 5 9) 0xABCDEF0123456789) 5 9 = true /\
  prof_verify P1196 (Z.lxor (rotl32 0xDEADBEEF 7) 77) 0xDEADBEEF 77 = true /\
  prof_verify P1196 12 0xDEADBEEF 77 = false.
Proof. vm_compute. repeat split. Qed.
