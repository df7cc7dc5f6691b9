(** util/resolver.rs: a whole installation as one tree. *)
From Coq Require Import ZArith List Bool Lia Permutation.
From Coq Require String Ascii.
From Verif.Model Require Import Base Utf Reader Image Resolver.
From Verif.Spec Require Import Install.
From Verif.Proofs Require Import ImageL InstallL ResolveL.
Import ListNotations.
Import String.StringSyntax.
Open Scope Z_scope.

(** For the examples: a file lists one node for every byte behind the first one, called like that byte; an empty file is
    not a package, one that starts with 255 cannot be parsed.  The version is 83 unless another is given. *)
Definition demo (o : opts) (data : list Z) : option (res (list (text * Z)) * (Z * Z)) :=
  match data with
  | [] => None
  | 255 :: _ => Some (Err ERead, (0, 0))
  | _ :: l => Some (Ok (map (fun b => ([b], b)) l), (match o_patch o with Some v => v | None => 83 end, 7))
  end.
Definition any_opts := mkOpts None None None.

(** *** C181: the tree for one package with its subdirectories and the pieces of its series. *)
Theorem C181_assembled : forall open_file o dn l dir fname up, ready open_file o l fname ->
  exists s, resolve_dir open_file o (FDir dn l) dir fname up = Ok s /\ assembled open_file o dir l fname up s.
Proof. intros. eapply resolve_assembled; eauto. Qed.
Print Assumptions C181_assembled.
(** Map.wz lists B and C; there is a directory B, and pieces Map_000.wz and Map_001.wz with D and E, and other files. *)
Definition map_dir : list fent :=
  [FFile (txt "Map_001.wz") [0; 69]; FDir (txt "B") [FFile (txt "B.wz") [0; 88]]; FFile (txt "Map.wz") [0; 66; 67];
   FDir (txt "Z") []; FFile (txt "Map.ini") []; FFile (txt "Map_000.wz") [0; 68]].
Example C181_example : resolve_dir demo any_opts (FDir (txt "Map") map_dir) [txt "Map"] (txt "Map.wz") None =
  Ok (RFile (txt "Map") [txt "Map"; txt "Map.wz"] None 83 7
    [(txt "B", RFile (txt "B") [txt "Map"; txt "B"; txt "B.wz"] (Some [txt "Map"; txt "Map.wz"]) 83 7
        [(txt "X", RKid [txt "Map"; txt "B"; txt "B.wz"] 88 [txt "Map"; txt "B"; txt "B.wz"])]);
     (txt "C", RKid [txt "Map"; txt "Map.wz"] 67 [txt "Map"; txt "Map.wz"]);
     (txt "E", RKid [txt "Map"; txt "Map_001.wz"] 69 [txt "Map"; txt "Map.wz"]);
     (txt "D", RKid [txt "Map"; txt "Map_000.wz"] 68 [txt "Map"; txt "Map.wz"])]).
Proof. vm_compute. reflexivity. Qed.
Lemma demo_ok o x l : x <> 255 -> demo o (x :: l) = Some (Ok (map (fun b => ([b], b)) l), (match o_patch o with Some v => v | None => 83 end, 7)).
Proof.
  intros H. unfold demo. destruct x as [|p|p]; try reflexivity.
  repeat (destruct p as [p|p|]; try reflexivity). now elim H.
Qed.
Lemma piece_no n : is_piece n = false -> ~ piece_name n.
Proof. intros H P. apply is_piece_spec in P. congruence. Qed.
Ltac nodup := repeat constructor; cbn; intuition discriminate.
Ltac in_list H := cbn [In] in H; repeat (destruct H as [H|H]; [inversion H; subst; clear H|]); [..|destruct H].
Lemma sub_ready o : ready demo o [FFile (txt "B.wz") [0; 88]] (txt "B.wz").
Proof.
  apply (ready_dir demo o _ _ [0; 88] [([88], 88)]).
  - nodup.
  - now left.
  - now eexists.
  - nodup.
  - intros f d H P. destruct H as [H|[]]. inversion H; subst. exfalso. revert P. now apply piece_no.
  - intros f g k w w' (d & ks & H & P & _). destruct H as [H|[]]. inversion H; subst. exfalso. revert P. now apply piece_no.
  - intros f k w sub (d & ks & H & P & _). destruct H as [H|[]]. inversion H; subst. exfalso. revert P. now apply piece_no.
  - intros n sub [H|[]]. discriminate H.
Qed.
Lemma map_offers o f k w : offers demo o map_dir f k w ->
  (f = txt "Map_001.wz" /\ k = txt "E" /\ w = 69) \/ (f = txt "Map_000.wz" /\ k = txt "D" /\ w = 68).
Proof.
  intros (d & ks & H & P & [pk G] & K). unfold map_dir in H. cbn [In] in H.
  destruct H as [H|[H|[H|[H|[H|[H|[]]]]]]]; inversion H; subst; clear H; cbn in G; inversion G; subst; cbn in K.
  - destruct K as [K|[]]. inversion K; subst. now left.
  - exfalso. revert P. now apply piece_no.
  - destruct K as [K|[]]. inversion K; subst. now right.
Qed.
Example C181_ready : ready demo any_opts map_dir (txt "Map.wz").
Proof.
  apply (ready_dir demo any_opts _ _ [0; 66; 67] [([66], 66); ([67], 67)]).
  - nodup.
  - cbn. auto.
  - now eexists.
  - nodup.
  - intros f d H P. unfold map_dir in H. cbn [In] in H.
    destruct H as [H|[H|[H|[H|[H|[H|[]]]]]]]; inversion H; subst; clear H; cbn.
    + do 2 eexists. split; [reflexivity|]. left. eexists. split; [reflexivity|]. nodup.
    + exfalso. revert P. now apply piece_no.
    + exfalso. revert P. now apply piece_no.
    + do 2 eexists. split; [reflexivity|]. left. eexists. split; [reflexivity|]. nodup.
  - intros f g k w w' H1 H2. apply map_offers in H1, H2. destruct H1 as [(-> & -> & ->)|(-> & -> & ->)], H2 as [(-> & E & _)|(-> & E & _)];
      try reflexivity; discriminate E.
  - intros f k w sub H1 H2. apply map_offers in H1. unfold map_dir in H2. cbn [In] in H2.
    destruct H1 as [(_ & -> & _)|(_ & -> & _)]; intuition discriminate.
  - intros n sub H K. unfold map_dir in H. cbn [In] in H.
    destruct H as [H|[H|[H|[H|[H|[H|[]]]]]]]; inversion H; subst; clear H.
    + apply sub_ready.
    + exfalso. cbn in K. intuition discriminate.
Qed.

(** *** C182: the tree does not depend on the order in which the system lists directories. *)
Theorem C182_order : forall open_file o dn dn' l l' dir fname up, ready open_file o l fname -> shuffled l l' ->
  exists s s', resolve_dir open_file o (FDir dn l) dir fname up = Ok s /\
    resolve_dir open_file o (FDir dn' l') dir fname up = Ok s' /\ same_tree s s'.
Proof.
  intros open_file o dn dn' l l' dir fname up R S. pose proof (shuffled_ready open_file o l fname R l' S) as R'.
  destruct (resolve_assembled open_file (FDir dn l) o dn l dir fname up eq_refl R) as (s & Es & As).
  destruct (resolve_assembled open_file (FDir dn' l') o dn' l' dir fname up eq_refl R') as (s' & Es' & As').
  exists s, s'. split; [exact Es|]. split; [exact Es'|]. exact (assembled_same open_file o l fname R l' dir up s s' S As As').
Qed.
Print Assumptions C182_order.
Lemma same_each_refl l : (forall n s, In (FDir n s) l -> shuffled s s) -> same_each l l.
Proof.
  induction l as [|[n d|n s] r IH]; intros H; constructor.
  - apply IH. intros m s Hs. apply (H m). now right.
  - apply (H n). now left.
  - apply IH. intros m x Hx. apply (H m). now right.
Qed.
Example C182_example : shuffled map_dir (rev map_dir) /\ rev map_dir <> map_dir.
Proof.
  split; [|discriminate]. apply (shuf map_dir map_dir); [|apply Permutation_rev].
  apply same_each_refl. intros n s H. unfold map_dir in H. cbn [In] in H.
  destruct H as [H|[H|[H|[H|[H|[H|[]]]]]]]; inversion H; subst; clear H.
  - apply (shuf _ [FFile (txt "B.wz") [0; 88]]); [repeat constructor|apply Permutation_refl].
  - apply (shuf _ []); [constructor|apply Permutation_refl].
Qed.

(** *** C183 (false): the same without the condition that nothing is there twice.  Two pieces have a node of the same
    name: the one that is listed later wins.  A piece has a node that there is also a directory for: the directory wins if it is
    listed later and is left out if it is listed earlier. *)
Definition twice := [FFile (txt "M.wz") [0]; FFile (txt "M_1.wz") [0; 65]; FFile (txt "M_2.wz") [1; 65]].
Definition both_ways := [FFile (txt "M.wz") [0]; FFile (txt "M_1.wz") [0; 65]; FDir (txt "A") [FFile (txt "A.wz") [0]]].
Theorem C183_order_refuted :
  (exists l l' s s', shuffled l l' /\ NoDup (map ent_name l) /\
     resolve_dir demo any_opts (FDir [] l) [] (txt "M.wz") None = Ok s /\
     resolve_dir demo any_opts (FDir [] l') [] (txt "M.wz") None = Ok s' /\ ~ same_tree s s' /\
     l = twice) /\
  (exists l l' s s', shuffled l l' /\ NoDup (map ent_name l) /\
     resolve_dir demo any_opts (FDir [] l) [] (txt "M.wz") None = Ok s /\
     resolve_dir demo any_opts (FDir [] l') [] (txt "M.wz") None = Ok s' /\ ~ same_tree s s' /\
     l = both_ways).
Proof.
  split.
  - exists twice, [FFile (txt "M.wz") [0]; FFile (txt "M_2.wz") [1; 65]; FFile (txt "M_1.wz") [0; 65]].
    do 2 eexists. split; [|split; [nodup|]].
    { apply (shuf twice twice); [repeat constructor|]. constructor. apply perm_swap. }
    split; [vm_compute; reflexivity|]. split; [vm_compute; reflexivity|]. split; [|reflexivity].
    intros H. inversion H as [|? ? ? ? ? ? ? ? ? F _]; subst.
    destruct (F _ _ (or_introl eq_refl)) as (v & [E|[]] & T). inversion E; subst. inversion T.
  - exists both_ways, [FFile (txt "M.wz") [0]; FDir (txt "A") [FFile (txt "A.wz") [0]]; FFile (txt "M_1.wz") [0; 65]].
    do 2 eexists. split; [|split; [nodup|]].
    { apply (shuf both_ways both_ways); [|constructor; apply perm_swap]. repeat constructor.
      apply (shuf _ [FFile (txt "A.wz") [0]]); [repeat constructor|apply Permutation_refl]. }
    split; [vm_compute; reflexivity|]. split; [vm_compute; reflexivity|]. split; [|reflexivity].
    intros H. inversion H as [|? ? ? ? ? ? ? ? ? F _]; subst.
    destruct (F _ _ (or_introl eq_refl)) as (v & [E|[]] & T). inversion E; subst. inversion T.
Qed.
Print Assumptions C183_order_refuted.

(** *** C184: parents are right in every tree that comes out, so that links to Base.wz find it. *)
Lemma resolve_path_ok open_file o fs p up s : resolve_path open_file o fs p up = Ok s ->
  exists l, dir_at fs (removelast (p_names p)) = Some l /\
    resolve_dir open_file o (FDir [] l) (removelast (p_names p)) (last (p_names p) []) up = Ok s /\ p_names p <> [].
Proof.
  unfold resolve_path. destruct (p_names p) eqn:Ep; [discriminate|]. rewrite <- Ep.
  destruct (dir_at fs (removelast (p_names p))) as [dl|]; [|discriminate].
  destruct (read_dir _ _).
  - intros H. exists dl. rewrite Ep in *. split; [reflexivity|]. split; [exact H|discriminate].
  - destruct (find_file _ _); [|discriminate]. destruct (open_file o _) as [[[?| | |] ?]|]; discriminate.
Qed.
Lemma resolve_base_ok open_file version fs p s : resolve_base open_file version fs p = Ok s ->
  exists name at_ up patch keys kids root l m,
    resolve_path open_file (mkOpts version None None) fs p None = Ok (RFile name at_ up patch keys kids) /\
    dir_at fs root = Some l /\
    base_loop open_file (mkOpts version (Some patch) (Some keys)) l root at_ l kids = Ok m /\
    s = RFile name at_ up patch keys m.
Proof.
  unfold resolve_base. destruct (negb _); [discriminate|]. intros H. apply rbind_ok in H as (b & Rp & H).
  destruct b as [name at_ up patch keys kids|]; [|discriminate].
  destruct (removelast (p_names p)) as [|n0 r0] eqn:Ef; [discriminate|]. rewrite <- Ef in H.
  set (root := if text_eqb _ _ then _ else _) in H.
  destruct (read_dir fs (mkPath (p_abs p) root)) as [l|] eqn:Rd; [|discriminate].
  destruct (base_loop _ _ _ _ _ _ _) as [m| | |] eqn:L; try discriminate. inversion H; subst.
  exists name, at_, up, patch, keys, kids, root, l, m. split; [exact Rp|]. split; [|split; [exact L|reflexivity]].
  unfold read_dir in Rd. cbn [p_abs p_names] in Rd. destruct (p_abs p); [exact Rd|]. destruct root; [discriminate|exact Rd].
Qed.
Theorem C184_parents : forall open_file version fs p s, resolve_base open_file version fs p = Ok s ->
  linked s /\ up_of s = None.
Proof.
  intros open_file version fs p s H. apply resolve_base_ok in H as (name & at_ & up & patch & keys & kids & root & l & m & Rp & _ & L & ->).
  apply resolve_path_ok in Rp as (dl & _ & Rp & _). destruct (resolve_linked _ _ _ _ _ _ _ Rp) as [Lk Hu].
  split; [|exact Hu]. constructor.
  assert (I0 : forall x v, In (x, v) kids -> up_of v = Some at_ /\ linked v) by (inversion Lk; subst; assumption).
  assert (G : forall es kids, base_loop open_file (mkOpts version (Some patch) (Some keys)) l root at_ es kids = Ok m ->
    (forall x v, In (x, v) kids -> up_of v = Some at_ /\ linked v) -> forall x v, In (x, v) m -> up_of v = Some at_ /\ linked v).
  { clear. induction es as [|e r IH]; intros kids L I0; [cbn in L; inversion L; subst; exact I0|].
    apply base_step in L as [(s & _ & (d & sub & f & _ & Rs) & L)|L]; [|exact (IH _ L I0)].
    apply (IH _ L). intros x v Hin. apply put_kid_in in Hin as [[-> ->]|Hin]; [|exact (I0 x v Hin)].
    destruct (resolve_linked _ _ _ _ _ _ _ Rs). auto. }
  exact (G l kids L I0).
Qed.
Print Assumptions C184_parents.
(** Base/Base.wz lists M and N; M lies beside Base with a piece, N has no directory. *)
Definition inst : list fent :=
  [FDir (txt "Base") [FFile (txt "Base.wz") [0; 77; 78]];
   FDir (txt "M") [FFile (txt "M.wz") [0; 65]; FFile (txt "M_000.wz") [0; 66]];
   FFile (txt "readme.txt") []].
Definition base_path := mkPath true [txt "Base"; txt "Base.wz"].
Example C184_example : resolve_base demo (Some 1) inst base_path =
  Ok (RFile (txt "Base") [txt "Base"; txt "Base.wz"] None 83 7
    [(txt "M", RFile (txt "M") [txt "M"; txt "M.wz"] (Some [txt "Base"; txt "Base.wz"]) 83 7
       [(txt "A", RKid [txt "M"; txt "M.wz"] 65 [txt "M"; txt "M.wz"]);
        (txt "B", RKid [txt "M"; txt "M_000.wz"] 66 [txt "M"; txt "M.wz"])]);
     (txt "N", RKid [txt "Base"; txt "Base.wz"] 78 [txt "Base"; txt "Base.wz"])]).
Proof. vm_compute. reflexivity. Qed.

(** *** C185: nothing is made up: every node of the tree is a file of the installation, or was read from one under its own
    name.  Packages found beside Base.wz are opened with the version and the keys of Base.wz, and only for names Base.wz has. *)
Theorem C185_sources : forall open_file version fs p s, resolve_base open_file version fs p = Ok s ->
  exists name at_ patch keys kids m, s = RFile name at_ None patch keys m /\
    from_disk open_file (mkOpts version None None) fs name (RFile name at_ None patch keys kids) /\
    (forall x v, In (x, v) m -> In (x, v) kids \/ from_disk open_file (mkOpts version (Some patch) (Some keys)) fs x v) /\
    (forall x, In x (map fst m) <-> In x (map fst kids)).
Proof.
  intros open_file version fs p s H. apply resolve_base_ok in H as (name & at_ & up & patch & keys & kids & root & l & m & Rp & Hd & L & ->).
  apply resolve_path_ok in Rp as (dl & Hdl & Rp & _).
  assert (up = None) by (destruct (resolve_linked _ _ _ _ _ _ _ Rp) as [_ Hu]; exact Hu). subst up.
  exists name, at_, patch, keys, kids, m. split; [reflexivity|]. split.
  { eapply resolve_from_disk; [exact Rp|]. intros dn l0 E y d Hy. inversion E; subst. eapply dir_at_lies; eauto. }
  assert (G : forall es k0, incl es l -> base_loop open_file (mkOpts version (Some patch) (Some keys)) l root at_ es k0 = Ok m ->
    (forall x v, In (x, v) k0 -> In (x, v) kids \/ from_disk open_file (mkOpts version (Some patch) (Some keys)) fs x v) ->
    (forall x, In x (map fst k0) <-> In x (map fst kids)) ->
    (forall x v, In (x, v) m -> In (x, v) kids \/ from_disk open_file (mkOpts version (Some patch) (Some keys)) fs x v) /\
    (forall x, In x (map fst m) <-> In x (map fst kids))).
  { clear - Hd. induction es as [|e r IH]; intros k0 Hi L I0 N0; [cbn in L; inversion L; subst; auto|].
    assert (Hr : incl r l) by (intros y Hy; apply Hi; now right).
    apply base_step in L as [(s & Ka & (d & sub & f & Pk & Rs) & L)|L]; [|exact (IH _ Hr L I0 N0)].
    apply (IH _ Hr L).
    - intros x v Hin. apply put_kid_in in Hin as [[-> ->]|Hin]; [|exact (I0 x v Hin)]. right.
      eapply resolve_from_disk; [exact Rs|]. intros dn l0 E y dd Hy. inversion E; subst.
      assert (Hie : In e l) by (apply Hi; now left). destruct Pk as [n name x S En|n name sub S].
      + eapply dir_at_lies; eauto.
      + rewrite <- app_assoc. eapply dir_at_lies; [exact Hd|]. cbn [app]. eapply lies_in; eauto.
    - intros x. rewrite put_kid_names, <- N0. split; [|now right]. intros [->|Hx]; [|exact Hx].
      destruct (in_dec (list_eq_dec Z.eq_dec) (stem (ent_name e)) (map fst k0)) as [Y|Y]; [exact Y|].
      apply kid_at_none in Y. congruence. }
  apply (G l kids (incl_refl _) L); [auto|reflexivity].
Qed.
Print Assumptions C185_sources.
Example C185_example : exists s, resolve_base demo (Some 1) inst base_path = Ok s /\
  lies inst [txt "M"; txt "M_000.wz"] [0; 66] /\ demo (mkOpts (Some 1) (Some 83) (Some 7)) [0; 66] = Some (Ok [(txt "B", 66)], (83, 7)).
Proof.
  eexists. split; [vm_compute; reflexivity|]. split; [|reflexivity].
  apply (lies_in _ _ [FFile (txt "M.wz") [0; 65]; FFile (txt "M_000.wz") [0; 66]]); [right; now left|]. constructor. right. now left.
Qed.

(** *** C186: a tidy installation is put together completely. *)
Theorem C186_base : forall open_file version fs abs first root lb l data own patch keys,
  let o1 := mkOpts version None None in
  let o2 := mkOpts version (Some patch) (Some keys) in
  let base := first ++ [txt "Base.wz"] in
  first <> [] -> dir_at fs first = Some lb -> ready open_file o1 lb (txt "Base.wz") ->
  In (FFile (txt "Base.wz") data) lb -> open_file o1 data = Some (Ok own, (patch, keys)) ->
  (stem_of (last first []) (txt "Base") /\ root = removelast first \/ ~ stem_of (last first []) (txt "Base") /\ root = first) ->
  (abs = true \/ root <> []) -> dir_at fs root = Some l -> NoDup (map ent_name l) ->
  let listed k := In k (map fst own) \/ exists f w, offers open_file o1 lb f k w in
  (forall e n d sub f, In e l -> package_at root l e n d sub f -> listed n -> ready open_file o2 sub f) ->
  (forall e e' n d sub f d' sub' f', In e l -> In e' l -> package_at root l e n d sub f -> package_at root l e' n d' sub' f' ->
     listed n -> e = e') ->
  exists kids m,
    resolve_base open_file version fs (mkPath abs base) = Ok (RFile (txt "Base") base None patch keys m) /\
    assembled open_file o1 first lb (txt "Base.wz") None (RFile (txt "Base") base None patch keys kids) /\
    NoDup (map fst m) /\ (forall k, In k (map fst m) <-> listed k) /\
    (forall e n d sub f, In e l -> package_at root l e n d sub f -> listed n ->
       exists s, In (n, s) m /\ assembled open_file o2 d sub f (Some base) s) /\
    (forall k v, In (k, v) kids -> (forall e d sub f, In e l -> ~ package_at root l e k d sub f) -> In (k, v) m).
Proof.
  intros open_file version fs abs first root lb l data own patch keys o1 o2 base Nf Hlb Rb Hin Op Hroot Habs Hl Nl listed Rd Un.
  destruct (resolve_assembled open_file (FDir [] lb) o1 [] lb first (txt "Base.wz") None eq_refl Rb) as (b & Es & As).
  pose proof As as As'. inversion As' as [d1 l1 f1 u1 data1 kids1 p1 k1 m1 n1 me1 I1 O1 S1 N1 A1 B1 C1 E1]; subst.
  assert (Nlb : NoDup (map ent_name lb)) by (inversion Rb; assumption).
  assert (data1 = data).
  { assert (X : FFile (txt "Base.wz") data1 = FFile (txt "Base.wz") data) by (apply (in_one_name lb); auto). now inversion X. }
  subst data1. rewrite Op in O1. inversion O1; subst kids1 p1 k1. clear O1.
  apply stem_of_stem in S1. change (stem (txt "Base.wz")) with (txt "Base") in S1. subst n1.
  assert (Lm : forall k, In k (map fst m1) <-> listed k).
  { intros k. split; [apply E1|]. intros Lk.
    destruct (offered_dec open_file o1 lb k) as [(f & w & Of)|NOf].
    { apply A1 in Of. apply (in_map fst) in Of. exact Of. }
    destruct Lk as [Hk|(f & w & Of)]; [|now elim (NOf f w)].
    destruct (dir_dec lb k) as [(sub & Hd)|ND].
    - destruct (B1 k sub Hd Hk) as (s & Hs & _). apply (in_map fst) in Hs. exact Hs.
    - apply in_map_iff in Hk as ((k' & w) & E & Hk). cbn in E. subst k'.
      pose proof (C1 k w Hk NOf ND) as X. apply (in_map fst) in X. exact X. }
  assert (Nl' : NoDup l) by (clear - Nl; induction l as [|e r IH]; [constructor|]; inversion Nl; subst; constructor; [intros H; apply (in_map ent_name) in H; auto|auto]).
  destruct (base_assembled open_file o2 root l base l [] m1 eq_refl N1 (map fst m1) m1) as (m & L & Nm & D & A & B).
  - intros e n d sub f He P Ln. apply (Rd e n d sub f He P). now apply Lm.
  - intros e e' n d sub f d' sub' f' He He' P P' Ln. apply (Un e e' n d sub f d' sub' f'); auto. now apply Lm.
  - exact Nl'.
  - reflexivity.
  - intros e n d sub f [].
  - auto.
  - exists m1, m. split; [|split; [exact As|split; [exact Nm|split; [|split; [|exact B]]]]].
    + assert (RB : removelast base = first) by (unfold base; apply removelast_last).
      assert (LB : last base [] = txt "Base.wz") by (unfold base; apply last_last).
      assert (NB : base <> []) by (unfold base; destruct first; discriminate).
      change me1 with base in Es. clearbody base. clear - RB LB NB Es L Hlb Hl Hroot Habs Nf.
      unfold resolve_base. cbn [p_names p_abs]. rewrite LB, text_eqb_refl. cbn [negb].
      assert (E1' : resolve_path open_file o1 fs (mkPath abs base) None = Ok (RFile (txt "Base") base None patch keys m1)).
      { unfold resolve_path. cbn [p_names p_abs]. rewrite RB, LB, Hlb. unfold read_dir. cbn [p_names p_abs].
        destruct base; [now elim NB|]. destruct abs; [now rewrite Hlb|].
        destruct first; [now elim Nf|]. rewrite Hlb. exact Es. }
      fold o1. rewrite E1'. cbn [rbind]. rewrite RB.
      destruct first as [|x y]; [now elim Nf|].
      set (root' := if text_eqb _ _ then _ else _).
      assert (root' = root).
      { unfold root'. destruct (text_eqb _ _) eqn:X.
        - apply text_eqb_eq in X. destruct Hroot as [[_ ->]|[Hn _]]; [reflexivity|]. exfalso. apply Hn. rewrite <- X. apply stem_spec.
        - destruct Hroot as [[Hs _]|[_ ->]]; [|reflexivity]. apply stem_of_stem in Hs. rewrite <- Hs, text_eqb_refl in X. discriminate X. }
      clearbody root'. subst root'. unfold read_dir. cbn [p_names p_abs].
      assert (X : match abs, root with false, [] => None | _, _ => dir_at fs root end = Some l).
      { destruct abs; [exact Hl|]. destruct root; [destruct Habs as [H|H]; [discriminate H|now elim H]|exact Hl]. }
      rewrite X. fold o2. rewrite L. reflexivity.
    + intros k. rewrite D. apply Lm.
    + intros e n d sub f He P Ln. apply (A e n d sub f He P). now apply Lm.
Qed.
Print Assumptions C186_base.
Lemma no_offer_base o data f k w : ~ offers demo o [FFile (txt "Base.wz") data] f k w.
Proof.
  intros (d & ks & H & P & _). destruct H as [H|[]]. inversion H; subst. revert P. now apply piece_no.
Qed.
Lemma m_offers o f k w : offers demo o [FFile (txt "M.wz") [0; 65]; FFile (txt "M_000.wz") [0; 66]] f k w -> f = txt "M_000.wz".
Proof.
  intros (d & ks & H & P & _). cbn [In] in H. destruct H as [H|[H|[]]]; inversion H; subst; [|reflexivity].
  exfalso. revert P. now apply piece_no.
Qed.
(** The conditions hold for the installation of C184_example, whose tree is shown there. *)
Example C186_example :
  ready demo (mkOpts (Some 1) None None) [FFile (txt "Base.wz") [0; 77; 78]] (txt "Base.wz") /\
  (forall e n d sub f, In e inst -> package_at [] inst e n d sub f ->
     In n [txt "M"; txt "N"] \/ (exists g w, offers demo (mkOpts (Some 1) None None) [FFile (txt "Base.wz") [0; 77; 78]] g n w) ->
     d = [txt "M"] /\ f = txt "M.wz" /\ ready demo (mkOpts (Some 1) (Some 83) (Some 7)) sub f).
Proof.
  split.
  - apply (ready_dir _ _ _ _ [0; 77; 78] [([77], 77); ([78], 78)]).
    + nodup.
    + now left.
    + now eexists.
    + nodup.
    + intros f d H P. destruct H as [H|[]]. inversion H; subst. exfalso. revert P. now apply piece_no.
    + intros f g k w w' H. now apply no_offer_base in H.
    + intros f k w sub H. now apply no_offer_base in H.
    + intros n sub [H|[]]. discriminate H.
  - intros e n d sub f He P [Ln|(g & w & H)]; [|now apply no_offer_base in H].
    unfold inst in He. cbn [In] in He. destruct He as [<-|[<-|[<-|[]]]]; inversion P as [n0 nm x Sn E|n0 nm s0 Sn]; subst.
    + exfalso. apply stem_of_stem in Sn. vm_compute in Sn. subst n. cbn in Ln. intuition discriminate.
    + apply stem_of_stem in Sn. split; [reflexivity|]. split; [reflexivity|].
      apply (ready_dir _ _ _ _ [0; 65] [([65], 65)]).
      * nodup.
      * now left.
      * now eexists.
      * nodup.
      * intros f d H Pn. cbn [In] in H. destruct H as [H|[H|[]]]; inversion H; subst.
        -- exfalso. revert Pn. now apply piece_no.
        -- do 2 eexists. split; [reflexivity|]. left. eexists. split; [reflexivity|]. nodup.
      * intros f g k w w' H1 H2. apply m_offers in H1, H2. congruence.
      * intros f k w sub _ [H|[H|[]]]; discriminate H.
      * intros m sub [H|[H|[]]]; discriminate H.
    + exfalso. apply stem_of_stem in Sn. vm_compute in Sn. subst n. cbn in Ln. intuition discriminate.
Qed.

(** *** C187 (false): a directory that Base.wz lists but that has no package of that name leaves the node as it is. *)
Theorem C187_missing_refuted : exists fs p base, lies fs (p_names p) base /\ In (FDir (txt "M") []) fs /\
  forall open_file w pk, open_file any_opts base = Some (Ok [(txt "M", w)], pk) ->
    resolve_base open_file None fs p = Panic.
Proof.
  exists [FDir (txt "Base") [FFile (txt "Base.wz") [0; 77]]; FDir (txt "M") []], base_path, [0; 77].
  split; [eapply lies_in; [now left|]; constructor; now left|]. split; [right; now left|].
  intros open_file w [patch keys] H. unfold resolve_base. cbn -[resolve_path].
  unfold resolve_path. cbn. unfold any_opts in H. rewrite H. reflexivity.
Qed.
Print Assumptions C187_missing_refuted.
(** Not listed, it is left alone. *)
Example C187_example : resolve_base demo None [FDir (txt "Base") [FFile (txt "Base.wz") [0; 78]]; FDir (txt "M") []] base_path =
  Ok (RFile (txt "Base") [txt "Base"; txt "Base.wz"] None 83 7
    [(txt "N", RKid [txt "Base"; txt "Base.wz"] 78 [txt "Base"; txt "Base.wz"])]).
Proof. vm_compute. reflexivity. Qed.

(** *** C188 (false): files that are not packages are ignored.  Only the end of the name is looked at, not the extension. *)
Theorem C188_stray_refuted : exists fs p base stray name, lies fs (p_names p) base /\ lies fs [txt "Base"; name] stray /\
  (forall s, name <> s ++ txt ".wz") /\
  forall open_file kids pk, open_file any_opts base = Some (Ok kids, pk) -> open_file any_opts stray = None ->
    resolve_base open_file None fs p = Panic.
Proof.
  exists [FDir (txt "Base") [FFile (txt "Base.wz") [0; 77]; FFile (txt "notes_1.txt") [1]]], base_path, [0; 77], [1], (txt "notes_1.txt").
  split; [eapply lies_in; [now left|]; constructor; now left|].
  split; [eapply lies_in; [now left|]; constructor; right; now left|]. split.
  { intros s E. apply (f_equal (@rev Z)) in E. rewrite rev_app_distr in E. cbn in E. discriminate E. }
  intros open_file kids [patch keys] H S. unfold resolve_base. cbn -[resolve_path].
  unfold resolve_path. cbn -[put_kids]. unfold any_opts in H, S. rewrite H, S. reflexivity.
Qed.
Print Assumptions C188_stray_refuted.
(** Another name, and it is ignored. *)
Example C188_example : resolve_base demo None [FDir (txt "Base") [FFile (txt "Base.wz") [0; 77]; FFile (txt "notes_a.txt") []]] base_path =
  Ok (RFile (txt "Base") [txt "Base"; txt "Base.wz"] None 83 7
    [(txt "M", RKid [txt "Base"; txt "Base.wz"] 77 [txt "Base"; txt "Base.wz"])]).
Proof. vm_compute. reflexivity. Qed.

(** *** C189 (false): only pieces of the package's own series go into it.  With all packages in one directory, a piece of
    Mob.wz ends up in Map.wz and in Base.wz as well. *)
Theorem C189_series_refuted : exists fs p base map_ piece, lies fs (p_names p) base /\
  lies fs [txt "g"; txt "Map.wz"] map_ /\ lies fs [txt "g"; txt "Mob_1.wz"] piece /\
  forall open_file, let o2 := mkOpts None (Some 83) (Some 7) in
    open_file any_opts base = Some (Ok [(txt "Map", 1)], (83, 7)) -> open_file o2 map_ = Some (Ok [], (83, 7)) ->
    open_file any_opts piece = Some (Ok [(txt "x", 2)], (83, 7)) -> open_file o2 piece = Some (Ok [(txt "x", 2)], (83, 7)) ->
    exists n a u v k kids n' a' u' v' k' u1 u2, resolve_base open_file None fs p = Ok (RFile n a u v k kids) /\
      In (txt "x", RKid [txt "g"; txt "Mob_1.wz"] 2 u1) kids /\
      In (txt "Map", RFile n' a' u' v' k' [(txt "x", RKid [txt "g"; txt "Mob_1.wz"] 2 u2)]) kids.
Proof.
  exists [FDir (txt "g") [FFile (txt "Base.wz") [0]; FFile (txt "Map.wz") [1]; FFile (txt "Mob_1.wz") [2]]],
    (mkPath true [txt "g"; txt "Base.wz"]), [0], [1], [2].
  split; [eapply lies_in; [now left|]; constructor; now left|].
  split; [eapply lies_in; [now left|]; constructor; right; now left|].
  split; [eapply lies_in; [now left|]; constructor; right; right; now left|].
  intros open_file o2 H1 H2 H3 H4. do 13 eexists. split.
  - unfold resolve_base. cbn -[resolve_path]. unfold resolve_path. cbn. unfold any_opts, o2 in *. rewrite H1. cbn. rewrite H3. cbn.
    rewrite H2. cbn. rewrite H4. cbn. reflexivity.
  - split; [right; now left|now left].
Qed.
Print Assumptions C189_series_refuted.
(** Each series in a directory of its own is safe: the example of C184, where M_000.wz is in M only. *)
Example C189_example : resolve_base demo None
    [FDir (txt "g") [FFile (txt "Base.wz") [0; 77]; FFile (txt "M.wz") [0]; FFile (txt "N_1.wz") [0; 66]]] (mkPath true [txt "g"; txt "Base.wz"]) =
  Ok (RFile (txt "Base") [txt "g"; txt "Base.wz"] None 83 7
    [(txt "M", RFile (txt "M") [txt "g"; txt "M.wz"] (Some [txt "g"; txt "Base.wz"]) 83 7
       [(txt "B", RKid [txt "g"; txt "N_1.wz"] 66 [txt "g"; txt "M.wz"])]);
     (txt "B", RKid [txt "g"; txt "N_1.wz"] 66 [txt "g"; txt "Base.wz"])]).
Proof. vm_compute. reflexivity. Qed.

(** *** C190 (false): a piece that cannot be read is reported.  The result is the one without the piece. *)
Theorem C190_piece_error_refuted : exists l piece name, In (FFile name piece) l /\ piece_name name /\
  forall open_file o e pk own, open_file o piece = Some (Err e, pk) -> open_file o [0] = Some (Ok own, (83, 7)) ->
    resolve_dir open_file o (FDir [] l) [] (txt "M.wz") None =
      resolve_dir open_file o (FDir [] (removelast l)) [] (txt "M.wz") None /\
    last l (FDir [] []) = FFile name piece /\
    exists s, resolve_dir open_file o (FDir [] l) [] (txt "M.wz") None = Ok s.
Proof.
  exists [FFile (txt "M.wz") [0]; FFile (txt "M_000.wz") [255]], [255], (txt "M_000.wz").
  split; [right; now left|]. split; [now apply is_piece_spec|].
  intros open_file o e pk own H1 H2. cbn -[put_kids]. rewrite H2. cbn -[put_kids]. rewrite H1. split; [reflexivity|]. split; [reflexivity|].
  eexists. reflexivity.
Qed.
Print Assumptions C190_piece_error_refuted.
Example C190_example : resolve_dir demo any_opts (FDir [] [FFile (txt "M.wz") [0; 65]; FFile (txt "M_000.wz") [255; 66]]) [] (txt "M.wz") None =
  Ok (RFile (txt "M") [txt "M.wz"] None 83 7 [(txt "A", RKid [txt "M.wz"] 65 [txt "M.wz"])]).
Proof. vm_compute. reflexivity. Qed.

(** *** C191 (false): any path of an existing Base.wz will do.  A relative one needs a directory in front, and another one
    if that is called Base; at the top of the file system there is a panic. *)
Theorem C191_paths_refuted :
  (exists fs p base, lies fs (p_names p) base /\ p_names p = [txt "Base.wz"] /\ p_abs p = false /\
     forall open_file pk, open_file any_opts base = Some (Ok [], pk) -> resolve_base open_file None fs p = Err (EOther 60)) /\
  (exists fs p base, lies fs (p_names p) base /\ p_names p = [txt "Base"; txt "Base.wz"] /\ p_abs p = false /\
     forall open_file pk, open_file any_opts base = Some (Ok [], pk) -> resolve_base open_file None fs p = Err (EOther 60)) /\
  (exists fs p base, lies fs (p_names p) base /\ p_names p = [txt "Base.wz"] /\ p_abs p = true /\
     forall open_file pk, open_file any_opts base = Some (Ok [], pk) -> resolve_base open_file None fs p = Panic).
Proof.
  split; [|split].
  - exists [FFile (txt "Base.wz") [0]], (mkPath false [txt "Base.wz"]), [0]. split; [constructor; now left|].
    split; [reflexivity|]. split; [reflexivity|]. intros open_file [a b] H. unfold resolve_base. cbn -[resolve_path]. unfold resolve_path. cbn.
    unfold any_opts in H. rewrite H. reflexivity.
  - exists [FDir (txt "Base") [FFile (txt "Base.wz") [0]]], (mkPath false [txt "Base"; txt "Base.wz"]), [0].
    split; [eapply lies_in; [now left|]; constructor; now left|].
    split; [reflexivity|]. split; [reflexivity|]. intros open_file [a b] H. unfold resolve_base. cbn -[resolve_path]. unfold resolve_path. cbn.
    unfold any_opts in H. rewrite H. reflexivity.
  - exists [FFile (txt "Base.wz") [0]], (mkPath true [txt "Base.wz"]), [0]. split; [constructor; now left|].
    split; [reflexivity|]. split; [reflexivity|]. intros open_file [a b] H. unfold resolve_base. cbn -[resolve_path]. unfold resolve_path. cbn.
    unfold any_opts in H. rewrite H. reflexivity.
Qed.
Print Assumptions C191_paths_refuted.
(** game/Base/Base.wz is fine. *)
Example C191_example : resolve_base demo None [FDir (txt "game") [FDir (txt "Base") [FFile (txt "Base.wz") [0]]]]
    (mkPath false [txt "game"; txt "Base"; txt "Base.wz"]) =
  Ok (RFile (txt "Base") [txt "game"; txt "Base"; txt "Base.wz"] None 83 7 []).
Proof. vm_compute. reflexivity. Qed.

(** *** C192 (false): a package is taken from the directory with its name.  Beside Base, the extension of a directory does not
    count: a directory Map.bak panics, or takes the place of Map if it has a file Map.bak.wz and is listed later. *)
Theorem C192_backup_refuted :
  (exists fs, In (FDir (txt "M.bak") [FFile (txt "M.wz") [1]]) fs /\ In (FDir (txt "M") [FFile (txt "M.wz") [1]]) fs /\
     forall open_file w, (forall o, open_file o [0] = Some (Ok [(txt "M", w)], (83, 7))) ->
       (forall o, open_file o [1] = Some (Ok [], (83, 7))) -> resolve_base open_file None fs base_path = Panic) /\
  (exists fs, In (FDir (txt "M") [FFile (txt "M.wz") [1]]) fs /\
     forall open_file w, (forall o, open_file o [0] = Some (Ok [(txt "M", w)], (83, 7))) ->
       (forall o, open_file o [1] = Some (Ok [], (83, 7))) ->
     exists n a u v k n' u' v' k' kids, resolve_base open_file None fs base_path =
       Ok (RFile n a u v k [(txt "M", RFile n' [txt "M.bak"; txt "M.bak.wz"] u' v' k' kids)])).
Proof.
  split.
  - exists [FDir (txt "Base") [FFile (txt "Base.wz") [0]]; FDir (txt "M") [FFile (txt "M.wz") [1]]; FDir (txt "M.bak") [FFile (txt "M.wz") [1]]].
    split; [right; right; now left|]. split; [right; now left|]. intros open_file w H1 H2.
    unfold resolve_base. cbn -[resolve_path]. unfold resolve_path. cbn. rewrite H1. cbn. rewrite H2. reflexivity.
  - exists [FDir (txt "Base") [FFile (txt "Base.wz") [0]]; FDir (txt "M") [FFile (txt "M.wz") [1]]; FDir (txt "M.bak") [FFile (txt "M.bak.wz") [1]]].
    split; [right; now left|]. intros open_file w H1 H2. do 10 eexists.
    unfold resolve_base. cbn -[resolve_path]. unfold resolve_path. cbn. rewrite H1. cbn. rewrite H2. cbn. rewrite ?H2. cbn. reflexivity.
Qed.
Print Assumptions C192_backup_refuted.
(** Without the copy the tree is as wanted. *)
Example C192_example : resolve_base demo None [FDir (txt "Base") [FFile (txt "Base.wz") [0; 77]]; FDir (txt "M") [FFile (txt "M.wz") [1]]] base_path =
  Ok (RFile (txt "Base") [txt "Base"; txt "Base.wz"] None 83 7
    [(txt "M", RFile (txt "M") [txt "M"; txt "M.wz"] (Some [txt "Base"; txt "Base.wz"]) 83 7 [])]).
Proof. vm_compute. reflexivity. Qed.
