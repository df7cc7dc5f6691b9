(** Theorems about the node tree: paths, links, moving, walking. *)
From Coq Require Import ZArith List Bool Lia Arith.
From Coq Require String.
Import String.StringSyntax.
From Verif.Model Require Import Base Utf Image Node.
From Verif.Spec Require Import PathSpec Tree.
From Verif.Proofs Require Import ImageL NodeL UolL WalkL MoveL LookL.
Local Open Scope string_scope.
Local Open Scope Z_scope.

(** A small archive: Base (0) / dir (1) / a.img (2) / x (3) / y (4), and a.img/z (5). *)
Definition mem (l : list (id * cell)) : heap := fun i =>
  match find (fun e => fst e =? i) l with Some e => Some (snd e) | None => None end.
Definition demo : heap := mem
  [(0, mkCell (txt "Base") (KFile true) None [(txt "dir", 1)]);
   (1, mkCell (txt "dir") (KDir true) (Some 0) [(txt "a.img", 2)]);
   (2, mkCell (txt "a.img") (KImage true) (Some 1) [(txt "x", 3); (txt "z", 5)]);
   (3, mkCell (txt "x") (KOther 0) (Some 2) [(txt "y", 4)]);
   (4, mkCell (txt "y") (KOther 1) (Some 3) []);
   (5, mkCell (txt "z") (KOther 2) (Some 2) [])].

Ltac cell := eexists; split; [reflexivity|].
Ltac slot_tac := eexists; split; [reflexivity|]; split; [repeat constructor; cbn; intuition discriminate|cbn; tauto].
Ltac name_tac := split; [discriminate|cbn; intuition discriminate].
Ltac child_tac := split; [eexists; repeat split; reflexivity|eexists; reflexivity].
Ltac hang_one q n j := apply (hangs_child _ _ q n _ j); [|name_tac|child_tac|slot_tac].

Lemma demo_root : rootless demo 0.
Proof. cell. discriminate. Qed.
Lemma demo_dir : hangs demo 0 [txt "dir"] 1.
Proof. hang_one (@nil text) (txt "dir") 0. econstructor. reflexivity. Qed.
Lemma demo_img : hangs demo 0 [txt "dir"; txt "a.img"] 2.
Proof. hang_one [txt "dir"] (txt "a.img") 1. exact demo_dir. Qed.
Lemma demo_x : hangs demo 0 [txt "dir"; txt "a.img"; txt "x"] 3.
Proof. hang_one [txt "dir"; txt "a.img"] (txt "x") 2. exact demo_img. Qed.
Lemma demo_y : hangs demo 0 [txt "dir"; txt "a.img"; txt "x"; txt "y"] 4.
Proof. hang_one [txt "dir"; txt "a.img"; txt "x"] (txt "y") 3. exact demo_x. Qed.
Lemma demo_z : hangs demo 0 [txt "dir"; txt "a.img"; txt "z"] 5.
Proof. hang_one [txt "dir"; txt "a.img"] (txt "z") 2. exact demo_img. Qed.
Lemma demo_xy : hangs demo 2 [txt "x"; txt "y"] 4.
Proof. hang_one [txt "x"] (txt "y") 3. hang_one (@nil text) (txt "x") 2. econstructor. reflexivity. Qed.

(** * Paths *)

(** The path of a node below the root, looked up from the root, is that node. *)
Theorem C25_path_leads_back : forall h root p i, rootless h root -> hangs h root p i -> p <> [] ->
  forall fuel, (length p <= fuel)%nat ->
  get_path_from_root fuel h i = Ok (joined p) /\ at_path h root (joined p) = Some i.
Proof.
  intros h root p i R H P fuel Hf. split; [apply (root_path_ok h root); assumption|].
  rewrite at_path_join; [|exact P|apply (hangs_plain _ _ _ _ H)]. apply hangs_fold, H.
Qed.
Print Assumptions C25_path_leads_back.

Example C25_ex : get_path_from_root 9 demo 4 = Ok (txt "dir/a.img/x/y") /\
  at_path demo 0 (txt "dir/a.img/x/y") = Some 4.
Proof.
  destruct (C25_path_leads_back _ _ _ _ demo_root demo_y ltac:(discriminate) 9 ltac:(cbn; lia)) as [A B].
  split; [exact A|exact B].
Qed.

(** The full path is the root's name, then the path; different nodes have different full paths. *)
Theorem C25_full_path : forall h root p i c, rootless h root -> hangs h root p i -> h root = Some c ->
  forall fuel, (length p <= fuel)%nat -> get_full_path fuel h i = Ok (joined (nd_name c :: p)).
Proof. intros. apply full_path_ok with (r := root); assumption. Qed.
Print Assumptions C25_full_path.

Theorem C25_full_paths_differ : forall h root p q i j, rootless h root ->
  hangs h root p i -> hangs h root q j -> i <> j ->
  forall fuel, (length p <= fuel)%nat -> (length q <= fuel)%nat ->
  get_full_path fuel h i <> get_full_path fuel h j.
Proof.
  intros h root p q i j R Hi Hj N fuel Lp Lq. destruct (hangs_top_alive _ _ _ _ Hi) as [c E].
  rewrite (full_path_ok _ _ _ _ _ R Hi E _ Lp), (full_path_ok _ _ _ _ _ R Hj E _ Lq). intro J0.
  assert (J : joined (nd_name c :: p) = joined (nd_name c :: q)) by congruence. clear J0. apply N.
  assert (p = q).
  { destruct (hangs_plain _ _ _ _ Hi) as [Pp _], (hangs_plain _ _ _ _ Hj) as [Pq _].
    assert (T : forall a b : text, a ++ b = a -> b = []).
    { intros a b X. apply (app_inv_head a). rewrite app_nil_r. exact X. }
    destruct p as [|a p], q as [|b q]; [reflexivity|exfalso..|].
    - rewrite (joined_cons (nd_name c) (b :: q)) in J by discriminate. symmetry in J. apply T in J. discriminate.
    - rewrite (joined_cons (nd_name c) (a :: p)) in J by discriminate. apply T in J. discriminate.
    - rewrite !(joined_cons (nd_name c)) in J by discriminate. apply app_inv_head in J. injection J as J.
      apply joined_inj; [discriminate..|exact Pp|exact Pq|exact J]. }
  subst q. apply hangs_fold in Hi. apply hangs_fold in Hj. congruence.
Qed.
Print Assumptions C25_full_paths_differ.

Example C25_ex_full : get_full_path 9 demo 4 = Ok (txt "Base/dir/a.img/x/y") /\
  get_full_path 9 demo 4 <> get_full_path 9 demo 5.
Proof.
  split; [exact (C25_full_path _ _ _ _ _ demo_root demo_y eq_refl 9 ltac:(cbn; lia))|].
  apply (C25_full_paths_differ _ _ _ _ _ _ demo_root demo_y demo_z); [discriminate|cbn; lia..].
Qed.

(** Not so for the root itself, whose path is empty, and for names with a slash. *)
Theorem C77_root_path_refuted : exists h root s, rootless h root /\ proper h root /\
  get_path_from_root 9 h root = Ok s /\ at_path h root s <> Some root.
Proof.
  exists demo, 0, []. split; [exact demo_root|]. split; [|split; [reflexivity|discriminate]].
  intros p i n k _ (c & E & _ & I). unfold demo, mem in E.
  repeat (cbn [find fst snd] in E;
    match type of E with context [if ?a =? ?b then _ else _] => destruct (Z.eqb_spec a b) as [<-|_] end;
    [injection E as <-; cbn [nd_slots] in I; repeat (destruct I as [[= <- <-]|I]; [split; [name_tac|child_tac]|]); contradiction|]).
  discriminate.
Qed.
Print Assumptions C77_root_path_refuted.

Theorem C77_slash_name_refuted : exists h root n i s, rootless h root /\ child_of h n i root /\ slot h root n i /\
  get_path_from_root 9 h i = Ok s /\ at_path h root s <> Some i.
Proof.
  exists (mem [(0, mkCell (txt "r") (KOther 0) None [(txt "a/b", 1)]); (1, mkCell (txt "a/b") (KOther 0) (Some 0) [])]),
    0, (txt "a/b"), 1, (txt "a/b").
  split; [cell; discriminate|]. split; [child_tac|]. split; [slot_tac|]. split; [reflexivity|discriminate].
Qed.
Print Assumptions C77_slash_name_refuted.

(** '..' as often as the descent is long comes back to where it started. *)
Theorem C26_climb : forall h a q i, hangs h a q i -> q <> [] ->
  at_path_relative h i (joined (repeat dd (length q))) = Some a.
Proof.
  intros h a q i H Q. rewrite at_rel_join; [apply climb, H|destruct q; [contradiction|discriminate]|apply plain_dots].
Qed.
Print Assumptions C26_climb.

(** Climbing and then going down is looking the names up from the ancestor. *)
Theorem C26_climb_and_descend : forall h a q i names, hangs h a q i -> names <> [] ->
  Forall (fun n => ~ In 47 n /\ n <> dd) names ->
  at_path_relative h i (joined (repeat dd (length q) ++ names)) = at_path h a (joined names).
Proof.
  intros h a q i names H N F.
  assert (P : plain names) by (eapply Forall_impl; [|exact F]; intros x X; apply X).
  rewrite at_rel_join; [|intro E; apply app_eq_nil in E as [_ E]; contradiction|apply plain_app; split; [apply plain_dots|exact P]].
  rewrite fold_app, (climb _ _ _ _ H), rel_names, at_path_join; [reflexivity|exact N|exact P|].
  eapply Forall_impl; [|exact F]. intros x X. apply X.
Qed.
Print Assumptions C26_climb_and_descend.

(** Beyond the root there is nothing. *)
Theorem C26_beyond_root : forall h a q i names m, rootless h a -> hangs h a q i -> (length q < m)%nat ->
  plain names -> at_path_relative h i (joined (repeat dd m ++ names)) = None.
Proof.
  intros h a q i names m R H L P.
  rewrite at_rel_join; [|destruct m; [lia|discriminate]|apply plain_app; split; [apply plain_dots|exact P]].
  replace m with (length q + S (m - length q - 1))%nat by lia. rewrite repeat_app, <- app_assoc, fold_app, (climb _ _ _ _ H).
  cbn [repeat app try_fold]. unfold at_relative at 1. cbn [text_eqb dd Z.eqb Pos.eqb andb].
  rewrite (root_parent _ _ R). reflexivity.
Qed.
Print Assumptions C26_beyond_root.

Example C26_ex : at_path_relative demo 4 (txt "../..") = Some 2 /\
  at_path_relative demo 4 (txt "../../z") = Some 5 /\
  at_path_relative demo 4 (txt "../../../../../dir") = None.
Proof.
  split; [exact (C26_climb _ _ _ _ demo_xy ltac:(discriminate))|]. split.
  - assert (Z := C26_climb_and_descend _ _ _ _ [txt "z"] demo_xy ltac:(discriminate)). cbn [length repeat] in Z.
    etransitivity; [apply Z|reflexivity]. repeat constructor; cbn; intuition discriminate.
  - assert (Z := C26_beyond_root _ _ _ _ [txt "dir"] 5 demo_root demo_y ltac:(cbn; lia)). apply Z.
    repeat constructor; cbn; intuition discriminate.
Qed.

(** The path from the image leads back from the nearest image above, and as an inlink it does the same. *)
Theorem C78_image_path : forall h a q i, hangs h a q i -> q <> [] -> image_node h a ->
  between h a q (fun c => forall b, nd_kind c <> KImage b) -> forall fuel, (length q <= fuel)%nat ->
  get_path_from_image fuel h i = Ok (joined q) /\ at_path h a (joined q) = Some i /\
  forall path, resolve_inlink fuel h path i = Ok (at_path h a path).
Proof.
  intros h a q i H Q (ca & b & Ea & Ka) B fuel Hf.
  assert (I : is_image ca = true) by (unfold is_image; rewrite Ka; reflexivity).
  assert (B' : between h a q (fun c => is_image c = false)).
  { intros q1 q2 m c E1 E2 E3 Hm Em. specialize (B q1 q2 m c E1 E2 E3 Hm Em). unfold is_image.
    destruct (nd_kind c) eqn:Kc; try reflexivity. destruct (B _ Kc). }
  split; [exact (image_path_ok h a ca q i H Q Ea I B' fuel Hf)|]. split.
  - rewrite at_path_join; [apply hangs_fold, H|exact Q|apply (hangs_plain _ _ _ _ H)].
  - intro path. unfold resolve_inlink, get_parent_wz_image.
    rewrite (filter_parent_ok h is_image a q i ca H Q Ea I B' fuel Hf). reflexivity.
Qed.
Print Assumptions C78_image_path.

Example C78_ex : get_path_from_image 9 demo 4 = Ok (txt "x/y") /\ resolve_inlink 9 demo (txt "x/y") 4 = Ok (Some 4).
Proof.
  destruct (C78_image_path demo 2 _ 4 demo_xy ltac:(discriminate)) with (fuel := 9%nat) as (A & B & C).
  - exists (mkCell (txt "a.img") (KImage true) (Some 1) [(txt "x", 3); (txt "z", 5)]), true. split; reflexivity.
  - intros q1 q2 m c E1 E2 E3 Hm Em b. assert (q1 = [txt "x"]).
    { destruct q1 as [|x [|y q1]]; [contradiction|injection E1 as <- _; reflexivity|].
      injection E1 as _ _ E1. symmetry in E1. apply app_eq_nil in E1 as [_ ->]. contradiction. }
    subst q1. apply hangs_fold in Hm. injection Hm as <-. injection Em as <-. discriminate.
  - cbn; lia.
  - split; [exact A|]. rewrite C. exact (f_equal Ok B).
Qed.

(** Searching upwards finds the nearest ancestor that fits, or nothing when none does. *)
Theorem C79_nearest_ancestor : forall h a q i c cb, hangs h a q i -> q <> [] -> h a = Some c -> cb c = true ->
  between h a q (fun c => cb c = false) ->
  forall fuel, (length q <= fuel)%nat -> filter_parent fuel h i cb = Ok (Some a).
Proof. intros h a q i c cb H Q E C B. exact (filter_parent_ok h cb a q i c H Q E C B). Qed.
Print Assumptions C79_nearest_ancestor.

Theorem C79_no_ancestor : forall h root q i cb, rootless h root -> hangs h root q i ->
  (forall q1 q2 m c, q = q1 ++ q2 -> q2 <> [] -> hangs h root q1 m -> h m = Some c -> cb c = false) ->
  forall fuel, (length q <= fuel)%nat -> filter_parent fuel h i cb = Ok None.
Proof. intros. apply (filter_parent_none h cb root q i); assumption. Qed.
Print Assumptions C79_no_ancestor.

(** An outlink is looked up from the nearest file above called "Base". *)
Theorem C79_outlink : forall h a q i c b, hangs h a q i -> q <> [] -> h a = Some c ->
  nd_kind c = KFile b -> nd_name c = txt "Base" ->
  between h a q (fun c => (forall b, nd_kind c <> KFile b) \/ nd_name c <> txt "Base") ->
  forall fuel path, (length q <= fuel)%nat -> resolve_outlink fuel h path i = Ok (at_path h a path).
Proof.
  intros h a q i c b H Q E K N B fuel path Hf. unfold resolve_outlink, get_base_wz_file.
  rewrite (filter_parent_ok h _ a q i c H Q E) with (fuel := fuel); [reflexivity|..|exact Hf].
  - cbv beta. rewrite K, N. reflexivity.
  - intros q1 q2 m cm E1 E2 E3 Hm Em. destruct (B q1 q2 m cm E1 E2 E3 Hm Em) as [X|X].
    + destruct (nd_kind cm) eqn:Kc; try reflexivity. destruct (X _ eq_refl).
    + destruct (nd_kind cm); try reflexivity. destruct (text_eqb (nd_name cm) _) eqn:Y; [|reflexivity].
      apply text_eqb_eq in Y. destruct X. exact Y.
Qed.
Print Assumptions C79_outlink.

Example C79_ex : filter_parent 9 demo 4 is_image = Ok (Some 2) /\
  filter_parent 9 demo 4 (fun c => match nd_kind c with KMsFile _ => true | _ => false end) = Ok None /\
  resolve_outlink 9 demo (txt "dir/a.img/z") 4 = Ok (Some 5).
Proof. repeat split. Qed.

(** * Moving children *)

(** Moving the children of one tree into another: a path leads where it led before in the target, and
    where it did not, to what the source had there.  The source is left without children, names and
    contents of nodes do not change, other nodes are not touched, and children have their
    owners as parents if that was so before. *)
Theorem C27_transfer : forall h src dst ls ld, tree h src ls -> tree h dst ld -> NoDup (ls ++ ld) ->
  exists h' m, (forall fuel, (m <= fuel)%nat -> transfer_childs fuel h src dst = Ok h') /\
    (forall p j, down h' dst p j <-> down h dst p j \/ (down h src p j /\ forall k, ~ down h dst p k)) /\
    (forall n, no_slot h' src n) /\ same_self h h' /\
    (forall j, ~ In j ls -> ~ In j ld -> h' j = h j) /\
    (parented h src -> parented h dst -> parented h' dst).
Proof.
  intros h src dst ls ld (s & <- & Ss & Ns & <-) (d & <- & Sd & Nd & <-) N.
  destruct (all_movable s d h Ss Sd N) as (h' & T & (Sm & F & Q & P & W) & E).
  unfold transfer_childs.
  exists h', (length (nodes s)). split; [|split; [|split; [|split; [exact Q|split; [exact F|]]]]].
  - intros fuel Hf. apply T; [exact Hf|]. intros x [<-|[]]. split; [|auto].
    intro I. apply in_split in I as (a & b & Hd). rewrite Hd in N. destruct s as [i ks]. cbn [nodes top] in *.
    rewrite <- app_comm_cons in N. inversion_clear N as [|? ? X _]. apply X. rewrite !in_app_iff. cbn. tauto.
  - intros p j. pose proof (look_down h' p _ j Sm) as LD. rewrite merge_top in LD. rewrite <- LD. clear LD.
    rewrite (look_merge h p s d Ss). split.
    + destruct (look d p) as [k|] eqn:L.
      * intros [= ->]. left. apply (look_down h p d j Sd). exact L.
      * intro X. right. split; [apply (look_down h p s j Ss), X|]. intros k Y. apply (look_down h p d k Sd) in Y. congruence.
    + intros [X|[X Y]].
      * apply (look_down h p d j Sd) in X. rewrite X. reflexivity.
      * destruct (look d p) as [k|] eqn:L; [destruct (Y k); apply (look_down h p d k Sd), L|].
        apply (look_down h p s j Ss), X.
  - intro n. destruct (shaped_alive _ _ Ss) as [c Ec]. destruct (E c Ec) as (c' & Ec' & L). exists c'. rewrite L. auto.
  - intros A B. rewrite <- (merge_top s d). apply (pshaped_parented _ _ Sm). apply W; [apply (pshaped_parented _ _ Ss), A|apply (pshaped_parented _ _ Sd), B].
Qed.
Print Assumptions C27_transfer.

(** Two archives with a common directory: 0/d(1)/a(2) and 10/d(11)/{a(12), b(13)}, 10/e(14). *)
Definition two : heap := mem
  [(0, mkCell (txt "A") (KOther 0) None [(txt "d", 1)]);
   (1, mkCell (txt "d") (KOther 0) (Some 0) [(txt "a", 2)]);
   (2, mkCell (txt "a") (KOther 7) (Some 1) []);
   (10, mkCell (txt "B") (KOther 0) None [(txt "d", 11); (txt "e", 14)]);
   (11, mkCell (txt "d") (KOther 0) (Some 10) [(txt "a", 12); (txt "b", 13)]);
   (12, mkCell (txt "a") (KOther 8) (Some 11) []);
   (13, mkCell (txt "b") (KOther 0) (Some 11) []);
   (14, mkCell (txt "e") (KOther 0) (Some 10) [])].
Ltac shape_tac := econstructor; [reflexivity|repeat constructor; cbn; intuition discriminate|reflexivity|];
  cbn [In]; intros ? ? HH; repeat (destruct HH as [[= <- <-]|HH]; [|]); try contradiction.
Example C27_ex : exists h', transfer_childs 9 two 10 0 = Ok h' /\
  at_path h' 0 (txt "d/a") = Some 2 /\ at_path h' 0 (txt "d/b") = Some 13 /\ at_path h' 0 (txt "e") = Some 14 /\
  parent_of h' 13 = Some 1 /\ node_at h' 10 (txt "e") = None /\
  exists c, h' 2 = Some c /\ nd_kind c = KOther 7.
Proof. eexists. split; [reflexivity|]. repeat split. eexists. split; reflexivity. Qed.
Example C27_ex_tree : tree two 10 [10; 11; 12; 13; 14] /\ tree two 0 [0; 1; 2] /\ NoDup ([10; 11; 12; 13; 14] ++ [0; 1; 2]).
Proof.
  split; [|split].
  - exists (Shape 10 [(txt "d", Shape 11 [(txt "a", Shape 12 []); (txt "b", Shape 13 [])]); (txt "e", Shape 14 [])]).
    split; [reflexivity|]. split; [repeat shape_tac|]. split; [repeat constructor; cbn; lia|reflexivity].
  - exists (Shape 0 [(txt "d", Shape 1 [(txt "a", Shape 2 [])])]).
    split; [reflexivity|]. split; [repeat shape_tac|]. split; [repeat constructor; cbn; lia|reflexivity].
  - repeat constructor; cbn; lia.
Qed.

(** Moving a node's children to itself is a panic or a deadlock. *)
Theorem C88_transfer_to_self_refuted : exists h i, tree h i [i] /\ forall fuel h', transfer_childs fuel h i i <> Ok h'.
Proof.
  exists (mem [(0, mkCell (txt "A") (KOther 0) None [])]), 0. split.
  - exists (Shape 0 []). split; [reflexivity|]. split; [shape_tac|]. split; [repeat constructor; cbn; lia|reflexivity].
  - intros [|f] h'; discriminate.
Qed.
Print Assumptions C88_transfer_to_self_refuted.

(** Repairing parents: afterwards every child has its owner as parent, and nothing else changes. *)
Theorem C80_repair_parents : forall h i l, tree h i l ->
  exists h' m, (forall fuel, (m <= fuel)%nat -> resolve_childs_parent fuel h i = Ok h') /\
    parented h' i /\ same_but_parents h h' /\ (forall j, ~ In j l \/ j = i -> h' j = h j).
Proof.
  intros h i l (s & <- & S & N & <-). destruct (all_fixable s h S N) as (h' & T & P & F & B).
  exists h', (length (nodes s)). split; [exact T|]. split; [|split; [exact B|exact F]].
  apply (pshaped_parented _ _ (shaped_sbp _ _ _ B S)), P.
Qed.
Print Assumptions C80_repair_parents.

Example C80_ex : let h := put two 12 (mkCell (txt "a") (KOther 8) (Some 99) []) in
  parent_of h 12 = None /\ exists h', resolve_childs_parent 9 h 10 = Ok h' /\ parent_of h' 12 = Some 11.
Proof. cbv zeta. split; [reflexivity|]. eexists. split; reflexivity. Qed.

(** * Walking *)

(** Without parsing, the walk visits every node below once, parents before children. *)
Theorem C28_walk : forall load h i l, tree h i l ->
  exists tr m, (forall fuel rd, (m <= fuel)%nat -> walk_node load fuel false rd h i = Ok (h, tr)) /\
    NoDup tr /\ (forall j, In j tr <-> exists p, down h i p j) /\
    (forall j n k, In j tr -> slot h j n k -> exists a b c, tr = a ++ j :: b ++ k :: c).
Proof.
  intros load h i l (s & <- & S & N & <-). exists (nodes s), (length (nodes s)).
  split; [intros fuel rd Hf; apply walk_shape; assumption|]. split; [exact N|]. split.
  - intro j. split; [apply (nodes_down h s S)|]. intros [p H]. apply (down_nodes h s S p j H).
  - intros j n k I Sl. apply (parent_first h s j n k S I Sl).
Qed.
Print Assumptions C28_walk.

Example C28_ex : forall load, exists h', walk_node load 9 false [] two 10 = Ok (h', [10; 11; 12; 13; 14]).
Proof. intro. eexists. reflexivity. Qed.

(** With parsing, every image that was visited is left unparsed and without children. *)
Theorem C28_images_released : forall load fuel h i h' tr, only_adds load ->
  walk_node load fuel true [] h i = Ok (h', tr) ->
  forall j c b, In j tr -> h' j = Some c -> nd_kind c = KImage b -> b = false /\ nd_slots c = [].
Proof.
  intros load fuel h i h' tr A W j c b I E K.
  destruct (walk_bare load A fuel [] h i h' tr W j (or_intror I)) as (c' & E' & B).
  rewrite E in E'. injection E' as <-. destruct B as [B1 B2]; [unfold is_image; rewrite K; reflexivity|].
  split; [congruence|exact B2].
Qed.
Print Assumptions C28_images_released.

(** An image (1) in a directory (0) that holds nodes 2 and 3 when read; and one with a link to the
    image itself: 1/s(2)/u(3), u being "..". *)
Definition lazy_load (kids : list (text * id)) (new : list (id * cell)) (uols : list id)
    : heap -> id -> id -> option (heap * list (text * id) * list id) := fun h p i =>
  if i =? 1 then Some (fold_left (fun h e => match h (fst e) with Some _ => h | None => put h (fst e) (snd e) end) new h, kids, uols)
  else None.
Lemma lazy_adds kids new uols : only_adds (lazy_load kids new uols).
Proof.
  intros h p i h1 k u L j c E. unfold lazy_load in L. destruct (i =? 1); [|discriminate]. injection L as <- _ _.
  revert h E. induction new as [|[x cx] new IH]; intros h E; [exact E|]. cbn [fold_left fst snd]. apply IH.
  destruct (h x) eqn:X; [exact E|]. rewrite put_other; [exact E|]. intros ->. congruence.
Qed.
Definition dir_one : heap := mem
  [(0, mkCell (txt "D") (KDir true) None [(txt "i", 1)]);
   (1, mkCell (txt "i") (KImage false) (Some 0) [])].
Example C28_ex_parse : exists h',
  walk_node (lazy_load [(txt "x", 2); (txt "y", 3)]
     [(2, mkCell (txt "x") (KOther 0) (Some 1) []); (3, mkCell (txt "y") (KOther 0) (Some 1) [])] [])
    9 true [] dir_one 0 = Ok (h', [0; 1; 2; 3]) /\
  h' 1 = Some (mkCell (txt "i") (KImage false) (Some 0) []).
Proof. eexists. split; reflexivity. Qed.

(** A link to an ancestor, which parsing resolves, makes the walk endless; with parsing on, it locks up. *)
Definition loop_load := lazy_load [(txt "s", 2)]
  [(2, mkCell (txt "s") (KOther 0) (Some 1) [(txt "u", 3)]); (3, mkCell (txt "u") (KUol (Some (txt ".."))) (Some 2) [])] [3].
Theorem C84_walk_ends_refuted : exists load h i h', only_adds load /\ tree h i [i] /\ parse load h [] i i = Ok h' /\
  (forall fuel rd, walk_node load fuel false rd h' i = OutOfFuel) /\
  (exists m, forall fuel, (m <= fuel)%nat -> walk_node load fuel true [] h i = Panic).
Proof.
  set (h := mem [(1, mkCell (txt "i") (KImage false) None [])]).
  destruct (parse loop_load h [] 1 1) as [h'| | |] eqn:P; try discriminate P.
  exists loop_load, h, 1, h'. split; [apply lazy_adds|]. split; [|split; [exact P|split]].
  - exists (Shape 1 []). split; [reflexivity|]. split; [shape_tac|]. split; [repeat constructor; cbn; lia|reflexivity].
  - assert (H1 : h' 1 = Some (mkCell (txt "i") (KImage true) None [(txt "s", 2)])).
    { injection P as <-. reflexivity. }
    assert (H2 : h' 2 = Some (mkCell (txt "s") (KOther 0) (Some 1) [(txt "u", 1)])).
    { injection P as <-. reflexivity. }
    clear P. assert (G : forall fuel rd, walk_node loop_load fuel false rd h' 1 = OutOfFuel /\ walk_node loop_load fuel false rd h' 2 = OutOfFuel).
    { induction fuel as [|f IH]; intro rd; [split; reflexivity|]. split; cbn [walk_node andb rbind].
      - rewrite H1. cbn [nd_slots walk_loop]. rewrite (proj2 (IH _)). reflexivity.
      - rewrite H2. cbn [nd_slots walk_loop]. rewrite (proj1 (IH _)). reflexivity. }
    intros fuel rd. apply G.
  - exists 3%nat. intros fuel Hf. destruct fuel as [|[|[|f]]]; [lia..|]. reflexivity.
Qed.
Print Assumptions C84_walk_ends_refuted.
