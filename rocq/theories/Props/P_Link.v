(** Theorems about links and about looking nodes up while parsing. *)
From Coq Require Import ZArith List Bool Lia Arith.
From Coq Require String.
Import String.StringSyntax.
From Verif.Model Require Import Base Utf Image Node.
From Verif.Spec Require Import PathSpec Tree.
From Verif.Proofs Require Import ImageL NodeL UolL WalkL MoveL LookL.
From Verif.Props Require Import P_Node.
Local Open Scope string_scope.
Local Open Scope Z_scope.

(** * The path of a link *)

(** The resolved path of a link that can be followed leads, from the root, to its target. *)
Theorem C29_resolved_path : forall h root p n u j us k, rootless h root -> proper h root ->
  hangs h root p j -> hangs h root (p ++ [n]) u -> us <> [] -> Forall (fun c => ~ In 47 c) us ->
  steps h None j us k ->
  exists q, get_resolved_uol_path (joined (p ++ [n])) (joined us) = joined q /\ hangs h root q k /\
    (q <> [] -> at_path h root (joined q) = Some k).
Proof.
  intros h r p n u j us k R P Hj Hu U Pl S. exists (uol_steps p us).
  pose proof (uol_steps_hang h r R P j us k S p Hj) as Hk. split; [|split; [exact Hk|]].
  - unfold get_resolved_uol_path. rewrite (split_join (p ++ [n])); [|destruct p; discriminate|apply (hangs_plain _ _ _ _ Hu)].
    rewrite (split_join us U Pl), removelast_last. apply join_model.
  - intro Q. rewrite at_path_join; [|exact Q|apply (hangs_plain _ _ _ _ Hk)]. apply hangs_fold, Hk.
Qed.
Print Assumptions C29_resolved_path.

(** A resolved path has '..' at most in front. *)
Theorem C29_no_dots : forall p us, p <> [] -> us <> [] -> Forall (fun c => ~ In 47 c) (p ++ us) -> ~ In dd p ->
  exists q, get_resolved_uol_path (joined p) (joined us) = joined q /\ Forall (fun c => ~ In 47 c) q /\ ~ In dd (tl q).
Proof.
  intros p us P U Pl D. apply Forall_app in Pl as [Pp Pu]. exists (uol_steps (removelast p) us). split; [|split].
  - unfold get_resolved_uol_path. rewrite (split_join p P Pp), (split_join us U Pu). apply join_model.
  - assert (G : forall l a, Forall (fun c : text => ~ In 47 c) a -> Forall (fun c : text => ~ In 47 c) l -> Forall (fun c : text => ~ In 47 c) (uol_steps a l)).
    { assert (RL : forall a : list text, Forall (fun c : text => ~ In 47 c) a -> Forall (fun c : text => ~ In 47 c) (removelast a)).
      { intros a A. destruct a as [|x a]; [exact A|]. rewrite (app_removelast_last x (l := x :: a)) in A by discriminate.
        apply Forall_app in A. apply A. }
      induction l as [|x l IH]; intros a A L; [exact A|]. inversion_clear L. cbn [uol_steps].
      destruct (text_eqb x [46; 46] && _); apply IH; auto. apply Forall_app. auto. }
    apply G; [|exact Pu]. rewrite (app_removelast_last (@nil Z) P) in Pp. apply Forall_app in Pp. apply Pp.
  - apply uol_head. intro I. apply D. rewrite (app_removelast_last (@nil Z) P). apply in_or_app. left.
    destruct (removelast p); [destruct I|right; exact I].
Qed.
Print Assumptions C29_no_dots.

Example C29_ex : get_resolved_uol_path (txt "dir/a.img/x/y") (txt "../z") = txt "dir/a.img/z" /\
  at_path demo 0 (txt "dir/a.img/z") = Some 5.
Proof. split; reflexivity. Qed.
Example C29_ex_steps : steps demo None 3 [dd; txt "z"] 5 /\ proper demo 0.
Proof.
  split.
  - apply (steps_up _ _ 3 (txt "x") 2); [discriminate|child_tac|].
    apply (steps_down _ _ 2 (txt "z") 5); [discriminate|slot_tac|apply steps_end].
  - intros p i n k _ (c & E & _ & I). unfold demo, mem in E.
    cbn [find fst snd] in E.
    repeat match type of E with context [?a =? i] => destruct (Z.eqb_spec a i); [subst i; injection E as <-; cbn in I;
      repeat (destruct I as [[= <- <-]|I]; [split; [name_tac|child_tac]|]); destruct I|] end.
    discriminate.
Qed.

(** Two climbs above the root cancel out: the link "../../dir" of a node right below the root steps
    out of the tree, yet its resolved path is that of a node. *)
Theorem C81_climbing_out_refuted : exists h root n u j us k,
  rootless h root /\ hangs h root [n] u /\ stuck h None root us /\
  at_path h root (get_resolved_uol_path (joined [n]) (joined us)) = Some k /\ k = j.
Proof.
  exists demo, 0, (txt "dir"), 1, 1, [dd; dd; txt "dir"], 1.
  split; [exact demo_root|]. split; [exact demo_dir|]. split; [apply stuck_root; [exact demo_root|discriminate]|].
  split; reflexivity.
Qed.
Print Assumptions C81_climbing_out_refuted.

(** A '.' component is not dropped. *)
Theorem C82_dot_dropped_refuted : exists h root u j k,
  hangs h root [txt "dir"; txt "a.img"; txt "x"; txt "y"] u /\ hangs h root [txt "dir"; txt "a.img"; txt "x"] j /\
  slot h j (txt "y") k /\
  get_resolved_uol_path (txt "dir/a.img/x/y") (txt "./y") = txt "dir/a.img/x/./y" /\
  at_path h root (txt "dir/a.img/x/./y") = None.
Proof. exists demo, 0, 4, 3, 4. split; [exact demo_y|]. split; [exact demo_x|]. split; [slot_tac|]. split; reflexivity. Qed.
Print Assumptions C82_dot_dropped_refuted.

(** * Resolving links *)

(** A link whose steps lead to a node is replaced by that node in its parent; nothing else changes.
    [b] is the image being parsed, if any. *)
Theorem C30_link_replaced : forall h b u n p us t, child_of h n u p -> slot h p n u -> b <> Some u ->
  (exists c, h u = Some c /\ nd_kind c = KUol (Some (joined us))) -> us <> [] -> Forall (fun c => ~ In 47 c) us ->
  steps h b p us t ->
  exists h', resolve_uol h (match b with Some im => [im] | None => [] end) b u = Ok h' /\
    same_but_slots h h' /\ slot h' p n t /\
    (forall j m k, j <> p \/ m <> n -> slot h' j m k <-> slot h j m k).
Proof.
  intros h b u n p us t C Sl B K U Pl S. exists (replace_child h p n t).
  split; [exact (resolve_hit h b u n p us t C B K U Pl S)|].
  destruct (replace_ok h p n t) as (A1 & A2 & A3). split; [exact A1|]. split; [apply (A3 u Sl)|exact A2].
Qed.
Print Assumptions C30_link_replaced.

(** A link that leads nowhere stays, and nothing changes. *)
Theorem C30_link_missing : forall h b u n p us, child_of h n u p -> b <> Some u ->
  (exists c, h u = Some c /\ nd_kind c = KUol (Some (joined us))) -> us <> [] -> Forall (fun c => ~ In 47 c) us ->
  stuck h b p us -> resolve_uol h (match b with Some im => [im] | None => [] end) b u = Ok h.
Proof. intros h b u n p us. exact (resolve_miss h b u n p us). Qed.
Print Assumptions C30_link_missing.

(** Reading an image adds what was read to its children and touches, otherwise, only the slots of links. *)
Theorem C30_only_links : forall load h i par c h1 kids uols h', only_adds load ->
  h i = Some c -> nd_kind c = KImage false -> load h par i = Some (h1, kids, uols) ->
  NoDup (map fst (nd_slots c) ++ map fst kids) ->
  parse load h [] i par = Ok h' ->
  forall j m k, (forall u, In u uols -> ~ sits h1 u j m) ->
  slot h' j m k <-> (j = i /\ In (m, k) (nd_slots c ++ kids)) \/ (j <> i /\ slot h1 j m k).
Proof.
  intros load h i par c h1 kids uols h' A E K L D P j m k N. unfold parse in P. rewrite E, K in P. unfold parse_as in P.
  rewrite L in P. rewrite (A _ _ _ _ _ _ L _ _ E) in P. cbv zeta in P.
  rewrite fold_insert in P by exact D. set (h2 := put h1 i _) in P.
  destruct (resolve_all_frame i uols h2 h' P) as [_ F]. rewrite F.
  - destruct (Z.eq_dec j i) as [->|J].
    + unfold slot, h2. rewrite put_same. split.
      * intros (c' & [= <-] & _ & I). left. split; [reflexivity|exact I].
      * intros [[_ I]|[X _]]; [|destruct X; reflexivity]. eexists. split; [reflexivity|].
        split; [cbn [nd_slots]; rewrite map_app; exact D|exact I].
    + unfold slot, h2. rewrite put_other by exact J. split; [auto|]. intros [[X _]|[_ X]]; [destruct (J X)|exact X].
  - intros u I (cu & Eu & Nu & Pu). apply (N u I). unfold h2 in Eu. destruct (Z.eq_dec u i) as [->|Hu].
    + rewrite put_same in Eu. injection Eu as <-. exists c. rewrite (A _ _ _ _ _ _ L _ _ E). split; [reflexivity|split; [exact Nu|exact Pu]].
    + rewrite put_other in Eu by exact Hu. exists cu. auto.
Qed.
Print Assumptions C30_only_links.

(** An image 1 with a node "t" (2), a link "l" (3) to it and, below "s" (4), a link "m" (5) to "../t". *)
Definition link_load := lazy_load [(txt "t", 2); (txt "l", 3); (txt "s", 4)]
  [(2, mkCell (txt "t") (KOther 0) (Some 1) []); (3, mkCell (txt "l") (KUol (Some (txt "t"))) (Some 1) []);
   (4, mkCell (txt "s") (KOther 0) (Some 1) [(txt "m", 5)]);
   (5, mkCell (txt "m") (KUol (Some (txt "../t"))) (Some 4) [])] [3; 5].
Example C30_ex : exists h', parse link_load dir_one [] 1 1 = Ok h' /\
  at_path h' 0 (txt "i/l") = Some 2 /\ at_path h' 0 (txt "i/s/m") = Some 2 /\ at_path h' 0 (txt "i/s") = Some 4.
Proof. eexists. split; [reflexivity|]. repeat split. Qed.

(** A link to a link that comes later: what replaces it is the other link, not its target. *)
Definition chain_load := lazy_load [(txt "a", 2); (txt "b", 3); (txt "t", 4)]
  [(2, mkCell (txt "a") (KUol (Some (txt "b"))) (Some 1) []); (3, mkCell (txt "b") (KUol (Some (txt "t"))) (Some 1) []);
   (4, mkCell (txt "t") (KOther 0) (Some 1) [])] [2; 3].
Theorem C83_chains_refuted : exists load h i h' k t c, only_adds load /\ tree h i [i] /\ parse load h [] i i = Ok h' /\
  slot h' i (txt "b") t /\ slot h' i (txt "t") t /\
  slot h' i (txt "a") k /\ k <> t /\ h' k = Some c /\ nd_kind c = KUol (Some (txt "t")).
Proof.
  set (h := mem [(1, mkCell (txt "i") (KImage false) None [])]).
  destruct (parse chain_load h [] 1 1) as [h'| | |] eqn:P; try discriminate P.
  exists chain_load, h, 1, h', 3, 4, (mkCell (txt "b") (KUol (Some (txt "t"))) (Some 1) []).
  split; [apply lazy_adds|]. split; [|split; [exact P|]].
  - exists (Shape 1 []). split; [reflexivity|]. split; [shape_tac|]. split; [repeat constructor; cbn; lia|reflexivity].
  - injection P as <-. split; [slot_tac|]. split; [slot_tac|]. split; [slot_tac|]. split; [lia|]. split; reflexivity.
Qed.
Print Assumptions C83_chains_refuted.

(** * Looking up *)

(** What a lookup with parsing returns is found by a plain lookup afterwards, and nodes that
    were read before are as they were. *)
Theorem C85_found_again : forall load h i path h' j, only_adds load -> links_inside load -> settled h i ->
  at_path_parsed load h i path = Ok (h', j) ->
  at_path h' i path = Some j /\ (forall m, settled h m -> h' m = h m).
Proof.
  intros load h i path h' j A L S. unfold at_path_parsed, at_path.
  destruct (split_slash path) as [|first rest]; [discriminate|].
  destruct (node_at h i first) as [n|] eqn:N; [|discriminate]. intro H.
  destruct (parsed_fold_ok load A L rest h n h' j H) as [F T]. split; [|exact F].
  unfold node_at in N |- * at 1. rewrite (F i S), N. exact T.
Qed.
Print Assumptions C85_found_again.

Definition xy_load := lazy_load [(txt "x", 2); (txt "y", 3)]
  [(2, mkCell (txt "x") (KOther 0) (Some 1) []); (3, mkCell (txt "y") (KOther 0) (Some 1) [])] [].
Example C85_ex : only_adds xy_load /\ links_inside xy_load /\ settled dir_one 0 /\
  at_path dir_one 0 (txt "i/y") = None /\
  exists h', at_path_parsed xy_load dir_one 0 (txt "i/y") = Ok (h', 3) /\ at_path h' 0 (txt "i/y") = Some 3.
Proof.
  split; [apply lazy_adds|]. split.
  { intros h p i h1 kids uols L u q n I. unfold xy_load, lazy_load in L. destruct (i =? 1); [|discriminate].
    injection L as _ _ <-. destruct I. }
  split; [eexists; split; reflexivity|]. split; [reflexivity|]. eexists. split; reflexivity.
Qed.

(** A path with one ".img", at the end of a component: the node of that name is returned, with what follows. *)
Theorem C31_image_by_name : forall h n comps a rest t, joined comps = a ++ dot_img -> first_img a ->
  img_free (joined rest) -> comps <> [] -> rest <> [] -> Forall (fun c => ~ In 47 c) (comps ++ rest) -> down h n comps t ->
  get_image_node_from_path h n (joined (comps ++ rest)) = Ok (Some (t, joined rest)).
Proof.
  intros h n comps a rest t J F R C Q P D.
  assert (X : joined (comps ++ rest) = a ++ dot_img ++ 47 :: joined rest).
  { rewrite joined_app by assumption. rewrite J, <- app_assoc. reflexivity. }
  rewrite X, image_found by assumption. rewrite <- J.
  apply Forall_app in P as [P _]. rewrite (at_path_join h n comps C P).
  enough (H : try_fold (node_at h) n comps = Some t) by (rewrite H; reflexivity).
  clear -D. induction D as [i c E|i m k p j S D IH]; [reflexivity|]. cbn [try_fold]. rewrite (slot_at _ _ _ _ S). exact IH.
Qed.
Print Assumptions C31_image_by_name.

(** A path without ".img": the first image met on the way down is returned, with what follows. *)
Theorem C31_image_on_way : forall h n before m c t rest, plain_down h n before m -> slot h m c t -> image_node h t ->
  rest <> [] -> Forall (fun c => ~ In 47 c) (before ++ c :: rest) -> img_free (joined (before ++ c :: rest)) ->
  joined (before ++ c :: rest) <> [] ->
  get_image_node_from_path h n (joined (before ++ c :: rest)) = Ok (Some (t, joined rest)).
Proof.
  intros h n before m c t rest D S I R P F N. unfold get_image_node_from_path.
  destruct (joined (before ++ c :: rest)) as [|x l] eqn:E; [destruct (N eq_refl)|]. rewrite <- E in *. fold dot_img.
  apply cut_none in F. rewrite F. rewrite split_join; [|destruct before; discriminate|exact P].
  apply (on_way h _ before n m D c t rest 0%nat S I R P). reflexivity.
Qed.
Print Assumptions C31_image_on_way.

(** No image on the way: nothing is found. *)
Theorem C31_no_image : forall h n comps m, plain_down h n comps m -> comps <> [] -> Forall (fun c => ~ In 47 c) comps ->
  img_free (joined comps) -> get_image_node_from_path h n (joined comps) = Ok None.
Proof.
  intros h n comps m D C P F. unfold get_image_node_from_path.
  destruct (joined comps) as [|x l] eqn:E; [reflexivity|]. rewrite <- E in *. fold dot_img.
  apply cut_none in F. rewrite F. rewrite (split_join _ C P). clear E F C P x l. generalize (joined comps) 0%nat. revert n D.
  induction comps as [|c comps IH]; intros n D path at_; [reflexivity|]. inversion_clear D as [|? ? k ? ? S O D'].
  cbn [image_on_way]. rewrite (slot_at _ _ _ _ S). cbv zeta. destruct O as (ck & Ek & Nk). rewrite Ek.
  unfold is_image. destruct (nd_kind ck) eqn:Kk; try (apply IH; assumption). destruct (Nk _ eq_refl).
Qed.
Print Assumptions C31_no_image.

(** An image without extension: 0/dir(1)/pic(2)/x(3). *)
Definition bare_img : heap := mem
  [(0, mkCell (txt "Base") (KFile true) None [(txt "dir", 1)]);
   (1, mkCell (txt "dir") (KDir true) (Some 0) [(txt "pic", 2)]);
   (2, mkCell (txt "pic") (KImage true) (Some 1) [(txt "x", 3)]);
   (3, mkCell (txt "x") (KOther 0) (Some 2) [])].
Example C31_ex : get_image_node_from_path demo 0 (txt "dir/a.img/x/y") = Ok (Some (2, txt "x/y")) /\
  get_image_node_from_path bare_img 0 (txt "dir/pic/x") = Ok (Some (2, txt "x")) /\
  get_image_node_from_path demo 0 (txt "dir") = Ok None.
Proof. repeat split. Qed.

(** A path that ends at an image without extension is a panic. *)
Theorem C86_no_panic_refuted : exists h n comps t, down h n comps t /\ image_node h t /\
  get_image_node_from_path h n (joined comps) = Panic.
Proof.
  exists bare_img, 0, [txt "dir"; txt "pic"], 2. split; [|split; [|reflexivity]].
  - apply (down_step _ _ _ 1); [slot_tac|]. apply (down_step _ _ _ 2); [slot_tac|]. econstructor. reflexivity.
  - eexists. eexists. split; reflexivity.
Qed.
Print Assumptions C86_no_panic_refuted.

(** A path that ends at an image called ".img" finds nothing. *)
Theorem C86_image_itself_refuted : exists h n comps t, down h n comps t /\ image_node h t /\
  get_image_node_from_path h n (joined comps) = Ok None.
Proof.
  exists demo, 0, [txt "dir"; txt "a.img"], 2. split; [|split; [|reflexivity]].
  - apply (down_step _ _ _ 1); [slot_tac|]. apply (down_step _ _ _ 2); [slot_tac|]. econstructor. reflexivity.
  - eexists. eexists. split; reflexivity.
Qed.
Print Assumptions C86_image_itself_refuted.

(** A second ".img" in the path: what follows it is lost. *)
Theorem C86_rest_lost_refuted : exists h n comps t rest short, down h n comps t /\ image_node h t /\
  get_image_node_from_path h n (joined (comps ++ rest)) = Ok (Some (t, short)) /\ short <> joined rest.
Proof.
  exists demo, 0, [txt "dir"; txt "a.img"], 2, [txt "b.img"; txt "x"], (txt "b.img").
  split; [|split; [|split; [reflexivity|discriminate]]].
  - apply (down_step _ _ _ 1); [slot_tac|]. apply (down_step _ _ _ 2); [slot_tac|]. econstructor. reflexivity.
  - eexists. eexists. split; reflexivity.
Qed.
Print Assumptions C86_rest_lost_refuted.

(** Looking a node up without parsing: in a parsed image it is a plain lookup, in one that is not
    parsed it is the lookup in its bytes. *)
Theorem C87_without_parse : forall image_lookup h n before m c t rest b ct, plain_down h n before m -> slot h m c t ->
  h t = Some ct -> nd_kind ct = KImage b -> rest <> [] ->
  Forall (fun c => ~ In 47 c) (before ++ c :: rest) -> img_free (joined (before ++ c :: rest)) ->
  joined (before ++ c :: rest) <> [] ->
  get_node_without_parse image_lookup h n (joined (before ++ c :: rest)) =
  Ok (if b then at_path h n (joined (before ++ c :: rest)) else image_lookup t (joined rest)).
Proof.
  intros il h n before m c t rest b ct D S E K R P F N. unfold get_node_without_parse.
  rewrite (C31_image_on_way h n before m c t rest D S); [|eexists; eexists; split; [exact E|exact K]|assumption..].
  cbn [rbind]. rewrite E, K. destruct b; [|reflexivity]. f_equal.
  rewrite (at_path_join h n) by (try exact P; destruct before; discriminate).
  apply Forall_app in P as [_ P]. inversion_clear P as [|? ? _ Pr].
  rewrite (at_path_join h t rest R Pr). clear -D S. induction D as [i|i b k p j S' O D IH]; cbn [try_fold app].
  - rewrite (slot_at _ _ _ _ S). reflexivity.
  - rewrite (slot_at _ _ _ _ S'). apply IH, S.
Qed.
Print Assumptions C87_without_parse.

Example C87_ex : forall il, get_node_without_parse il bare_img 0 (txt "dir/pic/x") = Ok (Some 3).
Proof. reflexivity. Qed.
