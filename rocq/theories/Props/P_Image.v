(** C17-C21, C42, C43, C61-C66: property trees. *)
From Coq Require Import ZArith List Bool Lia ZifyBool ZifyNat.
From Coq Require String.
From Verif.Model Require Import Base Utf Keys Reader WzStr VersionPkg1 Image.
From Verif.Spec Require Import Wire Stream StrWire Version PropWire PropView PropEnc PathSpec.
From Verif.Proofs Require Import BaseL WireL ReaderL AtL ImageL ParseL ScanL TermL EncL BlowL.
Import String.StringSyntax.
Ltac Zify.zify_post_hook ::= idtac.

Definition rd0 (buf : list Z) := mkRd buf key0 key0.

(** ** C17 *)
(** In any list that parses, whatever stands inside an extended property, the
    entry after it is read from where its size field says. *)
Theorem C17_extended_property_framed :
  forall r origin f n p kids us q name p1, bytes (rd_buf r) -> zlen (rd_buf r) < 2 ^ 31 ->
    0 < n -> p_entries r origin f n p = (Ok (kids, us), q) ->
    read_wz_string_block r origin p = (Ok name, p1) -> at_ (rd_buf r) p1 (p1 + 1) [9] ->
    exists size k kids' us', stored_at (rd_buf r) (p1 + 1) 4 size /\ tl kids = kids' /\
      p_entries r origin k (n - 1) (p1 + 5 + size) = (Ok (kids', us'), q).
Proof.
  intros r origin f n p kids us q name p1 Hb Hs Hn H Hname Ht.
  destruct (entries_cons_inv r origin f n p kids us q Hn H)
    as (k & nm0 & p1' & t & p2 & nm & nd & us1 & p3 & kids' & us2 & -> & -> & H1 & H2 & H3 & H4).
  rewrite Hname in H1. injection H1 as <- <-.
  destruct (at_u8 r Hs _ _ 9 ltac:(lia) Ht) as [E _]. rewrite E in H2. injection H2 as <- <-.
  destruct (frame _ _ _ _ _ _ _ H3) as (size & S1 & Q).
  destruct (read_at_sound 4 _ _ _ Hb S1) as (A & B & C). pose proof C as [C' _].
  change (Z.of_nat 4) with 4 in B. change (8 * Z.of_nat 4) with 32 in C'.
  exists size, k, kids', us2. split; [exact C|]. split; [reflexivity|].
  rewrite <- H4. f_equal. rewrite Q, (wrap_small 64 (_ + 4)) by (pows; lia). rewrite wrap_small by (pows; lia). lia.
Qed.
Print Assumptions C17_extended_property_framed.

(** A vector with two stray bytes inside its block, then a null property. *)
Definition ex_frame : list Z :=
  [2] ++ [2; 9] ++ enc_le 4 21 ++ (0x73 :: enc_str key0 (codes "Shape2D#Vector2D")) ++ [5; 6; 255] ++ [0; 0; 0].
Example C17_ex : exists us, p_list (rd0 ex_frame) 0 20 0 =
  (Ok ([([], Node (OVector 5 6) []); ([], Node ONull [])], us), 31).
Proof. eexists. vm_compute. reflexivity. Qed.

(** ** C18 *)
(** Any list of properties laid out as the format prescribes (texts in place or by reference,
    media included) is parsed to the same tree; the cursor stops behind it. *)
Theorem C18_layout_parsed :
  forall r origin p q kids, zlen (rd_buf r) < 2 ^ 31 -> (forall j, byte (rd_ks r j)) ->
    laid_list (rd_buf r) (rd_ks r) origin p q kids ->
    exists f0 kids' us, shows_kids r kids' kids /\
      forall f, (f0 <= f)%nat -> p_list r origin f p = (Ok (kids', us), q).
Proof.
  intros r origin p q kids Hs Hk H. destruct (laid_all r origin Hs Hk) as (_ & _ & _ & _ & L).
  destruct (L p q kids H) as (f0 & kids' & us & A & B). eauto.
Qed.
Print Assumptions C18_layout_parsed.

Lemma image_head_ok r e p q : zlen (rd_buf r) < 2 ^ 31 -> (forall j, byte (rd_ks r j)) ->
  at_ (rd_buf r) p q (enc_str (rd_ks r) (codes "Property")) -> q + 2 <= zlen (rd_buf r) -> image_head r e p = (Ok tt, q + 2).
Proof.
  intros Hs Hk H Hq. destruct (at_string r Hs Hk p q (codes "Property") ltac:(apply lit_unicode; reflexivity) H) as [E _].
  pose proof (at_range _ _ _ _ H) as (A & B & C). pose proof (zlen_nonneg (enc_str (rd_ks r) (codes "Property"))).
  unfold image_head. step E. destruct (read_at_total 2 (rd_buf r) q ltac:(lia) ltac:(lia)) as [v V].
  assert (U : read_u16 r q = (Ok v, q + 2)). { apply cur_read_ok; [exact V|pows; lia]. }
  step U. lits. reflexivity.
Qed.

(** An image is such a list behind a header; its name decides about text files only. *)
Theorem C18_image_roundtrip :
  forall r name block_size p q kids, zlen (rd_buf r) < 2 ^ 31 -> (forall j, byte (rd_ks r j)) ->
    good_kids kids -> at_ (rd_buf r) p q (ser_image (rd_ks r) kids) ->
    (forall pre, name <> pre ++ codes ".txt") ->
    exists f0 kids' us, shows_kids r kids' kids /\
      forall f, (f0 <= f)%nat -> image_children f r name p block_size = Ok (kids', us).
Proof.
  intros r name bs p q kids Hs Hk Hg H Hn. unfold ser_image, ser_block in H.
  change ((0x73 :: enc_str (rd_ks r) (codes "Property")) ++ [0; 0] ++ ser_list (rd_ks r) kids)
    with (0x73 :: enc_str (rd_ks r) (codes "Property") ++ [0; 0] ++ ser_list (rd_ks r) kids) in H.
  apply at_cons in H as [H1 H]. destruct (at_app _ _ _ _ _ H) as (m & H2 & H3 & _).
  apply at_split in H3 as [H3 H4]. change (zlen [0; 0]) with 2 in *.
  pose proof (at_range _ _ _ _ H3) as (_ & _ & R3).
  pose proof (ser_list_laid (rd_buf r) (rd_ks r) p Hs _ _ _ Hg H4) as L.
  destruct (laid_all r p Hs Hk) as (_ & _ & _ & _ & LL).
  destruct (LL _ _ _ L) as (f0 & kids' & us & A & B). exists f0, kids', us. split; [exact B|].
  intros f Hf. unfold image_children. destruct (at_u8 r Hs _ _ 0x73 ltac:(lia) H1) as [E _]. step E.
  assert (NT : ends_with name (txt ".txt") = false).
  { unfold ends_with. change (length (txt ".txt")) with 4%nat.
    destruct (Z.of_nat 4 <=? zlen name) eqn:Z4; [|reflexivity]. cbn [andb].
    destruct (text_eqb _ _) eqn:T; [|reflexivity]. apply text_eqb_eq in T. exfalso.
    apply (Hn (firstn (length name - 4) name)). change (codes ".txt") with (txt ".txt"). rewrite <- T.
    symmetry. apply firstn_skipn. }
  rewrite NT. change (0x73 =? 0x01) with false. change (0x73 =? 0x23) with false. change (0x73 =? 0x73) with true. cbv iota.
  step (image_head_ok r EWrongVersion _ _ Hs Hk H2 R3). rewrite (A f Hf). reflexivity.
Qed.
Print Assumptions C18_image_roundtrip.

Definition ex_tree : list (list Z * prop) :=
  [ (codes "a", PInt 300); (codes "b", PStr (codes "hi")); (codes "c", PShort (-2));
    (codes "d", PSub [ (codes "x", PNull); (codes "y", PVec 3 (-4)); (codes "link", PUol (codes "../a")) ]);
    (codes "e", PConvex [PVec 1 2; PVec 3 4]); (codes "f", PLong (2 ^ 40)); (codes "g", PFloatByte 7) ].
Definition key7 : nat -> Z := fun j => (7 * Z.of_nat j + 3) mod 256.
Example C18_ex : exists ma mu us,
  image_children 40 (mkRd (ser_image key7 ex_tree) key7 key0) (codes "x.img") 0 0 =
  Ok ([ (codes "a", Node (OInt 300) []); (codes "b", Node (OStr ma) []); (codes "c", Node (OShort (-2)) []);
        (codes "d", Node OSub [ (codes "x", Node ONull []); (codes "y", Node (OVector 3 (-4)) []); (codes "link", Node (OUol mu) []) ]);
        (codes "e", Node OConvex [ (codes "0", Node (OVector 1 2) []); (codes "1", Node (OVector 3 4) []) ]);
        (codes "f", Node (OLong (2 ^ 40)) []); (codes "g", Node (OFloat 0x40E00000) []) ], us) /\
  get_string (mkRd (ser_image key7 ex_tree) key7 key0) ma = Ok (codes "hi") /\
  get_string (mkRd (ser_image key7 ex_tree) key7 key0) mu = Ok (codes "../a").
Proof. do 3 eexists. split; [vm_compute; reflexivity|]. split; vm_compute; reflexivity. Qed.
Example C18_ex_good : good_kids ex_tree.
Proof.
  repeat (constructor; try lia); try (apply good_of_ext; repeat (constructor; try lia));
    try (apply lit_unicode; reflexivity).
Qed.

(** ** C19 *)
(** Any bytes whatsoever: if the image parses, then asking directly for a path
    through sub-properties gives the node the full parse has there (with enough
    fuel: no less than the full parse took). *)
Theorem C19_direct_access_agrees :
  forall r f name off block_size kids us comps nd, zlen (rd_buf r) < 2 ^ 31 ->
    at_ (rd_buf r) off (off + 1) [0x73] -> (forall pre, name <> pre ++ codes ".txt") ->
    image_children f r name off block_size = Ok (kids, us) ->
    path_of comps -> follows kids comps nd ->
    forall f', (f <= f')%nat -> image_at_path f' r off (joined comps) = Ok nd.
Proof.
  intros r f name off bs kids us comps nd Hs H0 Hn H Hp Hf f' Hf'.
  unfold image_children in H. destruct (at_u8 r Hs _ _ 0x73 ltac:(lia) H0) as [E _].
  rewrite (bind_ok _ _ _ _ _ E) in H.
  assert (NT : ends_with name (txt ".txt") = false).
  { unfold ends_with. change (length (txt ".txt")) with 4%nat.
    destruct (Z.of_nat 4 <=? zlen name) eqn:Z4; [|reflexivity]. cbn [andb].
    destruct (text_eqb _ _) eqn:T; [|reflexivity]. apply text_eqb_eq in T. exfalso.
    apply (Hn (firstn (length name - 4) name)). change (codes ".txt") with (txt ".txt"). rewrite <- T.
    symmetry. apply firstn_skipn. }
  rewrite NT in H. change (0x73 =? 0x01) with false in H. change (0x73 =? 0x23) with false in H.
  change (0x73 =? 0x73) with true in H. cbv iota in H.
  assert (X : exists q, bind (image_head r EWrongVersion) (fun _ => p_list r off f) (off + 1) = (Ok (kids, us), q)).
  { destruct (bind _ _ _) as [x q]. cbn [fst] in H. subst x. eauto. }
  destruct X as [q X]. apply bind_inv in X as ([] & p1 & X1 & X2).
  assert (X1' : image_head r EParse (off + 1) = (Ok tt, p1)).
  { unfold image_head in *. apply bind_inv in X1 as (nm & p2 & Y1 & Y2). step Y1.
    apply bind_inv in Y2 as (v & p3 & Y2 & Y3). step Y2.
    destruct (negb (text_eqb nm (txt "Property")) && negb (v =? 0)); [discriminate|exact Y3]. }
  unfold image_at_path. step E. change (negb (0x73 =? 0x73)) with false. cbv iota. step X1'.
  destruct (get_follows r off Hs kids comps nd Hf f p1 us q X2) as (c & rest & -> & q' & G).
  destruct (get_node_path r off (c :: rest) f' p1 Hp) as (c' & rest' & EQ & G').
  injection EQ as <- <-. assert (G2 : get_node r off f' (joined (c :: rest)) p1 = (Ok (last (c :: rest) [], nd), q')).
  { rewrite G'. apply G, Hf'. }
  step G2. reflexivity.
Qed.
Print Assumptions C19_direct_access_agrees.

Example C19_ex : exists mu,
  image_at_path 40 (mkRd (ser_image key7 ex_tree) key7 key0) 0 (codes "d/link") = Ok (Node (OUol mu) []) /\
  image_at_path 40 (mkRd (ser_image key7 ex_tree) key7 key0) 0 (codes "e") =
    Ok (Node OConvex [ (codes "0", Node (OVector 1 2) []); (codes "1", Node (OVector 3 4) []) ]) /\
  image_at_path 40 (mkRd (ser_image key7 ex_tree) key7 key0) 0 (codes "d/z") = Err ENotFound.
Proof. eexists. split; [vm_compute; reflexivity|]. split; vm_compute; reflexivity. Qed.

(** ** C66: the same through a canvas is false *)
Definition ex_canvas : list Z :=
  0x73 :: enc_str key0 (codes "Property") ++ [0; 0] ++ [1] ++
  [0x73; 255; 203] ++ 9 :: enc_le 4 40 ++
  (0x73 :: enc_str key0 (codes "Canvas")) ++ [0; 1; 0; 0; 1] ++
  (0x73 :: enc_str key0 (codes "z")) ++ [3; 7] ++
  [1; 1; 1; 0; 0; 0; 0; 0] ++ enc_le 4 1 ++ [0; 0x78; 0x9C; 0; 0; 0; 0; 0; 0; 0; 0].
Theorem C66_direct_access_canvas_refuted :
  exists r kids us sub g, zlen (rd_buf r) < 2 ^ 31 /\
    image_children 40 r (codes "x.img") 0 0 = Ok (kids, us) /\
    In (codes "a", Node (OPng g) sub) kids /\ In (codes "z", Node (OInt 7) []) sub /\
    forall f, (20 <= f)%nat -> image_at_path f r 0 (codes "a/z") = Err ENotFound.
Proof.
  exists (rd0 ex_canvas). eexists _, _, _, _. split; [vm_compute; reflexivity|].
  split; [vm_compute; reflexivity|]. split; [left; reflexivity|]. split; [left; reflexivity|].
  intros f Hf. unfold image_at_path.
  assert (G : exists q, get_node (rd0 ex_canvas) 0 20 (codes "a/z") 12 = (Err ENotFound, q)) by (eexists; vm_compute; reflexivity).
  destruct G as [q G].
  assert (G' : get_node (rd0 ex_canvas) 0 f (codes "a/z") 12 = (Err ENotFound, q)).
  { revert G. unfold get_node. change (codes "a/z") with (joined [codes "a"; codes "z"]).
    change (split_slash (joined [codes "a"; codes "z"])) with [codes "a"; codes "z"].
    destruct (joined [codes "a"; codes "z"]) eqn:J; [discriminate|]. intro G.
    eapply le_ok; [|exact G|discriminate]. apply get_loop_mono, Hf. }
  assert (E : read_u8 (rd0 ex_canvas) 0 = (Ok 0x73, 1)) by (vm_compute; reflexivity). step E.
  change (negb (0x73 =? 0x73)) with false. cbv iota.
  assert (E2 : image_head (rd0 ex_canvas) EParse 1 = (Ok tt, 12)) by (vm_compute; reflexivity). step E2.
  unfold bind. rewrite G'. reflexivity.
Qed.
Print Assumptions C66_direct_access_canvas_refuted.

(** ** C20 *)
(** A missing first component does not end the search: the bytes behind the
    list are taken for a list and searched for the same component. *)
Definition ex_missing : list Z :=
  0x73 :: enc_str key0 (codes "Property") ++ [0; 0] ++ [1] ++ (0x73 :: enc_str key0 (codes "a")) ++ [0] ++
  [1] ++ (0x73 :: enc_str key0 (codes "x")) ++ [3; 42].
Theorem C20_missing_component_refuted :
  exists r kids us, zlen (rd_buf r) < 2 ^ 31 /\ image_children 40 r (codes "x.img") 0 0 = Ok (kids, us) /\
    ~ In (codes "x") (map fst kids) /\
    image_at_path 40 r 0 (codes "x/y") = Ok (Node (OInt 42) []).
Proof.
  exists (rd0 ex_missing). do 2 eexists. split; [vm_compute; reflexivity|]. split; [vm_compute; reflexivity|].
  split; [|vm_compute; reflexivity]. cbn. intros [X|[]]. discriminate.
Qed.
Print Assumptions C20_missing_component_refuted.

(** ** C64: a missing last component is reported. *)
Theorem C64_missing_last_component :
  forall r f name off block_size kids us comps, zlen (rd_buf r) < 2 ^ 31 ->
    at_ (rd_buf r) off (off + 1) [0x73] -> (forall pre, name <> pre ++ codes ".txt") ->
    image_children f r name off block_size = Ok (kids, us) ->
    path_of comps -> lacks kids comps ->
    forall f', (f <= f')%nat -> image_at_path f' r off (joined comps) = Err ENotFound.
Proof.
  intros r f name off bs kids us comps Hs H0 Hn H Hp Hf f' Hf'.
  unfold image_children in H. destruct (at_u8 r Hs _ _ 0x73 ltac:(lia) H0) as [E _].
  rewrite (bind_ok _ _ _ _ _ E) in H.
  assert (NT : ends_with name (txt ".txt") = false).
  { unfold ends_with. change (length (txt ".txt")) with 4%nat.
    destruct (Z.of_nat 4 <=? zlen name) eqn:Z4; [|reflexivity]. cbn [andb].
    destruct (text_eqb _ _) eqn:T; [|reflexivity]. apply text_eqb_eq in T. exfalso.
    apply (Hn (firstn (length name - 4) name)). change (codes ".txt") with (txt ".txt"). rewrite <- T.
    symmetry. apply firstn_skipn. }
  rewrite NT in H. change (0x73 =? 0x01) with false in H. change (0x73 =? 0x23) with false in H.
  change (0x73 =? 0x73) with true in H. cbv iota in H.
  assert (X : exists q, bind (image_head r EWrongVersion) (fun _ => p_list r off f) (off + 1) = (Ok (kids, us), q)).
  { destruct (bind _ _ _) as [x q]. cbn [fst] in H. subst x. eauto. }
  destruct X as [q X]. apply bind_inv in X as ([] & p1 & X1 & X2).
  assert (X1' : image_head r EParse (off + 1) = (Ok tt, p1)).
  { unfold image_head in *. apply bind_inv in X1 as (nm & p2 & Y1 & Y2). step Y1.
    apply bind_inv in Y2 as (v & p3 & Y2 & Y3). step Y2.
    destruct (negb (text_eqb nm (txt "Property")) && negb (v =? 0)); [discriminate|exact Y3]. }
  unfold image_at_path. step E. change (negb (0x73 =? 0x73)) with false. cbv iota. step X1'.
  destruct (get_lacks r off Hs kids comps Hf f p1 us q X2) as (c & rest & -> & q' & G).
  destruct (get_node_path r off (c :: rest) f' p1 Hp) as (c' & rest' & EQ & G').
  injection EQ as <- <-. unfold bind. rewrite G', (G f' Hf'). reflexivity.
Qed.
Print Assumptions C64_missing_last_component.
Example C64_ex : image_at_path 40 (rd0 ex_missing) 0 (codes "x") = Err ENotFound /\
  exists us, image_children 40 (rd0 ex_missing) (codes "x.img") 0 0 = Ok ([(codes "a", Node ONull [])], us).
Proof. split; [vm_compute; reflexivity|]. eexists. vm_compute. reflexivity. Qed.

(** ** C21 *)
(** A negative count panics. *)
Theorem C21_parsing_returns_refuted :
  exists r, bytes (rd_buf r) /\ zlen (rd_buf r) = 13 /\
    forall f, image_children f r (codes "x.img") 0 0 = Panic.
Proof.
  exists (rd0 (0x73 :: enc_str key0 (codes "Property") ++ [0; 0] ++ [255])).
  split; [vm_compute; repeat constructor; discriminate|]. split; [reflexivity|]. intro f. vm_compute. reflexivity.
Qed.
Print Assumptions C21_parsing_returns_refuted.

(** An image of 40 bytes sends the parser into endless recursion. *)
Theorem C21_endless_recursion_refuted :
  exists r, bytes (rd_buf r) /\ zlen (rd_buf r) = 40 /\
    forall f, image_children f r (codes "x.img") 0 0 = OutOfFuel.
Proof.
  exists r_endless. split; [vm_compute; repeat constructor; discriminate|]. split; [reflexivity|]. intro f.
  unfold image_children.
  assert (E : read_u8 r_endless 0 = (Ok 0x73, 1)) by (vm_compute; reflexivity). step E.
  change (ends_with (codes "x.img") (txt ".txt")) with false. change (0x73 =? 0x01) with false.
  change (0x73 =? 0x23) with false. change (0x73 =? 0x73) with true. cbv iota.
  assert (E2 : image_head r_endless EWrongVersion 1 = (Ok tt, 12)) by (vm_compute; reflexivity). step E2.
  unfold p_list. assert (E3 : read_wz_int r_endless 12 = (Ok 1, 13)) by (vm_compute; reflexivity). step E3.
  assert (E4 : reserve 1 13 = (Ok tt, 13)) by reflexivity. step E4. apply endless_loop.
Qed.
Print Assumptions C21_endless_recursion_refuted.

(** ** C62: without strings of negative length the parser always returns, the
    recursion being bounded by the number of bytes. *)
Theorem C62_parsing_terminates :
  forall r origin p f, bytes (rd_buf r) -> zlen (rd_buf r) < 2 ^ 31 -> 0 <= p ->
    (forall a v, read_i8_at (rd_buf r) a = Ok (-128) -> read_i32_at (rd_buf r) (a + 1) = Ok v -> 0 <= v) ->
    2 * zlen (rd_buf r) + 1 <= Z.of_nat f ->
    fst (p_list r origin f p) <> OutOfFuel.
Proof. intros. eapply list_terminates; eassumption. Qed.
Print Assumptions C62_parsing_terminates.
(** Its hypothesis holds for instance of any data without a byte 0x80. *)
Lemma no_80 buf : bytes buf -> ~ In 128 buf ->
  forall a v, read_i8_at buf a = Ok (-128) -> read_i32_at buf (a + 1) = Ok v -> 0 <= v.
Proof.
  intros Hb H a v E _. exfalso. unfold read_i8_at, rmap, rbind, read_at in E.
  destruct (slice buf a (a + 1)) eqn:S; [|discriminate]. pose proof (slice_bytes _ _ _ _ Hb S) as Hl.
  apply slice_some in S as (A & B & C & D & x & y & -> & F).
  destruct l as [|b [|c l]]; unfold zlen in D; cbn [length] in D; try lia.
  cbn [le_val] in E. injection E as E. unfold bytes in Hl. inversion_clear Hl as [|? ? Hc _]. unfold byte in Hc.
  rewrite Z.mul_0_r, Z.add_0_r in E || rewrite Z.add_0_r in E.
  assert (b = 128).
  { pose proof (wrap_sext 8 b ltac:(lia)) as W. rewrite E, (wrap_small 8 b) in W by (change (2 ^ 8) with 256; lia).
    rewrite <- W. reflexivity. }
  subst b. apply H. apply in_or_app. right. left. reflexivity.
Qed.
Example C62_ex : fst (p_list (rd0 ex_frame) 0 100 0) <> OutOfFuel.
Proof.
  apply C62_parsing_terminates.
  - vm_compute. repeat constructor; discriminate.
  - vm_compute. reflexivity.
  - lia.
  - apply no_80; [vm_compute; repeat constructor; discriminate|]. vm_compute. intuition discriminate.
  - vm_compute. discriminate.
Qed.

(** ** C63: but the work is not bounded by the data: 1149 bytes parse to 2^63 nodes or more. *)
Theorem C63_work_bounded_refuted :
  exists r f kids us, bytes (rd_buf r) /\ zlen (rd_buf r) = 1149 /\
    image_children f r (codes "x.img") 0 0 = Ok (kids, us) /\ 2 ^ 63 <= list_size kids.
Proof.
  destruct (levels_parse 63 (le_n 63) 63 127 (le_n 63) ltac:(lia)) as (f & kids & us & q & Sz & P).
  exists (rd0 (blow 63)), f, kids, us.
  split; [vm_compute; repeat constructor; discriminate|]. split; [vm_compute; reflexivity|]. split; [|exact Sz].
  unfold image_children.
  assert (E : read_u8 (rd0 (blow 63)) 0 = (Ok 0x73, 1)) by (vm_compute; reflexivity). step E.
  change (ends_with (codes "x.img") (txt ".txt")) with false. change (0x73 =? 0x01) with false.
  change (0x73 =? 0x23) with false. change (0x73 =? 0x73) with true. cbv iota.
  assert (E2 : image_head (rd0 (blow 63)) EWrongVersion 1 = (Ok tt, 12)) by (vm_compute; reflexivity). step E2.
  unfold p_list. assert (E3 : read_wz_int (rd0 (blow 63)) 12 = (Ok 127, 13)) by (vm_compute; reflexivity). step E3.
  assert (E4 : reserve 127 13 = (Ok tt, 13)) by reflexivity. step E4.
  specialize (P f (le_n f)). change (pos 63 63) with 13 in P. unfold rd0. rewrite P. reflexivity.
Qed.
Print Assumptions C63_work_bounded_refuted.
(** The same shape with four levels, computed. *)
Example C63_ex : exists kids us, image_children 300 (rd0 (blow 4)) (codes "x.img") 0 0 = Ok (kids, us) /\
  list_size kids = 2032.
Proof. do 2 eexists. split; vm_compute; reflexivity. Qed.

(** ** C42 *)
(** An unknown type inside a convex makes the convex appear under the item's number. *)
Definition ex_unknown : list Z :=
  0x73 :: enc_str key0 (codes "Property") ++ [0; 0] ++ [1] ++ (0x73 :: enc_str key0 (codes "foot")) ++ 9 :: enc_le 4 22 ++
  (0x73 :: enc_str key0 (codes "Shape2D#Convex2D")) ++ [1] ++ (0x73 :: enc_str key0 (codes "?")).
Theorem C42_unknown_keeps_name_refuted :
  exists r e us, zlen (rd_buf r) < 2 ^ 31 /\ block_at (rd_buf r) (rd_ks r) 0 13 e (codes "foot") /\
    image_children 40 r (codes "x.img") 0 0 = Ok ([(codes "0", Node ONull [])], us).
Proof.
  exists (rd0 ex_unknown), 19. eexists. split; [vm_compute; reflexivity|]. split; [|vm_compute; reflexivity].
  eapply block_inline; [right; reflexivity|apply lit_unicode; reflexivity|..].
  - exists (firstn 13 ex_unknown), (skipn 14 ex_unknown). repeat split.
  - exists (firstn 14 ex_unknown), (skipn 19 ex_unknown). repeat split.
Qed.
Print Assumptions C42_unknown_keeps_name_refuted.

(** ** C65: outside a convex an unknown type gives a null node under the own name,
    and parsing goes on behind the block. *)
Definition known_types : list (list Z) :=
  [codes "Property"; codes "Canvas"; codes "Shape2D#Convex2D"; codes "Shape2D#Vector2D";
   codes "Sound_DX8"; codes "UOL"; codes "RawData"; codes "Canvas#Video"].
Theorem C65_unknown_type_named :
  forall r origin name p e size ty, zlen (rd_buf r) < 2 ^ 31 -> (forall j, byte (rd_ks r j)) ->
    0 <= size < 2 ^ 32 -> at_ (rd_buf r) p (p + 4) (enc_le 4 size) ->
    block_at (rd_buf r) (rd_ks r) origin (p + 4) e ty -> ~ In ty known_types ->
    forall f, (2 <= f)%nat ->
      p_node r origin f name 9 p = (Ok (name, Node ONull [], []), p + 4 + size).
Proof.
  intros r origin name p e size ty Hs Hk Hz H1 H2 Hty f Hf. destruct f as [|[|f]]; try lia.
  rewrite p_node_ext. destruct (at_u32 r Hs _ _ size Hz H1) as [E1 _]. step E1. rewrite bind_pos.
  pose proof (at_range _ _ _ _ H1) as (A & _ & B). rewrite wrap_small by (pows; lia).
  assert (X : exists q, p_ext r origin (S f) name (p + 4 + size) (p + 4) = (Err (EUnknownExt name), q)).
  { cbn [p_ext]. step (proj1 (at_block r Hs Hk _ _ _ _ H2)).
    assert (K : forall t, In t known_types -> text_eqb ty t = false).
    { intros t Ht. destruct (text_eqb ty t) eqn:T; [|reflexivity]. apply text_eqb_eq in T. subst t. contradiction. }
    repeat match goal with |- context[text_eqb ty ?t] => rewrite (K t) by (cbn; tauto) end. eexists. reflexivity. }
  destruct X as [q X]. unfold catch_unknown. rewrite X. reflexivity.
Qed.
Print Assumptions C65_unknown_type_named.
Example C65_ex : p_node (rd0 (enc_le 4 3 ++ [0x73; 255; 149])) 0 5 (codes "n") 9 0 = (Ok (codes "n", Node ONull [], []), 7) /\
  read_wz_string_block (rd0 (enc_le 4 3 ++ [0x73; 255; 149])) 0 4 = (Ok (codes "?"), 7).
Proof. split; vm_compute; reflexivity. Qed.

(** ** C43 *)
(** Two properties of the same name: the map keeps the second, direct access gives the first. *)
Definition ex_dup : list Z :=
  0x73 :: enc_str key0 (codes "Property") ++ [0; 0] ++ [2] ++
  (0x73 :: enc_str key0 (codes "a")) ++ [3; 1] ++ (0x73 :: enc_str key0 (codes "a")) ++ [3; 2].
Theorem C43_duplicates_refuted :
  exists r kids us, zlen (rd_buf r) < 2 ^ 31 /\ image_children 40 r (codes "x.img") 0 0 = Ok (kids, us) /\
    child kids (codes "a") = Some (Node (OInt 2) []) /\ holds kids (codes "a") (Node (OInt 2) []) /\
    image_at_path 40 r 0 (codes "a") = Ok (Node (OInt 1) []).
Proof.
  exists (rd0 ex_dup), [(codes "a", Node (OInt 1) []); (codes "a", Node (OInt 2) [])]. eexists. split; [vm_compute; reflexivity|].
  split; [vm_compute; reflexivity|]. split; [reflexivity|]. split; [|vm_compute; reflexivity].
  exists [(codes "a", Node (OInt 1) [])], []. split; [reflexivity|]. cbn. tauto.
Qed.
Print Assumptions C43_duplicates_refuted.

(** ** C61 *)
(** Whatever the bytes: the links returned for later resolution are exactly the
    UOL nodes of the tree, in document order. *)
Theorem C61_links_are_uol_nodes :
  forall r origin f p kids us q, p_list r origin f p = (Ok (kids, us), q) -> us = uol_paths_kids kids.
Proof.
  intros r origin f p kids us q H. destruct (list_inv _ _ _ _ _ _ _ H) as (n & p1 & _ & E).
  apply (proj1 (links_all r origin f) n _ _ _ E).
Qed.
Print Assumptions C61_links_are_uol_nodes.
Example C61_ex : exists kids, image_children 40 (mkRd (ser_image key7 ex_tree) key7 key0) (codes "x.img") 0 0 =
  Ok (kids, [[codes "d"; codes "link"]]).
Proof. eexists. vm_compute. reflexivity. Qed.

(** ** C76: images that are not property trees *)
Lemma ends_with_app pre suf : ends_with (pre ++ suf) suf = true.
Proof.
  unfold ends_with. rewrite zlen_app. pose proof (zlen_nonneg pre). change (Z.of_nat (length suf)) with (zlen suf).
  replace (zlen suf <=? zlen pre + zlen suf) with true by lia. cbn [andb]. rewrite app_length.
  replace (length pre + length suf - length suf)%nat with (length pre + 0)%nat by lia.
  rewrite skipn_app, skipn_all2 by lia. replace (length pre + 0 - length pre)%nat with 0%nat by lia. apply text_eqb_refl.
Qed.
Lemma ends_with_inv t suf : ends_with t suf = true -> exists pre, t = pre ++ suf.
Proof.
  unfold ends_with. destruct (_ <=? _); [|discriminate]. cbn [andb]. intro T. apply text_eqb_eq in T.
  exists (firstn (length t - length suf) t). rewrite <- T at 2. symmetry. apply firstn_skipn.
Qed.
Lemma ends_with_no t suf : (forall pre, t <> pre ++ suf) -> ends_with t suf = false.
Proof. intro H. destruct (ends_with t suf) eqn:E; [|reflexivity]. apply ends_with_inv in E as [pre E]. destruct (H pre E). Qed.

Theorem C76_text_images :
  forall f r name off size b, zlen (rd_buf r) < 2 ^ 31 -> 0 <= b < 256 -> at_ (rd_buf r) off (off + 1) [b] ->
    ((exists pre, name = pre ++ codes ".txt") ->
       image_children f r name off size = Ok ([(codes "text.txt", Node (ORaw off size) [])], [])) /\
    ((forall pre, name <> pre ++ codes ".txt") ->
       (forall pre q len, name = pre ++ codes ".lua" -> b = 1 -> 0 <= len -> int_at (rd_buf r) (off + 1) q len ->
          image_children f r name off size = Ok ([(codes "Script", Node (OLua q len) [])], [])) /\
       ((forall pre, name <> pre ++ codes ".lua") -> b = 1 -> image_children f r name off size = Err ELua) /\
       (at_ (rd_buf r) off (off + 9) (codes "#Property") -> 9 <= size < 2 ^ 64 ->
          image_children f r name off size = Ok ([(codes "text.txt", Node (ORaw (off + 9) (size - 9)) [])], [])) /\
       (b <> 1 -> b <> 0x23 -> b <> 0x73 -> image_children f r name off size = Err EImageHeader)).
Proof.
  intros f r name off size b Hs Hb A. destruct (at_u8 r Hs _ _ _ Hb A) as [E _].
  pose proof (at_range _ _ _ _ A) as (R0 & _ & R2). split; [|intro NT; split; [|split; [|split]]].
  - intros [pre ->]. unfold image_children. step E. change (codes ".txt") with (txt ".txt"). rewrite ends_with_app. reflexivity.
  - intros pre q len -> -> L0 I. unfold image_children. step E.
    rewrite (ends_with_no _ (txt ".txt")) by exact NT. change (1 =? 1) with true. cbv iota.
    change (codes ".lua") with (txt ".lua"). rewrite ends_with_app. step (at_wzint r Hs _ _ _ I). rewrite bind_pos.
    destruct I as [I _]. unfold ret. cbn [fst]. rewrite wrap_small by (pows; lia). reflexivity.
  - intros NL ->. unfold image_children. step E. rewrite (ends_with_no _ (txt ".txt")) by exact NT.
    change (1 =? 1) with true. cbv iota. rewrite (ends_with_no _ (txt ".lua")) by exact NL. reflexivity.
  - intros P Hsz.
    assert (B : b = 0x23).
    { destruct A as (p1 & q1 & E1 & L1 & _), P as (p2 & q2 & E2 & L2 & _). rewrite E1 in E2.
      apply app_inj_len in E2 as [_ E2]; [|lia]. cbn in E2. injection E2 as -> _. reflexivity. }
    subst b. unfold image_children. step E. rewrite (ends_with_no _ (txt ".txt")) by exact NT.
    change (0x23 =? 0x01) with false. change (0x23 =? 0x23) with true. cbv iota.
    pose proof (at_range _ _ _ _ P) as (_ & _ & P2).
    rewrite (wrap_small 64 (off + 9)), (wrap_small 64 (size - 9)) by (pows; lia).
    assert (SL : slice (rd_buf r) off (off + 9) = Some (codes "#Property")).
    { destruct P as (p2 & q2 & E2 & -> & _). rewrite E2. apply slice_app; reflexivity. }
    rewrite SL. change (txt "#Property") with (codes "#Property"). rewrite text_eqb_refl. reflexivity.
  - intros N1 N2 N3. unfold image_children. step E. rewrite (ends_with_no _ (txt ".txt")) by exact NT.
    replace (b =? 1) with false by lia. replace (b =? 0x23) with false by lia. replace (b =? 0x73) with false by lia. reflexivity.
Qed.
Print Assumptions C76_text_images.
Example C76_ex :
  image_children 3 (rd0 [7; 1; 3; 97; 98; 99]) (codes "a.lua") 1 5 = Ok ([(codes "Script", Node (OLua 3 3) [])], []) /\
  image_children 3 (rd0 (codes "#Property x")) (codes "a.img") 0 11 = Ok ([(codes "text.txt", Node (ORaw 9 2) [])], []).
Proof. vm_compute. auto. Qed.

(** C18: the three kinds of sound. *)
Example C18_ex_sound :
  let head d := 0 :: enc_str key0 (codes "Sound_DX8") ++ [0; 5] ++ enc_wzint 4 d in
  let body n := repeat 0 56 ++ [n; 0; 0; 0] ++ repeat 0 10 ++ [1; 2; 3; 4; 5] in
  let kind d n := let b := head d ++ body n in
    match p_ext (rd0 b) 0 5 (codes "x") (zlen b) 0 with
    | (Ok (_, Node (OSound s) _, _), _) => Some (snd_type s) | _ => None end in
  (kind 1000 5, kind 1000 4, kind 999 5) = (Some Binary, Some Wav, Some Wav).
Proof. vm_compute. reflexivity. Qed.
