(** Theorems about the picture of a canvas, through its links. *)
From Coq Require Import ZArith List Bool Lia Arith.
From Coq Require String.
Import String.StringSyntax.
From Verif.Model Require Import Base Utf Reader Image Node Picture.
From Verif.Spec Require Import PathSpec Tree PropWire Picture.
From Verif.Proofs Require Import NodeL PictureL.
From Verif.Props Require Import P_Node.
Local Open Scope Z_scope.

(** In a tree that has been read, a canvas shows the pixels at the end of its links, the inlink before the outlink; links
    that lead nowhere are passed over, and one that leads to what is no canvas is an error.  The tree does not change. *)
Theorem C197_picture : forall load picture pixels string_of h i r,
  shows picture pixels string_of h [] i r ->
  exists m, forall fuel, (m <= fuel)%nat ->
  get_image load picture pixels string_of fuel [] h i =
  match r with
  | Some (Ok x) => Ok (h, x)
  | Some (Err e) => Err e
  | Some Panic => Panic
  | Some OutOfFuel => OutOfFuel
  | None => Err (EOther 70)
  end.
Proof.
  intros load picture pixels string_of h i r S.
  destruct (shows_ok load _ _ _ _ _ _ _ S) as [m M]; [intros k []|]. exists m. intros fuel Hf. rewrite (M fuel Hf).
  destruct r as [[x|e| |]|]; reflexivity.
Qed.
Print Assumptions C197_picture.

(** Base (0) / Map (1) / a.img (2), b.img (3); the canvas a.img/x (4) is linked to y (5) of the same image, that one to b.img/p (7);
    a.img/z (6) has an inlink to nowhere; a.img/s (10) is linked to a string. *)
Definition links : list (id * cell) :=
  [(0, mkCell (txt "Base") (KFile true) None [(txt "Map", 1)]);
   (1, mkCell (txt "Map") (KDir true) (Some 0) [(txt "a.img", 2); (txt "b.img", 3)]);
   (2, mkCell (txt "a.img") (KImage true) (Some 1) [(txt "x", 4); (txt "y", 5); (txt "z", 6); (txt "s", 10)]);
   (4, mkCell (txt "x") (KOther 100) (Some 2) [(txt "_inlink", 8)]);
   (5, mkCell (txt "y") (KOther 101) (Some 2) [(txt "_outlink", 9)]);
   (6, mkCell (txt "z") (KOther 103) (Some 2) [(txt "_inlink", 11)]);
   (8, mkCell (txt "_inlink") (KOther 1) (Some 4) []);
   (9, mkCell (txt "_outlink") (KOther 2) (Some 5) []);
   (10, mkCell (txt "s") (KOther 104) (Some 2) [(txt "_inlink", 12)]);
   (11, mkCell (txt "_inlink") (KOther 3) (Some 6) []);
   (12, mkCell (txt "_inlink") (KOther 4) (Some 10) [])].
Definition b_read : list (id * cell) :=
  [(3, mkCell (txt "b.img") (KImage true) (Some 1) [(txt "p", 7)]);
   (7, mkCell (txt "p") (KOther 102) (Some 3) [])].
Definition pix (w : Z) : option (res Z) := if 100 <=? w then Some (Ok w) else None.
Definition strs (w : Z) : option text :=
  if w =? 1 then Some (txt "y") else if w =? 2 then Some (txt "Map/b.img/p")
  else if w =? 3 then Some (txt "gone") else if w =? 4 then Some (txt "s/_inlink") else None.
Definition all_read : heap := mem (links ++ b_read).
Definition no_load (h : heap) (p i : id) : option (heap * list (text * id) * list id) := None.

Ltac in_cell := eexists; split; [reflexivity|]; split; [repeat constructor; cbn; intuition discriminate|cbn; tauto].
Ltac no_cell := eexists; split; [reflexivity|]; cbn; intuition discriminate.
Ltac up_cell := split; [eexists; repeat split; reflexivity|eexists; reflexivity].
Ltac an_img := eexists; reflexivity.
Ltac parts := split; [discriminate|repeat constructor; cbn; intuition discriminate].

Lemma shows_p seen : shows Z pix strs all_read seen 7 (Some (Ok 102)).
Proof.
  apply shows_own; [exists (mkCell (txt "p") (KOther 102) (Some 3) []), 102; repeat split; reflexivity| |].
  - left. left. no_cell.
  - left. left. no_cell.
Qed.
Lemma shows_y : shows Z pix strs all_read [4] 5 (Some (Ok 102)).
Proof.
  apply (shows_out _ _ _ _ _ _ (Ok 101) 7).
  - exists (mkCell (txt "y") (KOther 101) (Some 2) [(txt "_outlink", 9)]), 101. repeat split; reflexivity.
  - left. left. no_cell.
  - exists [txt "Map"; txt "b.img"; txt "p"], 0. split; [|split; [parts|split; [|split]]].
    + exists 9, (mkCell (txt "_outlink") (KOther 2) (Some 5) []). split; [in_cell|]. split; [reflexivity|]. right. exists 2. split; reflexivity.
    + apply (near_up _ _ 5 (txt "y") 2 (mkCell (txt "a.img") (KImage true) (Some 1) [(txt "x", 4); (txt "y", 5); (txt "z", 6); (txt "s", 10)]));
        [up_cell|reflexivity|intros [_ [b X]]; discriminate X|].
      apply (near_up _ _ 2 (txt "a.img") 1 (mkCell (txt "Map") (KDir true) (Some 0) [(txt "a.img", 2); (txt "b.img", 3)]));
        [up_cell|reflexivity|intros [_ [b X]]; discriminate X|].
      apply (near_here _ _ 1 (txt "Map") 0 (mkCell (txt "Base") (KFile true) None [(txt "Map", 1)])); [up_cell|reflexivity|].
      split; [reflexivity|eexists; reflexivity].
    + apply (down_step _ _ _ 1); [in_cell|]. apply (down_step _ _ _ 3); [in_cell|]. apply (down_step _ _ _ 7); [in_cell|].
      econstructor. reflexivity.
    + exists [1; 3]. split.
      * apply way_step; [in_cell|]. apply way_step; [in_cell|]. apply way_end.
      * intros k [<-|[<-|[]]]; (split; [eexists; split; reflexivity|]; split; [cbn; lia|discriminate]).
  - apply shows_p.
Qed.
Lemma near_a i n : child_of all_read n i 2 -> nearest all_read an_image i 2.
Proof. intro Ch. eapply near_here; [exact Ch|reflexivity|an_img]. Qed.
Example C197_ex : shows Z pix strs all_read [] 4 (Some (Ok 102)) /\ shows Z pix strs all_read [] 6 (Some (Ok 103)) /\
  shows Z pix strs all_read [] 10 None /\
  get_image no_load Z pix strs 9 [] all_read 4 = Ok (all_read, 102) /\
  get_image no_load Z pix strs 9 [] all_read 6 = Ok (all_read, 103) /\
  get_image no_load Z pix strs 9 [] all_read 10 = Err (EOther 70).
Proof.
  split; [|split; [|split; [|repeat split]]].
  - apply (shows_in _ _ _ _ _ _ (Ok 100) 5).
    + exists (mkCell (txt "x") (KOther 100) (Some 2) [(txt "_inlink", 8)]), 100. repeat split; reflexivity.
    + exists [txt "y"], 2. split; [|split; [parts|split]].
      * exists 8, (mkCell (txt "_inlink") (KOther 1) (Some 4) []). split; [in_cell|]. split; [reflexivity|]. right. exists 1. split; reflexivity.
      * apply (near_a 4 (txt "x")); up_cell.
      * apply (down_step _ _ _ 5); [in_cell|]. econstructor. reflexivity.
    + exact shows_y.
  - apply shows_own.
    + exists (mkCell (txt "z") (KOther 103) (Some 2) [(txt "_inlink", 11)]), 103. repeat split; reflexivity.
    + right. exists [txt "gone"]. split; [|split; [parts|]].
      * exists 11, (mkCell (txt "_inlink") (KOther 3) (Some 6) []). split; [in_cell|]. split; [reflexivity|]. right. exists 3. split; reflexivity.
      * right. exists 2. split; [apply (near_a 6 (txt "z")); up_cell|]. apply lost_here. no_cell.
    + left. left. no_cell.
  - apply (shows_in _ _ _ _ _ _ (Ok 104) 12).
    + exists (mkCell (txt "s") (KOther 104) (Some 2) [(txt "_inlink", 12)]), 104. repeat split; reflexivity.
    + exists [txt "s"; txt "_inlink"], 2. split; [|split; [parts|split]].
      * exists 12, (mkCell (txt "_inlink") (KOther 4) (Some 10) []). split; [in_cell|]. split; [reflexivity|]. right. exists 4. split; reflexivity.
      * apply (near_a 10 (txt "s")); up_cell.
      * apply (down_step _ _ _ 10); [in_cell|]. apply (down_step _ _ _ 12); [in_cell|]. econstructor. reflexivity.
    + apply shows_other. exists (mkCell (txt "_inlink") (KOther 4) (Some 10) []). split; [reflexivity|].
      intros w [= <-]. reflexivity.
Qed.

(** What was read before is left as it was. *)
Theorem C198_kept : forall load picture pixels string_of fuel rd h i h' x, only_adds load -> links_inside load ->
  get_image load picture pixels string_of fuel rd h i = Ok (h', x) ->
  forall m, settled h m -> h' m = h m.
Proof. intros. eapply image_frame; eassumption. Qed.
Print Assumptions C198_kept.

(** An outlink into what has not been read: that is read, and the picture is that of the node
    the outlink then names.  Only if a name is missing or reading fails, the canvas' own pixels are shown. *)
Theorem C198_outlink_read : forall load picture pixels string_of fuel rd h i own p b h' x, only_adds load -> links_inside load ->
  canvas picture pixels h i own -> not_inlinked string_of h i ->
  says string_of h i (codes "_outlink") (joined p) -> good p -> nearest h base_file i b -> settled h b ->
  get_image load picture pixels string_of fuel rd h i = Ok (h', x) ->
  (exists h1 j f, goes h1 b p j /\ (forall m, settled h m -> h1 m = h m) /\
     get_image load picture pixels string_of f (i :: rd) h1 j = Ok (h', x)) \/
  (own = Ok x /\ exists p1 y p2 k, p = p1 ++ y :: p2 /\ goes h' b p1 k /\ (node_at h' k y = None \/ load h' k k = None)).
Proof. intros. eapply outlink_read; eassumption. Qed.
Print Assumptions C198_outlink_read.

(** The same archive before b.img is read. *)
Definition b_load (h : heap) (p i : id) : option (heap * list (text * id) * list id) :=
  if i =? 3 then Some (match h 7 with Some _ => h | None => put h 7 (mkCell (txt "p") (KOther 102) (Some 3) []) end, [(txt "p", 7)], [])
  else None.
Definition part_read : heap := mem (links ++ [(3, mkCell (txt "b.img") (KImage false) (Some 1) [])]).
Example C198_ex : only_adds b_load /\ links_inside b_load /\ at_path part_read 0 (txt "Map/b.img/p") = None /\
  exists h', get_image b_load Z pix strs 9 [] part_read 4 = Ok (h', 102) /\
    at_path h' 0 (txt "Map/b.img/p") = Some 7 /\ h' 5 = part_read 5 /\
    get_image no_load Z pix strs 9 [] part_read 4 = Ok (part_read, 101).
Proof.
  split; [|split; [|split; [reflexivity|]]].
  - intros h p i h1 kids uols L j c E. unfold b_load in L. destruct (i =? 3); [|discriminate]. injection L as <- _ _.
    destruct (h 7) eqn:X; [exact E|]. unfold put. destruct (Z.eqb_spec j 7) as [->|]; congruence.
  - intros h p i h1 kids uols L u q n I. unfold b_load in L. destruct (i =? 3); [|discriminate]. injection L as _ _ <-. destruct I.
  - eexists. repeat split.
Qed.

(** A canvas kept while its image is released, as walking does with every image, shows another picture from then on. *)
Theorem C199_released_refuted : exists load picture pixels string_of h i im x y,
  x <> y /\ hangs h im [txt "x"] i /\ image_node h im /\
  (forall fuel, (9 <= fuel)%nat -> get_image load picture pixels string_of fuel [] h i = Ok (h, x)) /\
  (forall fuel, (9 <= fuel)%nat -> get_image load picture pixels string_of fuel [] (unparse h im) i = Ok (unparse h im, y)).
Proof.
  exists no_load, Z, pix, strs, all_read, 4, 2, 102, 100. split; [discriminate|]. split.
  { apply (hangs_child _ _ [] (txt "x") 4 2); [econstructor; reflexivity|split; [discriminate|cbn; intuition discriminate]|up_cell|in_cell]. }
  split; [eexists; eexists; split; reflexivity|].
  split; intros fuel Hf; do 9 (destruct fuel as [|fuel]; [lia|]); reflexivity.
Qed.
Print Assumptions C199_released_refuted.

(** A link that cannot be followed is not reported: here the package is not called "Base", and the canvas' own pixels are shown. *)
Definition alone : heap := mem
  [(0, mkCell (txt "Map") (KFile true) None [(txt "a.img", 1)]);
   (1, mkCell (txt "a.img") (KImage true) (Some 0) [(txt "y", 5)]);
   (5, mkCell (txt "y") (KOther 101) (Some 1) [(txt "_outlink", 9)]);
   (9, mkCell (txt "_outlink") (KOther 2) (Some 5) [])].
Theorem C200_dangling_refuted : exists load picture pixels string_of h i p x,
  says string_of h i (codes "_outlink") (joined p) /\ none_above h base_file i /\ canvas picture pixels h i (Ok x) /\
  (forall fuel, (9 <= fuel)%nat -> get_image load picture pixels string_of fuel [] h i = Ok (h, x)).
Proof.
  exists no_load, Z, pix, strs, alone, 5, [txt "Map"; txt "b.img"; txt "p"], 101. split; [|split; [|split]].
  - exists 9, (mkCell (txt "_outlink") (KOther 2) (Some 5) []). split; [in_cell|]. split; [reflexivity|]. right. exists 2. split; reflexivity.
  - apply (none_up _ _ 5 (txt "y") 1 (mkCell (txt "a.img") (KImage true) (Some 0) [(txt "y", 5)]));
      [up_cell|reflexivity|intros [_ [b X]]; discriminate X|].
    apply (none_up _ _ 1 (txt "a.img") 0 (mkCell (txt "Map") (KFile true) None [(txt "a.img", 1)]));
      [up_cell|reflexivity|intros [X _]; discriminate X|].
    apply none_root. eexists. split; [reflexivity|discriminate].
  - exists (mkCell (txt "y") (KOther 101) (Some 1) [(txt "_outlink", 9)]), 101. repeat split; reflexivity.
  - intros fuel Hf; do 9 (destruct fuel as [|fuel]; [lia|]); reflexivity.
Qed.
Print Assumptions C200_dangling_refuted.

(** Links in a circle are followed for ever. *)
Definition circle : heap := mem
  [(1, mkCell (txt "a.img") (KImage true) None [(txt "x", 4); (txt "y", 5)]);
   (4, mkCell (txt "x") (KOther 100) (Some 1) [(txt "_inlink", 8)]);
   (5, mkCell (txt "y") (KOther 101) (Some 1) [(txt "_inlink", 9)]);
   (8, mkCell (txt "_inlink") (KUol (Some (txt "y"))) (Some 4) []);
   (9, mkCell (txt "_inlink") (KUol (Some (txt "x"))) (Some 5) [])].
Theorem C201_circle_refuted : exists load picture pixels string_of h i x,
  tree h 1 [1; 4; 8; 5; 9] /\ canvas picture pixels h i (Ok x) /\
  forall fuel rd, get_image load picture pixels string_of fuel rd h i = OutOfFuel.
Proof.
  exists no_load, Z, pix, strs, circle, 4, 100. split; [|split].
  - exists (Shape 1 [(txt "x", Shape 4 [(txt "_inlink", Shape 8 [])]); (txt "y", Shape 5 [(txt "_inlink", Shape 9 [])])]).
    split; [reflexivity|]. split; [repeat shape_tac|]. split; [repeat constructor; cbn; lia|reflexivity].
  - exists (mkCell (txt "x") (KOther 100) (Some 1) [(txt "_inlink", 8)]), 100. repeat split; reflexivity.
  - assert (G : forall fuel rd, get_image no_load Z pix strs fuel rd circle 4 = OutOfFuel /\ get_image no_load Z pix strs fuel rd circle 5 = OutOfFuel).
    { induction fuel as [|f IH]; intro rd; [split; reflexivity|]. destruct f as [|f]; [split; reflexivity|].
      remember (S f) as g eqn:Eg. cbn [get_image].
      assert (A : resolve_inlink g circle (txt "y") 4 = Ok (Some 5)) by (rewrite Eg; reflexivity).
      assert (B : resolve_inlink g circle (txt "x") 5 = Ok (Some 4)) by (rewrite Eg; reflexivity).
      change (circle 4) with (Some (mkCell (txt "x") (KOther 100) (Some 1) [(txt "_inlink", 8)])).
      change (circle 5) with (Some (mkCell (txt "y") (KOther 101) (Some 1) [(txt "_inlink", 9)])).
      cbn [nd_kind]. change (pix 100) with (Some (@Ok Z 100)). change (pix 101) with (Some (@Ok Z 101)).
      change (link_text strs circle 4 (txt "_inlink")) with (Some (txt "y")).
      change (link_text strs circle 5 (txt "_inlink")) with (Some (txt "x")). cbv iota. rewrite A, B. cbn [rbind].
      split; apply IH. }
    intros fuel rd. apply G.
Qed.
Print Assumptions C201_circle_refuted.

(** A canvas whose own pixels are fine has no picture when a link leads to what is no canvas. *)
Theorem C202_own_pixels_refuted : exists load picture pixels string_of h i x,
  canvas picture pixels h i (Ok x) /\
  forall fuel, (9 <= fuel)%nat -> get_image load picture pixels string_of fuel [] h i = Err (EOther 70).
Proof.
  exists no_load, Z, pix, strs, all_read, 10, 104. split.
  - exists (mkCell (txt "s") (KOther 104) (Some 2) [(txt "_inlink", 12)]), 104. repeat split; reflexivity.
  - intros fuel Hf; do 9 (destruct fuel as [|fuel]; [lia|]); reflexivity.
Qed.
Print Assumptions C202_own_pixels_refuted.

(** An outlink to something below the canvas itself blocks: the canvas is locked for reading and is to be locked for writing. *)
Definition inner : heap := mem
  [(0, mkCell (txt "Base") (KFile true) None [(txt "Map", 1)]);
   (1, mkCell (txt "Map") (KDir true) (Some 0) [(txt "b.img", 3)]);
   (3, mkCell (txt "b.img") (KImage true) (Some 1) [(txt "p", 5)]);
   (5, mkCell (txt "p") (KOther 101) (Some 3) [(txt "_outlink", 9); (txt "q", 6)]);
   (6, mkCell (txt "q") (KOther 102) (Some 5) []);
   (9, mkCell (txt "_outlink") (KUol (Some (txt "Map/b.img/p/q"))) (Some 5) [])].
Theorem C203_locks_up_refuted : exists load picture pixels string_of h i b p j x y,
  canvas picture pixels h i (Ok x) /\ says string_of h i (codes "_outlink") (joined p) /\ nearest h base_file i b /\
  down h b p j /\ canvas picture pixels h j (Ok y) /\
  forall fuel, (9 <= fuel)%nat -> get_image load picture pixels string_of fuel [] h i = Panic.
Proof.
  exists no_load, Z, pix, strs, inner, 5, 0, [txt "Map"; txt "b.img"; txt "p"; txt "q"], 6, 101, 102.
  split; [|split; [|split; [|split; [|split]]]].
  - exists (mkCell (txt "p") (KOther 101) (Some 3) [(txt "_outlink", 9); (txt "q", 6)]), 101. repeat split; reflexivity.
  - exists 9, (mkCell (txt "_outlink") (KUol (Some (txt "Map/b.img/p/q"))) (Some 5) []). split; [in_cell|]. split; [reflexivity|]. left. reflexivity.
  - apply (near_up _ _ 5 (txt "p") 3 (mkCell (txt "b.img") (KImage true) (Some 1) [(txt "p", 5)]));
      [up_cell|reflexivity|intros [_ [b X]]; discriminate X|].
    apply (near_up _ _ 3 (txt "b.img") 1 (mkCell (txt "Map") (KDir true) (Some 0) [(txt "b.img", 3)]));
      [up_cell|reflexivity|intros [_ [b X]]; discriminate X|].
    apply (near_here _ _ 1 (txt "Map") 0 (mkCell (txt "Base") (KFile true) None [(txt "Map", 1)])); [up_cell|reflexivity|].
    split; [reflexivity|eexists; reflexivity].
  - apply (down_step _ _ _ 1); [in_cell|]. apply (down_step _ _ _ 3); [in_cell|]. apply (down_step _ _ _ 5); [in_cell|].
    apply (down_step _ _ _ 6); [in_cell|]. econstructor. reflexivity.
  - exists (mkCell (txt "q") (KOther 102) (Some 5) []), 102. repeat split; reflexivity.
  - intros fuel Hf; do 9 (destruct fuel as [|fuel]; [lia|]); reflexivity.
Qed.
Print Assumptions C203_locks_up_refuted.
