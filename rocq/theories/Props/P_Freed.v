(** What a forced walk over any file leaves of the images it met: C284. *)
From Coq Require Import ZArith List Bool Lia.
From Coq Require String Ascii.
From Verif.Model Require Import Base Utf Keys Reader WzStr Header Offset Directory Image Media Guess File Node Ms World.
From Verif.Spec Require Import Wire Stream StrWire HeaderSpec Version Media PropWire PropView DirWire DirView DirWire2 Aes KeyFind PropEnc PathSpec Tree ChaCha.
From Verif.Proofs Require Import FreedL.
From Verif.Props Require Import P_Media P_Header P_Strict P_Version P_Directory P_Node P_Guess P_File P_Whole P_Tour P_Linked P_LinkPack P_LinkTour P_LinkEnd P_Stroll.
Import ListNotations. Import String.StringSyntax.
Open Scope Z_scope.

(** A node that is an image, read or not. *)
Definition an_image (w : world) (i : id) : Prop := exists c b, w_heap w i = Some c /\ nd_kind c = KImage b.

Lemma opened_bounded st bl w : opened st bl w -> WorldL.bounded w.
Proof.
  assert (X : forall a b : world, Ok a = Ok b -> a = b) by (intros a b [= ->]; reflexivity).
  intros [name buf iv existing patch cache|name file buf w' E|name buf iv w' E].
  - apply bounded_first.
  - unfold w_open_ms in E. destruct (ms_open bl file buf) as [h| | |]; try discriminate E. rewrite <- (X _ _ E). apply bounded_first.
  - unfold w_open_img in E. destruct (image_open st buf iv) as [v| | |]; try discriminate E. rewrite <- (X _ _ E). apply bounded_first.
Qed.
Lemma handled_bounded st bl f w w1 : opened st bl w -> handled st bl f w w1 -> WorldL.bounded w1.
Proof.
  intro O. induction 1 as [|w1 i _ IH|w1 i path _ IH|w1 i _ IH|w1 order d force i _ IH]; [exact (opened_bounded _ _ _ O)| | | |].
  - apply bounded_parse, IH.
  - apply bounded_lookup, IH.
  - exact (proj2 (proj2 (drop_apart w1 i)) IH).
  - apply bounded_walk, IH.
Qed.

(** C284: take any file at all and anything done with it.  If a walk that forces parsing returns, from any node and in any order, then every
    image it called [f] with is afterwards without its children and unread, also one that was read before the walk.  So is every image that
    was so before, met or not, and every image is still one. *)
Theorem C284_walk_lets_images_go st bl f w w1 order d i tr w2 :
  opened st bl w -> handled st bl f w w1 -> w_walk st bl f order d true w1 i = (Ok tr, w2) ->
  (forall j wj, In (j, wj) tr -> an_image wj j -> let_go w2 j) /\
  (forall j, let_go w1 j -> let_go w2 j) /\ (forall j, an_image w1 j -> an_image w2 j).
Proof.
  intros O H E. destruct (walk_free st bl f order d [] w1 i tr w2 (handled_bounded _ _ _ _ _ O H) E) as [(_ & I & G) F].
  split; [|split; [exact G|exact I]]. intros j wj Hin Im. rewrite Forall_forall in F. exact (F _ Hin Im).
Qed.
Print Assumptions C284_walk_lets_images_go.

(** [stair83] after a lookup that read its image: the walk that forces parsing meets the shared nodes again, and then the image has no
    children and what was below it is not found any more.  A second walk reads the image again, into other nodes, and also lets it go. *)
Example C284_example :
  let st := iv_key (aes256 user_key) in
  let w := w_open (codes "Mob.wz") stair83 None None 83 [] in
  let w1 := snd (w_at_path_parsed st chacha_block 20 (snd (w_parse st chacha_block 20 w 0 0)) 0 (codes "Mob.img/a")) in
  let x := w_walk st chacha_block 20 (@rev (text * id)) 9 true w1 0 in
  let y := w_walk st chacha_block 20 (@rev (text * id)) 9 true (snd x) 0 in
  let left := fun w => (option_map (fun c => (nd_kind c, nd_slots c)) (w_heap w 1), at_path (w_heap w) 0 (codes "Mob.img/a")) in
  left w1 = (Some (KImage true, [(codes "a", 2); (codes "s", 3); (codes "t", 3)]), Some 2) /\
  met x = Some [0; 1; 3; 2; 3; 2; 2] /\ left (snd x) = (Some (KImage false, []), None) /\
  met y = Some [0; 1; 7; 6; 7; 6; 6] /\ left (snd y) = (Some (KImage false, []), None).
Proof. vm_compute. repeat split. Qed.
