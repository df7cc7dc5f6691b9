(** Walks that read nothing, over any file in any state: C282, C283. *)
From Coq Require Import ZArith List Bool Lia Permutation.
From Coq Require String Ascii.
From Verif.Model Require Import Base Utf Keys Reader WzStr Header Offset Directory Image Media Guess File Node Ms World.
From Verif.Spec Require Import Wire Stream StrWire HeaderSpec Version Media PropWire PropView DirWire DirView DirWire2 Aes KeyFind PropEnc PathSpec Tree ChaCha Stroll.
From Verif.Proofs Require Import NodeL StrollL LostL.
From Verif.Props Require Import P_Media P_Header P_Strict P_Version P_Directory P_Node P_Guess P_File P_Whole P_Tour P_Linked P_LinkPack P_LinkTour P_LinkEnd.
Import ListNotations. Import String.StringSyntax.
Open Scope Z_scope.

(** A file of any content that has been opened: a package, an archive or an image. *)
Inductive opened (st : list Z -> nat -> Z) (bl : list Z -> list Z -> Z -> list Z) : world -> Prop :=
| opened_package name buf iv existing patch cache : opened st bl (w_open name buf iv existing patch cache)
| opened_archive name file buf w : w_open_ms bl name file buf = Ok w -> opened st bl w
| opened_image name buf iv w : w_open_img st name buf iv = Ok w -> opened st bl w.
(** What may have become of it: any of its nodes parsed, let go, looked up from or walked from, with any outcome. *)
Inductive handled (st : list Z -> nat -> Z) (bl : list Z -> list Z -> Z -> list Z) (f : nat) (w : world) : world -> Prop :=
| handled_not : handled st bl f w w
| handled_parse w1 i : handled st bl f w w1 -> handled st bl f w (snd (w_parse st bl f w1 i i))
| handled_lookup w1 i path : handled st bl f w w1 -> handled st bl f w (snd (w_at_path_parsed st bl f w1 i path))
| handled_unparse w1 i : handled st bl f w w1 -> handled st bl f w (mkWorld (unparse (w_heap w1) i) (w_thing w1) (w_next w1) (w_cache w1))
| handled_walk w1 order d force i : handled st bl f w w1 -> handled st bl f w (snd (w_walk st bl f order d force w1 i)).

Lemma handled_keeps st bl f w w1 : handled st bl f w w1 -> keeps w w1.
Proof.
  induction 1 as [|w1 i _ IH|w1 i path _ IH|w1 i _ IH|w1 order d force i _ IH]; [apply keeps_refl| | | |]; (eapply keeps_trans; [exact IH|]).
  - apply keeps_parse.
  - apply keeps_lookup.
  - apply keeps_unparse.
  - apply keeps_walk.
Qed.
Lemma opened_sound st bl w : opened st bl w -> sound w /\ w_heap w 0 <> None.
Proof.
  intros [name buf iv existing patch cache|name file buf w' E|name buf iv w' E].
  - apply sound_first.
  - unfold w_open_ms in E. destruct (ms_open bl file buf) as [h| | |]; try discriminate E. assert (X : forall a b : world, Ok a = Ok b -> a = b) by (intros a b [= ->]; reflexivity). rewrite <- (X _ _ E). apply sound_first.
  - unfold w_open_img in E. destruct (image_open st buf iv) as [v| | |]; try discriminate E. assert (X : forall a b : world, Ok a = Ok b -> a = b) by (intros a b [= ->]; reflexivity). rewrite <- (X _ _ E). apply sound_first.
Qed.
Lemma handled_sound st bl f w w1 : opened st bl w -> handled st bl f w w1 -> sound w1 /\ w_heap w1 0 <> None.
Proof. intros O H. destruct (opened_sound _ _ _ O) as [S T]. destruct (handled_keeps _ _ _ _ _ H S) as [S1 K]. split; [exact S1|exact (K 0 T)]. Qed.

(** C282: take any file at all and anything done with it.  A walk that does not force anything, from any node there is, in any order,
    changes nothing and never panics.  If it returns, [f] has been called once for each path below the node, with the node the path stands
    for, parents before children.  It returns if and only if no path is longer than the recursion may go. *)
Theorem C282_unforced_walk st bl f w w1 order d i :
  opened st bl w -> handled st bl f w w1 -> (forall l, Permutation (order l) l) -> w_heap w1 i <> None ->
  w_heap w1 0 <> None /\ snd (w_walk st bl f order d false w1 i) = w1 /\
  match fst (w_walk st bl f order d false w1 i) with
  | Ok tr => (forall p j, stands (w_heap w1) i p j -> (length p < d)%nat) /\
             exists ps, Forall2 (fun e p => snd e = w1 /\ stands (w_heap w1) i p (fst e)) tr ps /\ all_paths (w_heap w1) i ps
  | OutOfFuel => exists p j, stands (w_heap w1) i p j /\ length p = d
  | _ => False
  end.
Proof.
  intros O H Ord T. destruct (handled_sound _ _ _ _ _ O H) as [[A N] T0]. split; [exact T0|]. pose proof (still st bl f order w1 d [] i) as S. split; [exact S|].
  pose proof (walk_or st bl f order Ord w1 d N [] i T) as R. unfold w_walk. destruct (w_walk_in st bl f order [] d false w1 i) as [r w2] eqn:E. cbn [fst snd] in *. subst w2.
  destruct r as [tr| | |]; try exact R. split; [|exact (walk_right st bl f order Ord w1 A d [] i tr E)].
  intros p j P. destruct (Compare_dec.le_lt_dec d (length p)) as [L|L]; [|exact L]. destruct (walk_short st bl f order Ord w1 d [] i p j tr P L E).
Qed.
Print Assumptions C282_unforced_walk.

(** C283: the paths of C282 are those [at_path] knows: whatever the file and whatever was done with it, what an unforced walk calls [f] with is
    the node itself and what [at_path] finds below it, provided no name below it contains a slash. *)
Theorem C283_unforced_walk_is_at_path st bl f w w1 order d i tr :
  opened st bl w -> handled st bl f w w1 -> (forall l, Permutation (order l) l) ->
  (forall p j, stands (w_heap w1) i p j -> Forall (fun c => ~ In 47 c) p) ->
  w_walk st bl f order d false w1 i = (Ok tr, w1) ->
  forall j, In j (map fst tr) <-> j = i \/ exists path, at_path (w_heap w1) i path = Some j.
Proof.
  intros O H Ord Pl E j. destruct (handled_sound _ _ _ _ _ O H) as [[A N] _]. destruct (walk_right st bl f order Ord w1 A d [] i tr E) as (ps & F & _ & C & _).
  assert (X : In j (map fst tr) <-> exists p, stands (w_heap w1) i p j).
  { split.
    - clear - F. intro I. induction F as [|e p tr ps [_ S] _ IH]; [destruct I|]. destruct I as [<-|I]; [exists p; exact S|auto].
    - intros [p S]. pose proof (C p j S) as I. clear - F I S A. induction F as [|e q tr ps [_ S2] _ IH]; [destruct I|]. destruct I as [->|I]; [left|right; auto].
      apply (stands_fold _ A) in S, S2. rewrite S2 in S. injection S as ->. reflexivity. }
  rewrite X. split.
  - intros [p S]. destruct p as [|n p]; [inversion S; auto|right]. exists (joined (n :: p)). rewrite at_path_join; [apply (stands_fold _ A), S|discriminate|exact (Pl _ _ S)].
  - intros [->|[path P]]; [exists []; constructor|]. unfold at_path in P. exists (split_slash path). apply (stands_fold _ A). destruct (split_slash path); [discriminate P|exact P].
Qed.
Print Assumptions C283_unforced_walk_is_at_path.

(** The numbers of the nodes [f] met. *)
Definition met (x : res (list (id * world)) * world) : option (list id) := match fst x with Ok tr => Some (map fst tr) | _ => None end.
(** [stair83] opened, and after a lookup into its image, whose links make [t] the node [s] and [l] below them the node [a]: each path is met, so the
    shared nodes are met again.  In [link83] the links go round and the walk goes as deep as it may.  Bytes that are no package at all are a
    node with nothing below. *)
Example C282_example :
  let st := iv_key (aes256 user_key) in
  let after := fun buf path => snd (w_at_path_parsed st chacha_block 20 (snd (w_parse st chacha_block 20 (w_open (codes "Mob.wz") buf None None 83 []) 0 0)) 0 path) in
  let walk := fun w d => w_walk st chacha_block 20 (@rev (text * id)) d false w 0 in
  met (walk (after stair83 (codes "Mob.img")) 9%nat) = Some [0; 1] /\
  met (walk (after stair83 (codes "Mob.img/a")) 4%nat) = Some [0; 1; 3; 2; 3; 2; 2] /\
  outcome (walk (after stair83 (codes "Mob.img/a")) 3%nat) = 1%nat /\
  outcome (walk (after link83 (codes "Mob.img/a")) 9%nat) = 1%nat /\ met (walk (after [1; 2; 3] (codes "a")) 9%nat) = Some [0].
Proof. vm_compute. repeat split. Qed.
Example C283_example :
  let st := iv_key (aes256 user_key) in
  let w := snd (w_at_path_parsed st chacha_block 20 (snd (w_parse st chacha_block 20 (w_open (codes "Mob.wz") stair83 None None 83 []) 0 0)) 0 (codes "Mob.img/a")) in
  handled st chacha_block 20 (w_open (codes "Mob.wz") stair83 None None 83 []) w /\
  map (at_path (w_heap w) 0) [codes "Mob.img"; codes "Mob.img/t"; codes "Mob.img/t/l"; codes "Mob.img/s"; codes "Mob.img/s/l"; codes "Mob.img/a"; codes "Mob.img/l"] =
  [Some 1; Some 3; Some 2; Some 3; Some 2; Some 2; None].
Proof. split; [apply handled_lookup, handled_parse, handled_not|vm_compute; reflexivity]. Qed.
