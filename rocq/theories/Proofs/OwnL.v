(** Lemmas on the images of archives: whatever is done, each stays what it is. *)
From Coq Require Import ZArith List Bool Lia ZifyBool ZifyNat Permutation.
From Verif.Model Require Import Base Utf Keys Reader Directory Image File Node Ms World.
From Verif.Proofs Require Import WorldL.
Import ListNotations.
Open Scope Z_scope.

Section own.
  Variable st : list Z -> nat -> Z.
  Variable bl : list Z -> list Z -> Z -> list Z.
  Variable f : nat.
  Variable j : id.
  Variables (b : list Z) (e : ms_entry) (x : list Z).
  Hypothesis X : to_wz_image bl b e = Ok x.

  (** The node [j] is that entry of the archive, not yet unpacked or unpacked. *)
  Definition mine (w : world) : Prop :=
    j < w_next w /\ (w_thing w j = ThMsImage b e \/ exists nm off size, w_thing w j = ThImage (own_reader st x) nm off size).

  Lemma mine_same w w' : w_thing w' = w_thing w -> w_next w' = w_next w -> mine w -> mine w'.
  Proof using. unfold mine. intros -> ->. auto. Qed.
  Lemma mine_fresh w n t p : mine w -> mine (fst (fresh w n t p)).
  Proof using. unfold mine, fresh. cbn [fst w_next w_thing]. intros [L M]. replace (j =? w_next w) with false by lia. split; [lia|exact M]. Qed.
  Lemma mine_fill w i l : mine w -> mine (fill w i l).
  Proof using. apply mine_same; reflexivity. Qed.
  Lemma mine_list {A} (g : world -> text -> A -> world * id * list id) l :
    Forall (fun d => forall w, mine w -> mine (fst (fst (g w (fst d) (snd d))))) l -> forall w, mine w -> mine (fst (fst (plant_list g w l))).
  Proof using.
    induction 1 as [|[n y] l H _ IH]; intros w O; [exact O|]. rewrite plant_list_cons. cbn [fst snd] in H. specialize (H w O).
    destruct (g w n y) as [[w1 i] us]. specialize (IH w1 H). destruct (plant_list g w1 l) as [[w2 l'] us']. exact IH.
  Qed.
  Lemma mine_plant r : forall n p w name, mine w -> mine (fst (fst (plant r p w name n))).
  Proof using.
    fix IH 1. intros [o kids] p w name O. cbn [plant]. destruct (fresh w name (ThProp r o) (Some p)) as [w1 i] eqn:E.
    assert (O1 : mine w1) by (replace w1 with (fst (fresh w name (ThProp r o) (Some p))) by (rewrite E; reflexivity); apply mine_fresh, O).
    assert (K : Forall (fun d => forall w, mine w -> mine (fst (fst (plant r i w (fst d) (snd d))))) kids).
    { clear E O1. induction kids as [|[n y] kids IHk]; constructor; [|exact IHk]. intros w2 O2. cbn [fst snd]. apply IH, O2. }
    pose proof (mine_list (plant r i) kids K w1 O1) as L. destruct (plant_list (plant r i) w1 kids) as [[w2 l] us]. cbn [fst] in *. apply mine_fill, L.
  Qed.
  Lemma mine_plant_dir s : forall n p w name, mine w -> mine (fst (fst (plant_dir s p w name n))).
  Proof using.
    fix IH 1. intros [off size|d kids|] p w name O; cbn [plant_dir fst].
    - apply mine_fresh, O.
    - destruct (fresh w name (ThDir s d) (Some p)) as [w1 i] eqn:E.
      assert (O1 : mine w1) by (replace w1 with (fst (fresh w name (ThDir s d) (Some p))) by (rewrite E; reflexivity); apply mine_fresh, O).
      assert (K : Forall (fun d => forall w, mine w -> mine (fst (fst (plant_dir s i w (fst d) (snd d))))) kids).
      { clear E O1. induction kids as [|[n y] kids IHk]; constructor; [|exact IHk]. intros w2 O2. cbn [fst snd]. apply IH, O2. }
      pose proof (mine_list (plant_dir s i) kids K w1 O1) as L. destruct (plant_list (plant_dir s i) w1 kids) as [[w2 l] us]. cbn [fst] in *. apply mine_fill, L.
    - apply mine_fresh, O.
  Qed.
  Lemma mine_load w p i : mine w -> mine (snd (w_load st bl f w p i)).
  Proof using X.
    intro O. unfold w_load.
    assert (D : forall s w kids, mine w -> mine (fst (fst (plant_list (plant_dir s p) w kids)))).
    { intros s w0 kids O0. apply mine_list; [|exact O0]. apply Forall_forall. intros d _ w2. apply mine_plant_dir. }
    assert (P : forall r w kids, mine w -> mine (fst (fst (plant_list (plant r p) w kids)))).
    { intros r w0 kids O0. apply mine_list; [|exact O0]. apply Forall_forall. intros d _ w2. apply mine_plant. }
    assert (M : forall buf w kids, mine w -> mine (fst (fst (plant_list (plant_ms buf p) w kids)))).
    { intros b' w0 kids O0. apply mine_list; [|exact O0]. apply Forall_forall. intros d _ w2 O2. unfold plant_ms. cbn [fst]. apply mine_fresh, O2. }
    destruct (w_thing w i) as [buf iv ex patch|s d|r nm off size|buf h|buf e'|r o] eqn:T.
    - destruct (rbind _ _) as [[h y]| | |]; try exact O. specialize (D (shared_of st buf h y) (set_cache w (pf_cache y)) (pf_kids y) O). destruct (plant_list _ _ _) as [[w1 l] us]. exact D.
    - assert (O' : forall d', mine (set_thing w i (ThDir s d'))).
      { intro d'. unfold mine, set_thing in *. cbn [w_next w_thing]. destruct (Z.eqb_spec j i) as [->|_]; [|exact O]. rewrite T in O. destruct O as [_ [O|(? & ? & ? & O)]]; discriminate O. }
      destruct (resolve_children _ _ _ _ _ _ _) as [[kids| | |] d']; try apply O'. specialize (D s (set_thing w i (ThDir s d')) kids (O' d')). destruct (plant_list _ _ _) as [[w1 l] us]. exact D.
    - destruct (image_children _ _ _ _ _) as [[kids us0]| | |]; try exact O. specialize (P r w kids O). destruct (plant_list _ _ _) as [[w1 l] us]. exact P.
    - destruct (ms_parse _ _ _) as [es| | |]; try exact O. specialize (M buf w (map (fun e => (me_name e, e)) es) O). destruct (plant_list _ _ _) as [[w1 l] us]. exact M.
    - destruct (to_wz_image bl buf e') as [y| | |] eqn:Y; cbn [rbind]; try exact O.
      destruct (image_children _ _ _ _ _) as [[kids us0]| | |]; cbn [rmap rbind fst]; try exact O.
      assert (O' : mine (set_thing w i (ThImage (own_reader st y) (me_name e') 0 (wrap 64 (me_size e'))))).
      { unfold mine, set_thing in *. cbn [w_next w_thing]. destruct (Z.eqb_spec j i) as [->|_]; [|exact O]. split; [exact (proj1 O)|]. right.
        rewrite T in O. destruct O as [_ [O|(? & ? & ? & O)]]; [|discriminate O]. injection O as -> ->. rewrite X in Y. injection Y as <-. eauto. }
      specialize (P (own_reader st y) _ kids O'). destruct (plant_list _ _ _) as [[w1 l] us]. exact P.
    - exact O.
  Qed.
  Lemma mine_parse w i p : mine w -> mine (snd (w_parse st bl f w i p)).
  Proof using X.
    intro O. unfold w_parse. destruct (w_heap w i) as [c|]; [|exact O]. destruct (unread (nd_kind c)); [|exact O].
    pose proof (mine_load w p i O) as O1. destruct (w_load st bl f w p i) as [[[kids us]| | |] w1]; cbn [snd] in *; try exact O1.
    destruct (parse _ (w_heap w) [] i p) as [h| | |]; cbn [snd]; try exact O1.
  Qed.
  Lemma mine_fold comps : forall w i, mine w -> mine (snd (w_fold st bl f w i comps)).
  Proof using X.
    induction comps as [|n rest IH]; intros w i O; [exact O|]. cbn [w_fold]. pose proof (mine_parse w i i O) as P.
    destruct (w_parse st bl f w i i) as [[| | |] w1]; cbn [snd] in *; try exact P. destruct (node_at (w_heap w1) i n); [apply IH, P|exact P].
  Qed.
  Lemma mine_path w i path : mine w -> mine (snd (w_at_path_parsed st bl f w i path)).
  Proof using X. intro O. unfold w_at_path_parsed. destruct (split_slash path) as [|t l]; [exact O|]. destruct (node_at (w_heap w) i t); [|exact O]. apply mine_fold, O. Qed.
  Lemma mine_walk order force d : forall rd w i, mine w -> mine (snd (w_walk_in st bl f order rd d force w i)).
  Proof using X.
    induction d as [|d IH]; intros rd w i O; [exact O|]. cbn [w_walk_in]. destruct (force && held i rd); [exact O|].
    assert (O1 : mine (snd (if force then w_parse st bl f w i i else (Ok tt, w)))) by (destruct force; [apply mine_parse, O|exact O]).
    assert (G : forall w1, mine w1 -> mine (snd match w_heap w1 i with
        | None => (Panic, w1)
        | Some c =>
          match w_loop (w_walk_in st bl f order (i :: rd) d force) w1 (order (nd_slots c)) with
          | (Ok l, w2) =>
            (Ok ((i, w1) :: l),
             match w_heap w2 i with
             | Some c2 => if force && is_image c2 then mkWorld (unparse (w_heap w2) i) (w_thing w2) (w_next w2) (w_cache w2) else w2
             | None => w2
             end)
          | x => x
          end
        end)).
    { clear w O O1. intros w O. destruct (w_heap w i) as [c|]; [|exact O].
      assert (Lp : forall l w, mine w -> mine (snd (w_loop (w_walk_in st bl f order (i :: rd) d force) w l))).
      { induction l as [|[n k] l IHl]; intros w3 O3; [exact O3|]. cbn [w_loop]. specialize (IH (i :: rd) w3 k O3). destruct (w_walk_in st bl f order (i :: rd) d force w3 k) as [[a| | |] w4]; try exact IH.
        specialize (IHl w4 IH). destruct (w_loop _ w4 l) as [y w5]. exact IHl. }
      specialize (Lp (order (nd_slots c)) w O). destruct (w_loop _ w (order (nd_slots c))) as [[l| | |] w2]; try exact Lp. cbn [snd] in *.
      destruct (w_heap w2 i) as [c2|]; [|exact Lp]. destruct (force && is_image c2); [|exact Lp]. revert Lp. apply mine_same; reflexivity. }
    destruct (if force then w_parse st bl f w i i else (Ok tt, w)) as [[| | |] w1]; cbn [snd] in O1; try exact O1; apply G, O1.
  Qed.
End own.
