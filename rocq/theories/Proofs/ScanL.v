(** Direct access (get_node) against the full parse, on arbitrary bytes. *)
From Coq Require Import ZArith List Bool Lia ZifyBool ZifyNat.
From Coq Require String.
From Verif.Model Require Import Base Utf Keys Reader WzStr VersionPkg1 Image.
From Verif.Spec Require Import Wire PropWire PropView PathSpec.
From Verif.Proofs Require Import BaseL WireL ReaderL AtL ImageL ParseL.
Import String.StringSyntax.
Ltac Zify.zify_post_hook ::= idtac.

Lemma bind_inv {A B} (m : R A) (f : A -> R B) p b q : bind m f p = (Ok b, q) ->
  exists a p', m p = (Ok a, p') /\ f a p' = (Ok b, q).
Proof. unfold bind. destruct (m p) as [[a| | |] p']; try discriminate. eauto. Qed.
Lemma ret_inv {A} (a b : A) p q : ret a p = (Ok b, q) -> a = b /\ p = q.
Proof. intro H. injection H as -> ->. auto. Qed.

Lemma bind_err {A B} (m : R A) (f : A -> R B) p e q : bind m f p = (Err e, q) ->
  m p = (Err e, q) \/ exists a p', m p = (Ok a, p') /\ f a p' = (Err e, q).
Proof.
  unfold bind. destruct (m p) as [[a| | |] p']; try discriminate; [eauto|].
  intro H. injection H as -> ->. auto.
Qed.

Ltac inv1 H := apply bind_inv in H as (? & ? & ?H & H).

(** *** who raises "unknown extended property" *)
Definition noext {A} (m : R A) : Prop := forall p n q, m p <> (Err (EUnknownExt n), q).
Lemma noext_bind {A B} (m : R A) (f : A -> R B) : noext m -> (forall a, noext (f a)) -> noext (bind m f).
Proof.
  intros H1 H2 p n q. unfold bind. specialize (H1 p). destruct (m p) as [[a|e| |] p']; try discriminate.
  - apply H2.
  - intro E. injection E as -> _. apply (H1 n p'). reflexivity.
Qed.
Lemma noext_ret {A} (a : A) : noext (ret a). Proof. discriminate. Qed.
Lemma noext_if {A} (b : bool) (m n : R A) : noext m -> noext n -> noext (if b then m else n).
Proof. destruct b; auto. Qed.
Lemma noext_pos : noext get_pos. Proof. discriminate. Qed.
Lemma noext_skip n : noext (skip n). Proof. discriminate. Qed.
Lemma noext_oof {A} : noext (@out_of_fuel A). Proof. discriminate. Qed.
Lemma noext_panic {A} : noext (@panic A). Proof. discriminate. Qed.
Lemma noext_reserve n : noext (reserve n). Proof. unfold reserve. destruct (n <? 0); discriminate. Qed.
Lemma noext_lift {A} (x : res A) : (forall n, x <> Err (EUnknownExt n)) -> noext (lift x).
Proof. intros H p n q E. injection E as E _. apply (H n E). Qed.
Lemma read_at_noext n b p m : read_at n b p <> Err (EUnknownExt m).
Proof. unfold read_at. destruct (slice b p (p + n)); discriminate. Qed.
Lemma noext_cur n r : noext (cur_read n (read_at n) r).
Proof. intros p m q E. unfold cur_read in E. injection E as E _. apply (read_at_noext n _ _ _ E). Qed.
Lemma noext_curm {B} n (g : Z -> B) r : noext (cur_read n (fun b p => rmap g (read_at n b p)) r).
Proof.
  intros p m q E. unfold cur_read in E. injection E as E _. unfold rmap, rbind in E.
  pose proof (read_at_noext n (rd_buf r) p m). destruct (read_at n (rd_buf r) p); try discriminate. congruence.
Qed.
Lemma noext_wzint r : noext (read_wz_int r).
Proof. apply noext_bind; [apply (noext_curm 1 (sext 8))|intro]. apply noext_if; [apply (noext_curm 4 (sext 32))|apply noext_ret]. Qed.
Lemma noext_wzint64 r : noext (read_wz_int64 r).
Proof. apply noext_bind; [apply (noext_curm 1 (sext 8))|intro]. apply noext_if; [apply (noext_curm 8 (sext 64))|apply noext_ret]. Qed.
Lemma resolve_noext r t o l n : resolve_meta r t o l <> Err (EUnknownExt n).
Proof.
  destruct t; cbn [resolve_meta]; try discriminate;
    unfold resolve_ascii_raw, resolve_unicode_raw, resolve_pkg2_dir_raw, get_decrypt_slice, get_pkg2_decrypt_slice, rmap, rbind;
    (destruct (slice (rd_buf r) o (wrap 64 (o + l))); [|discriminate]); try discriminate.
  all: match goal with |- context[chunks_u16 ?x] => generalize x end; intro x;
    assert (C : forall e, chunks_u16 x <> Err e)
      by (induction x as [| |a b x IH] using list_ind2; cbn [chunks_u16]; try discriminate;
          intro e; unfold rmap, rbind; specialize (IH e); destruct (chunks_u16 x); congruence);
    specialize (C (EUnknownExt n)); destruct (chunks_u16 x); try discriminate; congruence.
Qed.
Lemma noext_str r : noext (read_wz_string r).
Proof.
  apply noext_bind; [apply (noext_curm 1 (sext 8))|intro sl].
  assert (A : noext (read_ascii_string r sl)).
  { apply noext_bind; [apply noext_if; [apply (noext_curm 4 (sext 32))|apply noext_ret]|intro].
    apply noext_if; [apply noext_ret|]. apply noext_bind; [apply noext_pos|intro].
    apply noext_bind; [apply noext_lift; intro; apply resolve_noext|intro].
    apply noext_bind; [apply noext_skip|intro; apply noext_ret]. }
  destruct (string_type sl); try exact A; [|apply noext_ret].
  apply noext_bind; [apply noext_if; [apply (noext_curm 4 (sext 32))|apply noext_ret]|intro].
  apply noext_if; [apply noext_ret|]. apply noext_bind; [apply noext_pos|intro].
  apply noext_bind; [apply noext_lift; intro; apply resolve_noext|intro].
  apply noext_bind; [apply noext_skip|intro; apply noext_ret].
Qed.
Lemma noext_meta r : noext (read_wz_string_meta r).
Proof.
  apply noext_bind; [apply (noext_curm 1 (sext 8))|intro sl].
  destruct (string_type sl); try apply noext_ret; apply noext_if;
    repeat first [apply noext_bind; [|intro] | apply noext_pos | apply noext_skip | apply noext_ret | apply (noext_curm 4 (sext 32))].
Qed.
Lemma noext_atoff {A} off (m : R A) : noext m -> noext (at_offset off m).
Proof. intros H p n q E. unfold at_offset in E. injection E as E _. apply (H off n (snd (m off))). rewrite <- E. apply surjective_pairing. Qed.
Lemma noext_block r o : noext (read_wz_string_block r o).
Proof.
  apply noext_bind; [apply (noext_cur 1)|intro t]. apply noext_if; [apply noext_str|].
  apply noext_if; [|apply noext_ret]. apply noext_bind; [apply (noext_curm 4 (sext 32))|intro].
  apply noext_atoff, noext_str.
Qed.
Lemma noext_blockmeta r o : noext (read_wz_string_block_meta r o).
Proof.
  apply noext_bind; [apply (noext_cur 1)|intro t]. apply noext_if; [apply noext_meta|].
  apply noext_if; [|apply noext_ret]. apply noext_bind; [apply (noext_curm 4 (sext 32))|intro].
  apply noext_atoff, noext_meta.
Qed.
Lemma noext_fail {A} e : (forall n, e <> EUnknownExt n) -> noext (@fail A e).
Proof. intros H p n q E. injection E as E _. apply (H n E). Qed.

Lemma noext_catch m e : noext (catch_unknown m e).
Proof. intros p n q. unfold catch_unknown. destruct (m p) as [[?|[]| |] ?]; discriminate. Qed.
Lemma catch_inv m e p x q : catch_unknown m e p = (Ok x, q) ->
  (exists q', m p = (Ok x, q')) \/ exists n q', m p = (Err (EUnknownExt n), q') /\ x = (n, Node ONull [], []).
Proof.
  unfold catch_unknown. destruct (m p) as [[?|[]| |] q']; try discriminate; intro H; injection H as <- _; [left|right]; eauto.
Qed.
Lemma catch_pos m e p x q : catch_unknown m e p = (Ok x, q) -> q = e.
Proof. unfold catch_unknown. destruct (m p) as [[?|[]| |] ?]; congruence. Qed.

Ltac nx := repeat first
  [ apply noext_if | apply noext_ret | apply noext_pos | apply noext_skip
  | apply noext_reserve | apply noext_wzint | apply noext_wzint64 | apply noext_block | apply noext_blockmeta
  | apply noext_oof | apply noext_panic
  | apply (noext_cur 1) | apply (noext_cur 2) | apply (noext_cur 4) | apply (noext_cur 8)
  | apply (noext_curm 1 (sext 8)) | apply (noext_curm 2 (sext 16)) | apply (noext_curm 4 (sext 32))
  | apply noext_fail; discriminate | assumption | apply noext_bind; [|intro] ].

Lemma noext_canvas r : noext (p_canvas_tail r). Proof. unfold p_canvas_tail. nx. Qed.
Lemma noext_sound r b : noext (p_sound r b).
Proof.
  unfold p_sound. nx. cbv zeta. nx. destruct (slice _ _ _) as [h|]; [|apply noext_panic]. nx.
  apply noext_lift. intros n. unfold sound_type_of, frequency_header, rbind.
  destruct (zlen h <=? 0x3c); [discriminate|]. destruct (read_i32_at h 0x38); discriminate.
Qed.

Section names.
  Variable r : rd.
  Variable origin : Z.

  (** errors of extended properties carry their own name or that of a convex item *)
  Definition ext_names {A} (name : option text) (m : R A) : Prop :=
    forall p n q, m p = (Err (EUnknownExt n), q) -> Some n = name \/ exists i, 0 <= i /\ n = to_string i.
  Lemma en_noext {A} o (m : R A) : noext m -> ext_names o m.
  Proof. intros H p n q E. destruct (H p n q E). Qed.
  Lemma en_bind {A B} o (m : R A) (f : A -> R B) : noext m -> (forall a, ext_names o (f a)) -> ext_names o (bind m f).
  Proof.
    intros H1 H2 p n q. unfold bind. specialize (H1 p). destruct (m p) as [[a|e| |] p']; try discriminate.
    - apply H2.
    - intro E. injection E as -> _. destruct (H1 n p'). reflexivity.
  Qed.
  Lemma en_bind_l {A B} o (m : R A) (f : A -> R B) : ext_names o m -> (forall a, noext (f a)) -> ext_names o (bind m f).
  Proof.
    intros H1 H2 p n q. unfold bind. specialize (H1 p). destruct (m p) as [[a|e| |] p']; try discriminate.
    - intro E. destruct (H2 _ _ _ _ E).
    - intro E. injection E as -> _. apply (H1 n p'). reflexivity.
  Qed.
  Lemma en_if {A} o (b : bool) (m n : R A) : ext_names o m -> ext_names o n -> ext_names o (if b then m else n).
  Proof. destruct b; auto. Qed.

  Lemma names_err : forall f,
    (forall n, noext (p_entries r origin f n)) /\
    (forall name t, noext (p_node r origin f name t)) /\
    (forall name b, ext_names (Some name) (p_ext r origin f name b)) /\
    (forall b i n, 0 <= i -> ext_names None (p_convex r origin f b i n)).
  Proof.
    induction f as [|f (HE & HN & HX & HC)].
    - repeat split; intros; cbn [p_entries p_node p_ext p_convex]; try apply en_noext; nx.
    - repeat split; intros.
      + cbn [p_entries]. apply noext_if; [nx|]. apply noext_bind; [nx|intro name]. apply noext_bind; [nx|intro t].
        apply noext_bind; [apply HN|intros [[? ?] ?]]. apply noext_bind; [apply HE|intro; nx].
      + cbn [p_node]. nx.
        apply noext_catch.
      + cbn [p_ext].
        apply en_bind; [apply noext_block|intro ty].
        repeat apply en_if; try (apply en_noext; nx; first [apply HE | apply noext_canvas | apply noext_sound]).
        * apply en_bind; [nx|intro]. apply en_bind; [nx|intro]. apply en_bind_l; [|intro; nx].
          intros p n q E. destruct (HC b 0 a ltac:(lia) _ _ _ E) as [X|X]; [discriminate|right; exact X].
        * apply en_noext. apply noext_bind; [apply noext_sound|intro; nx].
        * intros p n q E. injection E as -> _. auto.
      + cbn [p_convex]. apply en_if; [apply en_noext; nx|].
        intros p m q E. apply bind_err in E as [E|([[nm nd] us] & p1 & _ & E)].
        * destruct (HX _ _ _ _ _ E) as [Y|Y]; right; [|exact Y]. injection Y as ->. eauto.
        * apply bind_err in E as [E|(l & p2 & _ & E)]; [|discriminate]. refine (HC b (i + 1) n _ p1 m q E). lia.
  Qed.

  Lemma p_ext_name f name b p nm nd us q : p_ext r origin f name b p = (Ok (nm, nd, us), q) -> nm = name.
  Proof.
    assert (P : post (p_ext r origin f name b) (fun x => fst (fst x) = name)).
    { destruct f; cbn [p_ext]; [apply post_oof|].
      apply post_skip; intro ty.
      repeat apply post_if; repeat first [apply post_fail | apply post_ret; reflexivity | apply post_skip; intro]. }
    intro H. apply (P _ _ _ H).
  Qed.

  Lemma digits_numeral f : forall v acc, Forall (fun c => 48 <= c <= 57) acc ->
    Forall (fun c => 48 <= c <= 57) (digits_go f v acc).
  Proof.
    induction f; intros v acc H; cbn [digits_go]; [exact H|].
    assert (0 <= v mod 10 < 10) by (apply Z.mod_pos_bound; lia).
    destruct (v / 10 =? 0); [|apply IHf]; constructor; auto; lia.
  Qed.
  Lemma digits_ne f : forall v acc, acc <> [] -> digits_go f v acc <> [].
  Proof.
    induction f; intros v acc H; cbn [digits_go]; [exact H|].
    destruct (v / 10 =? 0); [|apply IHf]; discriminate.
  Qed.
  Lemma to_string_numeral v : 0 <= v -> numeral (to_string v).
  Proof.
    intro H. unfold to_string. replace (v <? 0) with false by lia. split.
    - change (digits_go 10 v []) with (if v / 10 =? 0 then [48 + v mod 10] else digits_go 9 (v / 10) [48 + v mod 10]).
      destruct (v / 10 =? 0); [|apply digits_ne]; discriminate.
    - apply digits_numeral. constructor.
  Qed.

  (** a parsed property keeps its name, or is a null node named by a number *)
  Lemma p_node_name f name t p nm nd us q : p_node r origin f name t p = (Ok (nm, nd, us), q) ->
    nm = name \/ (nd = Node ONull [] /\ numeral nm).
  Proof.
    destruct f; cbn [p_node]; [discriminate|]. intro H.
    assert (P : forall m : R parsed, post m (fun x => fst (fst x) = name) -> m p = (Ok (nm, nd, us), q) -> nm = name)
      by (intros m Hm E; apply (Hm _ _ _ E)).
    destruct (t =? 0). { left. eapply P; [|exact H]. apply post_ret. reflexivity. }
    do 3 (match type of H with (if ?b then _ else _) _ = _ => destruct b end;
     [left; eapply P; [|exact H]; apply post_skip; intro; apply post_ret; reflexivity|]).
    destruct (t =? 4).
    { left. eapply P; [|exact H]. apply post_skip; intro. apply post_if; [apply post_skip; intro|]; apply post_ret; reflexivity. }
    do 2 (match type of H with (if ?b then _ else _) _ = _ => destruct b end;
     [left; eapply P; [|exact H]; apply post_skip; intro; apply post_ret; reflexivity|]).
    destruct (t =? 9); [|discriminate].
    apply bind_inv in H as (size & p1 & H1 & H). rewrite bind_pos in H.
    apply catch_inv in H as [[q' E]|(n & q' & E & X)].
    - left. eapply p_ext_name, E.
    - injection X as -> -> _.
      destruct (names_err f) as (_ & _ & HX & _). destruct (HX _ _ _ _ _ E) as [X|(i & Hi & ->)].
      + left. congruence.
      + right. split; [reflexivity|apply to_string_numeral, Hi].
  Qed.

  (** *** framing *)
  Lemma frame f name p x q : p_node r origin f name 9 p = (Ok x, q) ->
    exists size, read_u32_at (rd_buf r) p = Ok size /\ q = wrap 64 (wrap 64 (p + 4) + size).
  Proof.
    destruct f; [discriminate|]. cbn [p_node]. cbv beta iota delta [Z.eqb Pos.eqb orb].
    intro H. apply bind_inv in H as (size & p1 & H1 & H). rewrite bind_pos in H.
    apply cur_read_inv in H1 as [H1 ->]. exists size. split; [exact H1|].
    apply catch_pos in H. exact H.
  Qed.
End names.

Section scanning.
  Variable r : rd.
  Variable origin : Z.
  Hypothesis Hs : zlen (rd_buf r) < 2 ^ 31.

  Lemma string_skip p m q {B} (g : R B) : read_wz_string_block_meta r origin p = (Ok m, q) ->
    bind (read_u8 r) (fun st => bind (if (st =? 0) || (st =? 0x73) then bind (read_wz_string_meta r) (fun _ => ret tt)
         else if (st =? 1) || (st =? 0x1B) then skip 4 else ret tt) (fun _ => g)) p = g q.
  Proof.
    unfold read_wz_string_block_meta. intro H. apply bind_inv in H as (st & p1 & H1 & H). step H1.
    destruct ((st =? 0) || (st =? 0x73)).
    - rewrite bind_assoc. step H. reflexivity.
    - destruct ((st =? 1) || (st =? 0x1B)).
      + apply bind_inv in H as (a & p2 & H2 & H). apply cur_read_inv in H2 as [_ ->].
        unfold read_wz_string_meta_at, at_offset in H. injection H as _ <-. reflexivity.
      + apply ret_inv in H as [_ ->]. reflexivity.
  Qed.

  (** one entry that is not asked for *)
  Lemma scan_pass k f cur last n p name p1 t p2 nm nd us q : 0 < n ->
    read_wz_string_block r origin p = (Ok name, p1) -> read_u8 r p1 = (Ok t, p2) ->
    p_node r origin f name t p2 = (Ok (nm, nd, us), q) -> text_eqb name cur = false ->
    scan_list r origin (S k) cur last n p = scan_list r origin k cur last (n - 1) q.
  Proof.
    intros Hn H1 H2 H3 Hc. cbn [scan_list]. replace (n <=? 0) with false by lia.
    step H1. step H2. rewrite Hc. cbn [andb].
    destruct f as [|f]; [discriminate|]. cbn [p_node] in H3.
    destruct (t =? 0). { apply ret_inv in H3 as [_ ->]. reflexivity. }
    destruct ((t =? 2) || (t =? 11)).
    { apply bind_inv in H3 as (v & p3 & E & H3). apply ret_inv in H3 as [_ ->].
      apply cur_read_inv in E as [_ ->]. reflexivity. }
    destruct ((t =? 3) || (t =? 19)).
    { apply bind_inv in H3 as (v & p3 & E & H3). apply ret_inv in H3 as [_ ->]. step E. reflexivity. }
    destruct (t =? 20).
    { apply bind_inv in H3 as (v & p3 & E & H3). apply ret_inv in H3 as [_ ->]. step E. reflexivity. }
    destruct (t =? 4).
    { apply bind_inv in H3 as (v & p3 & E & H3). step E. destruct (v =? 0x80).
      - apply bind_inv in H3 as (w & p4 & F & H3). apply ret_inv in H3 as [_ ->].
        apply cur_read_inv in F as [_ ->]. reflexivity.
      - apply ret_inv in H3 as [_ ->]. reflexivity. }
    destruct (t =? 5).
    { apply bind_inv in H3 as (v & p3 & E & H3). apply ret_inv in H3 as [_ ->].
      apply cur_read_inv in E as [_ ->]. reflexivity. }
    destruct (t =? 8).
    { apply bind_inv in H3 as (v & p3 & E & H3). apply ret_inv in H3 as [_ ->]. apply (string_skip _ _ _ _ E). }
    destruct (t =? 9); [|discriminate].
    apply bind_inv in H3 as (size & p3 & E & H3). step E. rewrite bind_pos in H3.
    assert (Q : q = wrap 64 (p3 + size)).
    { apply catch_pos in H3. exact H3. }
    rewrite Q. reflexivity.
  Qed.

  Definition nonum (kids : list (text * node)) : Prop := forall k, In (k, Node ONull []) kids -> ~ numeral k.

  Lemma entries_cons_inv f n p kids us q : 0 < n -> p_entries r origin f n p = (Ok (kids, us), q) ->
    exists k name p1 t p2 nm nd us1 p3 kids' us2, f = S k /\ kids = (nm, nd) :: kids' /\
      read_wz_string_block r origin p = (Ok name, p1) /\ read_u8 r p1 = (Ok t, p2) /\
      p_node r origin k name t p2 = (Ok (nm, nd, us1), p3) /\
      p_entries r origin k (n - 1) p3 = (Ok (kids', us2), q).
  Proof.
    intros Hn. destruct f as [|k]; cbn [p_entries]; replace (n <=? 0) with false by lia; [discriminate|].
    intro H. apply bind_inv in H as (name & p1 & H1 & H). apply bind_inv in H as (t & p2 & H2 & H).
    apply bind_inv in H as ([[nm nd] us1] & p3 & H3 & H). apply bind_inv in H as ([kids' us2] & p4 & H4 & H).
    apply ret_inv in H as [H ->]. cbn [fst snd] in H. injection H as <- _.
    repeat eexists; eassumption.
  Qed.
  Lemma entries_nil_inv f n p kids us q : n <= 0 -> p_entries r origin f n p = (Ok (kids, us), q) -> kids = [] /\ q = p.
  Proof.
    intros Hn. destruct f; cbn [p_entries]; replace (n <=? 0) with true by lia; intro H;
      apply ret_inv in H as [H ->]; injection H as <- _; auto.
  Qed.

  Lemma scan_absent cur last : forall f n p kids us q, p_entries r origin f n p = (Ok (kids, us), q) ->
    nonum kids -> ~ In cur (map fst kids) ->
    forall f', (f <= f')%nat -> scan_list r origin f' cur last n p = (Ok SEnd, q).
  Proof.
    induction f as [|f IH]; intros n p kids us q H Hp Hc f' Hf;
      (destruct (Z.leb_spec n 0) as [Hn|Hn];
       [destruct (entries_nil_inv _ _ _ _ _ _ Hn H) as [_ ->];
        destruct f'; cbn [scan_list]; replace (n <=? 0) with true by lia; reflexivity|]);
      destruct (entries_cons_inv _ _ _ _ _ _ Hn H) as (k & name & p1 & t & p2 & nm & nd & us1 & p3 & kids' & us2 & K & -> & H1 & H2 & H3 & H4);
      [discriminate|].
    injection K as <-. destruct f' as [|f']; [lia|].
    assert (N : nm = name).
    { destruct (p_node_name _ _ _ _ _ _ _ _ _ _ H3) as [X|[-> X]]; [exact X|].
      destruct (Hp nm); [left; reflexivity|exact X]. }
    subst nm. cbn [map fst In] in Hc.
    assert (E : text_eqb name cur = false).
    { destruct (text_eqb name cur) eqn:E; [|reflexivity]. apply text_eqb_eq in E. tauto. }
    rewrite (scan_pass f' _ _ _ _ _ _ _ _ _ _ _ _ _ Hn H1 H2 H3 E).
    eapply IH; [exact H4| |tauto|lia]. intros k' Hk. apply Hp. right. exact Hk.
  Qed.

  (** the first entry of that name, asked for as the last component *)
  Lemma scan_last cur nd : forall f n p pre post us q, p_entries r origin f n p = (Ok (pre ++ (cur, nd) :: post, us), q) ->
    nonum (pre ++ (cur, nd) :: post) -> ~ In cur (map fst pre) ->
    exists q', forall f', (f <= f')%nat -> scan_list r origin f' cur true n p = (Ok (SFound cur nd), q').
  Proof.
    induction f as [|f IH]; intros n p pre post us q H Hp Hc;
      (destruct (Z.leb_spec n 0) as [Hn|Hn];
       [destruct (entries_nil_inv _ _ _ _ _ _ Hn H) as [X _]; destruct pre; discriminate|]);
      destruct (entries_cons_inv _ _ _ _ _ _ Hn H) as (k & name & p1 & t & p2 & nm & nd' & us1 & p3 & kids' & us2 & K & E & H1 & H2 & H3 & H4);
      [discriminate|].
    injection K as <-.
    assert (N : nm = name).
    { destruct (p_node_name _ _ _ _ _ _ _ _ _ _ H3) as [X|[-> X]]; [exact X|].
      destruct (Hp nm); [rewrite E; left; reflexivity|exact X]. }
    subst nm. destruct pre as [|[nm0 nd0] pre].
    - cbn [app] in E. injection E as -> -> ->. exists p3. intros f' Hf. destruct f' as [|f']; [lia|].
      cbn [scan_list]. replace (n <=? 0) with false by lia. step H1. step H2.
      rewrite text_eqb_refl. cbn [andb].
      assert (H3' : p_node r origin f' name t p2 = (Ok (name, nd', us1), p3)).
      { eapply le_ok; [|exact H3|discriminate]. apply fuel_mono. lia. }
      step H3'. reflexivity.
    - cbn [app] in E. injection E as -> -> <-. cbn [map fst In] in Hc.
      assert (E : text_eqb name cur = false).
      { destruct (text_eqb name cur) eqn:E; [|reflexivity]. apply text_eqb_eq in E. tauto. }
      destruct (IH _ _ _ _ _ _ H4) as [q' Q].
      { intros k' Hk. apply Hp. right. exact Hk. }
      { tauto. }
      exists q'. intros f' Hf. destruct f' as [|f']; [lia|].
      rewrite (scan_pass f' _ _ _ _ _ _ _ _ _ _ _ _ _ Hn H1 H2 H3 E). apply Q. lia.
  Qed.

  (** entering a sub-property *)
  Lemma sub_inside f name t p sub us q : p_node r origin f name t p = (Ok (name, Node OSub sub, us), q) ->
    t = 9 /\ exists m p1 p2 k us', read_wz_string_block_meta r origin (wrap 64 (p + 4)) = (Ok m, p1) /\
      p2 = wrap 64 (p1 + 2) /\ p_list r origin k p2 = (Ok (sub, us'), snd (p_list r origin k p2)) /\ (k <= f)%nat.
  Proof.
    destruct f as [|f]; [discriminate|]. cbn [p_node]. intro H.
    assert (P : forall m : R parsed, post m (fun x => nd_obj (snd (fst x)) <> OSub) -> m p = (Ok (name, Node OSub sub, us), q) -> False).
    { intros m Hm E. apply (Hm _ _ _ E). reflexivity. }
    destruct (t =? 0). { exfalso; eapply P; [|exact H]. apply post_ret. discriminate. }
    do 3 (match type of H with (if ?b then _ else _) _ = _ => destruct b end;
     [exfalso; eapply P; [|exact H]; apply post_skip; intro; apply post_ret; discriminate|]).
    destruct (t =? 4).
    { exfalso; eapply P; [|exact H]. apply post_skip; intro. apply post_if; [apply post_skip; intro|]; apply post_ret; discriminate. }
    do 2 (match type of H with (if ?b then _ else _) _ = _ => destruct b end;
     [exfalso; eapply P; [|exact H]; apply post_skip; intro; apply post_ret; discriminate|]).
    destruct (Z.eqb_spec t 9) as [->|]; [|discriminate]. split; [reflexivity|].
    apply bind_inv in H as (size & p1 & H1 & H). rewrite bind_pos in H.
    apply cur_read_inv in H1 as [_ ->]. set (b := wrap 64 (wrap 64 (p + 4) + size)) in *.
    set (p1 := wrap 64 (p + 4)) in *.
    assert (X : exists e, p_ext r origin f name b p1 = (Ok (name, Node OSub sub, us), e)).
    { apply catch_inv in H as [X|(n & q' & _ & X)]; [exact X|discriminate]. }
    destruct X as [e X]. destruct f as [|f]; [discriminate|]. cbn [p_ext] in X.
    apply bind_inv in X as (ty & p2 & T & X).
    assert (P' : forall m : R parsed, post m (fun x => nd_obj (snd (fst x)) <> OSub) -> m p2 = (Ok (name, Node OSub sub, us), e) -> False).
    { intros m Hm E. apply (Hm _ _ _ E). reflexivity. }
    destruct (text_eqb ty (txt "Property")).
    - destruct (proj1 (lazy_eager_block _ _ _ _ _ Hs) T) as (m & M & _).
      exists m, p2, (wrap 64 (p2 + 2)), f.
      apply bind_inv in X as ([] & p3 & S & X). injection S as <-.
      apply bind_inv in X as (n & p4 & S1 & X). apply bind_inv in X as ([] & p5 & S2 & X).
      apply bind_inv in X as ([l lu] & p6 & S3 & X). apply ret_inv in X as [X ->]. cbn [fst snd] in X.
      injection X as -> _. exists lu.
      assert (L : p_list r origin f (wrap 64 (p2 + 2)) = (Ok (sub, lu), e)).
      { unfold p_list. step S1. step S2. exact S3. }
      rewrite L. cbn [snd]. repeat split; auto.
    - exfalso. eapply P'; [|exact X].
      repeat apply post_if; repeat first [apply post_fail | apply post_ret; discriminate | apply post_skip; intro].
  Qed.

  Lemma scan_down cur sub : forall f n p pre post us q, p_entries r origin f n p = (Ok (pre ++ (cur, Node OSub sub) :: post, us), q) ->
    nonum (pre ++ (cur, Node OSub sub) :: post) -> ~ In cur (map fst pre) ->
    exists p' k us' q', (k <= f)%nat /\ p_list r origin k p' = (Ok (sub, us'), q') /\
      forall f', (f <= f')%nat -> scan_list r origin f' cur false n p = (Ok SDescend, p').
  Proof.
    induction f as [|f IH]; intros n p pre post us q H Hp Hc;
      (destruct (Z.leb_spec n 0) as [Hn|Hn];
       [destruct (entries_nil_inv _ _ _ _ _ _ Hn H) as [X _]; destruct pre; discriminate|]);
      destruct (entries_cons_inv _ _ _ _ _ _ Hn H) as (k & name & p1 & t & p2 & nm & nd' & us1 & p3 & kids' & us2 & K & E & H1 & H2 & H3 & H4);
      [discriminate|].
    injection K as <-.
    assert (N : nm = name).
    { destruct (p_node_name _ _ _ _ _ _ _ _ _ _ H3) as [X|[-> X]]; [exact X|].
      destruct (Hp nm); [rewrite E; left; reflexivity|exact X]. }
    subst nm. destruct pre as [|[nm0 nd0] pre].
    - cbn [app] in E. injection E as -> <- ->.
      destruct (sub_inside _ _ _ _ _ _ _ H3) as (-> & m & p4 & p5 & k & us' & M & -> & L & Hk).
      exists (wrap 64 (p4 + 2)), k, us', (snd (p_list r origin k (wrap 64 (p4 + 2)))).
      split; [lia|]. split; [exact L|]. intros f' Hf. destruct f' as [|f']; [lia|].
      cbn [scan_list]. replace (n <=? 0) with false by lia. step H1. step H2.
      rewrite text_eqb_refl. cbn [andb]. cbv beta iota delta [Z.eqb Pos.eqb orb].
      assert (S4 : skip 4 p2 = (Ok tt, wrap 64 (p2 + 4))) by reflexivity. step S4. step M. reflexivity.
    - cbn [app] in E. injection E as -> -> <-. cbn [map fst In] in Hc.
      assert (E : text_eqb name cur = false).
      { destruct (text_eqb name cur) eqn:E; [|reflexivity]. apply text_eqb_eq in E. tauto. }
      destruct (IH _ _ _ _ _ _ H4) as (p' & k & us' & q' & Hk & L & Q).
      { intros k' Hk. apply Hp. right. exact Hk. }
      { tauto. }
      exists p', k, us', q'. split; [lia|]. split; [exact L|]. intros f' Hf. destruct f' as [|f']; [lia|].
      rewrite (scan_pass f' _ _ _ _ _ _ _ _ _ _ _ _ _ Hn H1 H2 H3 E). apply Q. lia.
  Qed.

  Lemma list_inv f p kids us q : p_list r origin f p = (Ok (kids, us), q) ->
    exists n p1, read_wz_int r p = (Ok n, p1) /\ p_entries r origin f n p1 = (Ok (kids, us), q).
  Proof.
    unfold p_list. intro H. apply bind_inv in H as (n & p1 & H1 & H). apply bind_inv in H as ([] & p2 & H2 & H).
    unfold reserve in H2. destruct (n <? 0); [discriminate|]. apply ret_inv in H2 as [_ ->]. eauto.
  Qed.

  Lemma in_first (c : text) (n : node) kids : In (c, n) kids -> NoDup (map fst kids) ->
    exists pre post, kids = pre ++ (c, n) :: post /\ ~ In c (map fst pre).
  Proof.
    intros H D. apply in_split in H as (pre & post & ->). exists pre, post. split; [reflexivity|].
    rewrite map_app in D. cbn [map fst] in D. apply NoDup_remove_2 in D. intro X. apply D. apply in_or_app. auto.
  Qed.

  Lemma get_follows : forall kids comps nd, follows kids comps nd -> forall f p us q,
    p_list r origin f p = (Ok (kids, us), q) ->
    exists c rest, comps = c :: rest /\ exists q', forall f', (f <= f')%nat ->
      get_loop r origin f' c rest p = (Ok (last comps [], nd), q').
  Proof.
    induction 1 as [kids c nd [D P] I | kids c sub rest nd [D P] I F IH]; intros f p us q L;
      destruct (list_inv _ _ _ _ _ L) as (n & p1 & H1 & H2);
      destruct (in_first _ _ _ I D) as (pre & post & -> & Hc); exists c; [exists []|exists rest];
      (split; [reflexivity|]).
    - destruct (scan_last _ _ _ _ _ _ _ _ _ H2 P Hc) as [q' Q]. exists q'. intros f' Hf.
      cbn [get_loop last]. step H1. step (Q f' Hf). reflexivity.
    - destruct (scan_down _ _ _ _ _ _ _ _ _ H2 P Hc) as (p' & k & us' & q' & Hk & L' & Q).
      destruct (IH _ _ _ _ L') as (c' & rest' & -> & q'' & G). exists q''. intros f' Hf.
      cbn [get_loop]. step H1. step (Q f' Hf). rewrite (G f' ltac:(lia)). reflexivity.
  Qed.

  Lemma get_lacks : forall kids comps, lacks kids comps -> forall f p us q,
    p_list r origin f p = (Ok (kids, us), q) ->
    exists c rest, comps = c :: rest /\ exists q', forall f', (f <= f')%nat ->
      get_loop r origin f' c rest p = (Err ENotFound, q').
  Proof.
    induction 1 as [kids c [D P] I | kids c sub rest [D P] I F IH]; intros f p us q L;
      destruct (list_inv _ _ _ _ _ L) as (n & p1 & H1 & H2).
    - exists c, []. split; [reflexivity|]. exists q. intros f' Hf. cbn [get_loop]. step H1.
      step (scan_absent c true _ _ _ _ _ _ H2 P I f' Hf). reflexivity.
    - destruct (in_first _ _ _ I D) as (pre & post & -> & Hc). exists c, rest. split; [reflexivity|].
      destruct (scan_down _ _ _ _ _ _ _ _ _ H2 P Hc) as (p' & k & us' & q' & Hk & L' & Q).
      destruct (IH _ _ _ _ L') as (c' & rest' & -> & q'' & G). exists q''. intros f' Hf.
      cbn [get_loop]. step H1. step (Q f' Hf). rewrite (G f' ltac:(lia)). reflexivity.
  Qed.

  Lemma split_joined comps : path_of comps -> split_slash (joined comps) = comps /\ joined comps <> [].
  Proof.
    intros (H1 & H2 & H3). split.
    - clear H2. induction comps as [|c comps IH]; [contradiction|]. inversion_clear H3 as [|? ? Hc Hr].
      assert (A : forall c, ~ In 47 c -> split_slash c = [c]).
      { clear. induction c as [|x c IH]; intro H; [reflexivity|]. cbn [split_slash].
        replace (x =? 47) with false by (cbn [In] in H; lia). rewrite IH by (cbn [In] in H; tauto). reflexivity. }
      assert (B : forall c s, ~ In 47 c -> split_slash (c ++ 47 :: s) = c :: split_slash s).
      { clear. induction c as [|x c IH]; intros s H; [reflexivity|]. cbn [app split_slash].
        replace (x =? 47) with false by (cbn [In] in H; lia). rewrite IH by (cbn [In] in H; tauto). reflexivity. }
      destruct comps as [|d comps]; [apply A, Hc|]. cbn [joined]. rewrite B by exact Hc.
      f_equal. apply IH; [discriminate|exact Hr].
    - destruct comps as [|c [|d comps]]; [contradiction|..].
      + cbn [joined]. intros ->. contradiction.
      + cbn [joined]. destruct c; discriminate.
  Qed.

  Lemma get_node_path comps f p : path_of comps -> exists c rest, comps = c :: rest /\
    get_node r origin f (joined comps) p = get_loop r origin f c rest p.
  Proof.
    intro H. destruct (split_joined comps H) as [A B]. destruct comps as [|c rest]; [destruct H; contradiction|].
    exists c, rest. split; [reflexivity|]. unfold get_node. rewrite A. destruct (joined (c :: rest)); [contradiction|reflexivity].
  Qed.
End scanning.
