(** Parsing laid-out property trees. *)
From Coq Require Import ZArith List Bool Lia ZifyBool ZifyNat.
From Verif.Model Require Import Base Utf Keys Reader WzStr VersionPkg1 Image.
From Verif.Spec Require Import Wire Stream StrWire Version PropWire PropView.
From Verif.Proofs Require Import BaseL WireL KeysL StringL ReaderL VersionL Pkg1L StrWireL AtL.

Scheme laid_entries_mut := Minimality for laid_entries Sort Prop
with laid_value_mut := Minimality for laid_value Sort Prop
with laid_ext_mut := Minimality for laid_ext Sort Prop
with laid_exts_mut := Minimality for laid_exts Sort Prop
with laid_list_mut := Minimality for laid_list Sort Prop.
Combined Scheme laid_mut from laid_entries_mut, laid_value_mut, laid_ext_mut, laid_exts_mut, laid_list_mut.

Lemma text_eqb_refl t : text_eqb t t = true.
Proof. induction t; cbn [text_eqb]; [reflexivity|]. rewrite Z.eqb_refl. assumption. Qed.
Lemma text_eqb_eq a : forall b, text_eqb a b = true <-> a = b.
Proof.
  induction a as [|x a IH]; intros [|y b]; cbn [text_eqb]; try (split; [discriminate|congruence]).
  - tauto.
  - rewrite andb_true_iff, Z.eqb_eq, IH. split; [intros [-> ->]; reflexivity|intro E; injection E; auto].
Qed.

Lemma skip_ok n p : 0 <= p + n < 2 ^ 64 -> skip n p = (Ok tt, p + n).
Proof. intro H. unfold skip. rewrite wrap_small by exact H. reflexivity. Qed.
Lemma reserve_ok n p : 0 <= n -> reserve n p = (Ok tt, p).
Proof. intro H. unfold reserve. replace (n <? 0) with false by lia. reflexivity. Qed.

Lemma bind_pos {B} (f : Z -> R B) p : bind get_pos f p = f p p.
Proof. reflexivity. Qed.
Lemma bind_ret {A B} (a : A) (f : A -> R B) p : bind (ret a) f p = f a p.
Proof. reflexivity. Qed.
Lemma bind_assoc {A B C} (m : R A) (f : A -> R B) (g : B -> R C) p :
  bind (bind m f) g p = bind m (fun x => bind (f x) g) p.
Proof. unfold bind. destruct (m p) as [[]]; reflexivity. Qed.

(** small floats *)
Lemma f32_of_u8_ok b : 0 <= b < 256 -> single_is (f32_of_u8 b) b.
Proof.
  intro H. unfold f32_of_u8. destruct (Z.eqb_spec b 0) as [->|N]; [left; auto|right].
  cbv zeta. destruct (Z.log2_spec b ltac:(lia)) as [L1 L2].
  assert (E0 : 0 <= Z.log2 b) by apply Z.log2_nonneg.
  assert (E8 : Z.log2 b < 8) by (apply Z.log2_lt_pow2; change (2 ^ 8) with 256; lia).
  set (e := Z.log2 b) in *.
  assert (C : e = 0 \/ e = 1 \/ e = 2 \/ e = 3 \/ e = 4 \/ e = 5 \/ e = 6 \/ e = 7) by lia.
  clearbody e. clear N.
  repeat (destruct C as [C|C]; [subst e|]); [..|subst e];
    (set (x := _ + (b - _) * _);
     match goal with x := ?k * ?u + (b - ?v) * ?w |- _ =>
       let k' := eval vm_compute in k in let u' := eval vm_compute in u in
       let v' := eval vm_compute in v in let w' := eval vm_compute in w in
       assert (X : x = k' * u' + (b - v') * w') by reflexivity; clearbody x;
       match type of L1 with ?l <= _ => let l' := eval vm_compute in l in change l with l' in L1 end;
       match type of L2 with _ < ?l => let l' := eval vm_compute in l in change l with l' in L2 end;
       change (2 ^ 31) with 2147483648; change (2 ^ 23) with 8388608;
       assert (D : x / 8388608 = k') by dlia; rewrite D;
       split; [lia|]; split; [lia|];
       match goal with |- context[2 ^ (150 - k')] => let z := eval vm_compute in (2 ^ (150 - k')) in change (2 ^ (150 - k')) with z end;
       dlia end).
Qed.

Ltac step H := rewrite (bind_ok _ _ _ _ _ H).
Ltac lits := repeat match goal with
  |- context[text_eqb (codes ?a) (txt ?b)] =>
    let v := eval vm_compute in (text_eqb (codes a) (txt b)) in
    change (text_eqb (codes a) (txt b)) with v; cbv iota end.

Lemma app_inj_len {A} (a b c d : list A) : length a = length c -> a ++ b = c ++ d -> a = c /\ b = d.
Proof.
  revert c. induction a as [|x a IH]; intros [|y c] L E; try discriminate; [auto|].
  injection L as L. injection E as -> E. destruct (IH c L E) as [-> ->]. auto.
Qed.
Lemma at_same buf p q l l' : at_ buf p q l -> at_ buf p q l' -> l = l'.
Proof.
  intros (a & b & -> & -> & ->) (c & d & E & P & Q).
  assert (La : length a = length c) by lia. assert (Ll : length l = length l') by lia.
  apply (app_inj_len _ _ _ _ La) in E as [-> E]. apply (app_inj_len _ _ _ _ Ll) in E as [-> _]. reflexivity.
Qed.

Lemma sound_kind_ok buf hoff off l size dur : slice buf hoff off = Some l -> 0 <= size < 2 ^ 31 ->
  exists ty, sound_type_of l size dur = Ok ty /\ sound_kind buf hoff off size dur ty.
Proof.
  intros SL Hsz. apply slice_some in SL as (A0 & A1 & A2 & LL & pre & post & -> & Hp).
  unfold sound_type_of, frequency_header. destruct (Z.eqb_spec (zlen l) 0x46) as [E70|N70].
  - replace (zlen l <=? 0x3c) with false by lia.
    destruct (slice_total l 56 60) as (m & SM & LM); [lia..|].
    unfold read_i32_at, read_at. change (56 + 4) with 60. rewrite SM. cbn [rmap rbind]. rewrite wrap_sext by lia.
    apply slice_some in SM as (_ & _ & _ & _ & p' & q' & -> & Hp').
    destruct m as [|a [|b [|c [|d [|x t]]]]]; rewrite ?zlen_cons, ?zlen_nil in LM; try lia; try (pose proof (zlen_nonneg t); lia).
    cbn [le_val].
    assert (AT : at_ (pre ++ (p' ++ [a; b; c; d] ++ q') ++ post) (hoff + 56) (hoff + 60) [a; b; c; d]).
    { exists (pre ++ p'), (q' ++ post). rewrite <- !app_assoc. split; [reflexivity|].
      change (Z.of_nat (length (pre ++ p'))) with (zlen (pre ++ p')). rewrite zlen_app. cbn [length]. split; lia. }
    assert (LF : forall s, length_field (pre ++ (p' ++ [a; b; c; d] ++ q') ++ post) hoff s <->
      (a + 256 * b + 65536 * c + 16777216 * d) mod 2 ^ 32 = s).
    { intro s. split.
      - intros (a' & b' & c' & d' & AT' & E). pose proof (at_same _ _ _ _ _ AT AT') as X. injection X as -> -> -> ->. exact E.
      - intro E. exists a, b, c, d. split; [exact AT|exact E]. }
    unfold wrap. replace (a + 256 * (b + 256 * (c + 256 * (d + 256 * 0)))) with (a + 256 * b + 65536 * c + 16777216 * d) by lia.
    destruct (Z.eqb_spec ((a + 256 * b + 65536 * c + 16777216 * d) mod 2 ^ 32) size) as [Ef|Nf];
      destruct (Z.eqb_spec dur 1000) as [Ed|Nd]; cbn [andb]; eexists; (split; [reflexivity|]); cbn [sound_kind]; rewrite LF;
      (split; [lia|tauto]).
  - exists Mp3. split; [|cbn [sound_kind]; lia]. destruct (zlen l <=? 0x3c) eqn:K; [reflexivity|].
    destruct (read_at_total 4 l 0x38) as [v Hv]; [lia|lia|].
    unfold read_i32_at. change (Z.of_nat 4) with 4 in Hv. rewrite Hv. reflexivity.
Qed.

Section roundtrip.
  Variable r : rd.
  Variable origin : Z.
  Hypothesis Hs : zlen (rd_buf r) < 2 ^ 31.
  Hypothesis Hk : forall j, byte (rd_ks r j).

  Lemma p_node_ext k name p : p_node r origin (S k) name 9 p =
    (bind (read_u32 r) (fun size => bind get_pos (fun q => catch_unknown (p_ext r origin k name (wrap 64 (q + size))) (wrap 64 (q + size))))) p.
  Proof. reflexivity. Qed.

  Lemma list_then {B} k p x q (g : _ -> R B) : p_list r origin k p = (Ok x, q) ->
    bind (read_wz_int r) (fun n => bind (reserve n) (fun _ => bind (p_entries r origin k n) g)) p = g x q.
  Proof.
    unfold p_list, bind. destruct (read_wz_int r p) as [[n| | |] p1]; try discriminate.
    destruct (reserve n p1) as [[u| | |] p2]; try discriminate. intros ->. reflexivity.
  Qed.

  Let PE (p q : Z) (kids : list (list Z * prop)) : Prop := exists f0 kids' us,
    (forall f, (f0 <= f)%nat -> p_entries r origin f (Z.of_nat (length kids)) p = (Ok (kids', us), q)) /\
    shows_kids r kids' kids.
  Let PV (p q : Z) (v : prop) : Prop := exists f0 t nd us,
    read_u8 r p = (Ok t, p + 1) /\
    (forall name f, (f0 <= f)%nat -> p_node r origin f name t (p + 1) = (Ok (name, nd, us name), q)) /\ shows r nd v.
  Let PX (p e b : Z) (v : prop) : Prop := exists f0 nd us,
    (forall name f, (f0 <= f)%nat -> p_ext r origin f name b p = (Ok (name, nd, us name), e)) /\ shows r nd v.
  Let PXS (p e b : Z) (ps : list prop) : Prop := forall i, 0 <= i -> i + zlen ps < 2 ^ 31 -> exists f0 kids' us,
    (forall f, (f0 <= f)%nat -> p_convex r origin f b i (i + zlen ps) p = (Ok (kids', us), e)) /\
    shows_items r i kids' ps.
  Let PL (p q : Z) (kids : list (list Z * prop)) : Prop := exists f0 kids' us,
    (forall f, (f0 <= f)%nat -> p_list r origin f p = (Ok (kids', us), q)) /\
    shows_kids r kids' kids.

  Lemma int_range p q v : int_at (rd_buf r) p q v -> 0 <= p < q /\ q <= zlen (rd_buf r).
  Proof.
    intros [_ H]. apply at_range in H. unfold enc_wzint in H.
    destruct ((-127 <=? v) && (v <=? 127)); rewrite ?zlen_cons, zlen_enc_le in H; lia.
  Qed.

  Lemma canvas_ok p e w h f s pg hd off sz :
    laid_canvas (rd_buf r) p e w h f s pg hd off sz ->
    p_canvas_tail r p = (Ok (mkPng w h f s off sz hd pg), e).
  Proof.
    intro L. destruct L as [p p1 p2 p3 p4 p5 w h f s pg u hd size Hw Hh Hf Hsc Hhd Hsz I1 I2 I3 A1 I4 I5 A2 A3].
    pose proof (int_range _ _ _ I1). pose proof (int_range _ _ _ I2). pose proof (int_range _ _ _ I3).
    pose proof (int_range _ _ _ I4). pose proof (int_range _ _ _ I5).
    pose proof (at_range _ _ _ _ A2) as (_ & _ & R2). pose proof (at_range _ _ _ _ A3) as (_ & _ & R3).
    unfold p_canvas_tail.
    step (at_wzint r Hs _ _ _ I1). step (at_wzint r Hs _ _ _ I2). step (at_wzint r Hs _ _ _ I3).
    assert (A1' : at_ (rd_buf r) p3 (p3 + 1) [s mod 256]) by (rewrite Z.mod_small by lia; exact A1).
    destruct (at_i8 r Hs _ _ s ltac:(lia) A1') as [E1 _]. step E1.
    step (at_wzint r Hs _ _ _ I4). step (at_wzint r Hs _ _ _ I5).
    assert (K1 : skip 2 p5 = (Ok tt, p5 + 2)) by (apply skip_ok; pows; lia). step K1.
    destruct (at_i32 r Hs _ _ (size + 1) ltac:(lia) A2) as [E2 _]. step E2.
    assert (K2 : skip 1 (p5 + 6) = (Ok tt, p5 + 7)) by (rewrite skip_ok by (pows; lia); f_equal; lia). step K2.
    rewrite bind_pos.
    destruct (at_u16 r Hs _ _ hd ltac:(pows; lia) A3) as [E3 _]. step E3.
    unfold ret. destruct I1 as [I1 _], I2 as [I2 _], I3 as [I3 _].
    rewrite !(wrap_small 32), Z.add_simpl_r, (sext_small 32), (wrap_small 64) by (pows; lia). reflexivity.
  Qed.

  Lemma laid_all :
    (forall p q kids, laid_entries (rd_buf r) (rd_ks r) origin p q kids -> PE p q kids) /\
    (forall p q v, laid_value (rd_buf r) (rd_ks r) origin p q v -> PV p q v) /\
    (forall p e b v, laid_ext (rd_buf r) (rd_ks r) origin p e b v -> PX p e b v) /\
    (forall p e b ps, laid_exts (rd_buf r) (rd_ks r) origin p e b ps -> PXS p e b ps) /\
    (forall p q kids, laid_list (rd_buf r) (rd_ks r) origin p q kids -> PL p q kids).
  Proof.
    apply laid_mut.
    (* entries *)
    - intro p. exists 0%nat, [], []. split; [|constructor]. intros f _. destruct f; reflexivity.
    - intros p a b q name v kids HB _ (f1 & t & nd & us & Ht & Hn & Sh) _ (f2 & kids' & us' & He & Sk).
      exists (S (max f1 f2)), ((name, nd) :: kids'), (us name ++ us'). split; [|constructor; assumption].
      intros f Hf. destruct f as [|k]; [lia|]. cbn [p_entries].
      cbn [length]. replace (Z.of_nat (S (length kids)) <=? 0) with false by lia.
      step (proj1 (at_block r Hs Hk _ _ _ _ HB)). step Ht.
      step (Hn name k ltac:(lia)).
      replace (Z.of_nat (S (length kids)) - 1) with (Z.of_nat (length kids)) by lia.
      step (He k ltac:(lia)). reflexivity.
    (* values *)
    - intros p q H. destruct (at_u8 r Hs _ _ 0 ltac:(lia) H) as [E ->].
      exists 1%nat, 0, (Node ONull []), (fun _ => []). repeat split; [exact E| |constructor].
      intros name f Hf. destruct f; [lia|]. reflexivity.
    - intros p q t v Ht Hv H. apply at_cons in H as [H1 H2].
      destruct (at_u8 r Hs _ _ t ltac:(lia) H1) as [E _]. destruct (at_i16 r Hs _ _ v Hv H2) as [E2 _].
      exists 1%nat, t, (Node (OShort v) []), (fun _ => []). repeat split; [exact E| |constructor].
      intros name f Hf. destruct f; [lia|]. destruct Ht as [->| ->]; cbn [p_node];
        cbv beta iota delta [Z.eqb Pos.eqb orb]; step E2; reflexivity.
    - intros p q t v Ht H1 H2. destruct (at_u8 r Hs _ _ t ltac:(lia) H1) as [E _]. pose proof (at_wzint r Hs _ _ _ H2) as E2.
      exists 1%nat, t, (Node (OInt v) []), (fun _ => []). repeat split; [exact E| |constructor].
      intros name f Hf. destruct f; [lia|]. destruct Ht as [->| ->]; cbn [p_node];
        cbv beta iota delta [Z.eqb Pos.eqb orb]; step E2; reflexivity.
    - intros p q v Hv H. apply at_cons in H as [H1 H2].
      destruct (at_u8 r Hs _ _ 20 ltac:(lia) H1) as [E _]. pose proof (at_wzint64 r Hs _ _ _ Hv H2) as E2.
      exists 1%nat, 20, (Node (OLong v) []), (fun _ => []). repeat split; [exact E| |constructor].
      intros name f Hf. destruct f; [lia|]. cbn [p_node]. cbv beta iota delta [Z.eqb Pos.eqb orb]. step E2. reflexivity.
    - intros p q bits Hv H. apply at_cons in H as [H1 H2]. apply at_cons in H2 as [H2 H3].
      destruct (at_u8 r Hs _ _ 4 ltac:(lia) H1) as [E _]. destruct (at_u8 r Hs _ _ 0x80 ltac:(lia) H2) as [E2 _].
      destruct (at_u32 r Hs _ _ bits Hv H3) as [E3 _].
      exists 1%nat, 4, (Node (OFloat bits) []), (fun _ => []). repeat split; [exact E| |constructor].
      intros name f Hf. destruct f; [lia|]. cbn [p_node]. cbv beta iota delta [Z.eqb Pos.eqb orb]. step E2.
      change (128 =? 128) with true. cbv iota. unfold read_float. step E3. reflexivity.
    - intros p q b Hb Hn H. apply at_cons in H as [H1 H2].
      destruct (at_u8 r Hs _ _ 4 ltac:(lia) H1) as [E _]. destruct (at_u8 r Hs _ _ b Hb H2) as [E2 _].
      exists 1%nat, 4, (Node (OFloat (f32_of_u8 b)) []), (fun _ => []). repeat split; [exact E| |constructor; apply f32_of_u8_ok; exact Hb].
      intros name f Hf. destruct f; [lia|]. cbn [p_node]. change (4 =? 0) with false. cbv iota.
      change ((4 =? 2) || (4 =? 11)) with false. change ((4 =? 3) || (4 =? 19)) with false. change (4 =? 20) with false. change (4 =? 4) with true. cbv iota.
      step E2. replace (b =? 128) with false by lia. reflexivity.
    - intros p q bits Hv H. apply at_cons in H as [H1 H2].
      destruct (at_u8 r Hs _ _ 5 ltac:(lia) H1) as [E _]. destruct (at_u64 r Hs _ _ bits Hv H2) as [E2 _].
      exists 1%nat, 5, (Node (ODouble bits) []), (fun _ => []). repeat split; [exact E| |constructor].
      intros name f Hf. destruct f; [lia|]. cbn [p_node]. cbv beta iota delta [Z.eqb Pos.eqb orb]. unfold read_double. step E2. reflexivity.
    - intros p q t H1 H2. destruct (at_u8 r Hs _ _ 8 ltac:(lia) H1) as [E _].
      destruct (at_block r Hs Hk _ _ _ _ H2) as (_ & m & E2 & G).
      exists 1%nat, 8, (Node (OStr m) []), (fun _ => []). repeat split; [exact E| |constructor; exact G].
      intros name f Hf. destruct f; [lia|]. cbn [p_node]. cbv beta iota delta [Z.eqb Pos.eqb orb]. step E2. reflexivity.
    - intros p q e size v Hsz H Hq _ (f0 & nd & us & Hx & Sh). apply at_cons in H as [H1 H2].
      pose proof (at_range _ _ _ _ H2) as (R1 & R2 & R3).
      destruct (at_u8 r Hs _ _ 9 ltac:(lia) H1) as [E _]. destruct (at_u32 r Hs _ _ size Hsz H2) as [E2 _].
      exists (S f0), 9, nd, us. repeat split; [exact E| |exact Sh].
      intros name f Hf. destruct f as [|k]; [lia|]. rewrite p_node_ext.
      step E2. rewrite bind_pos. rewrite (wrap_small 64) by (pows; lia).
      replace (p + 5 + size) with q by lia. unfold catch_unknown. rewrite (Hx name k ltac:(lia)). reflexivity.
    (* extended *)
    - intros p a e b kids HB _ (f0 & kids' & us & Hl & Sk).
      pose proof (block_range r _ _ _ _ HB).
      exists (S f0), (Node OSub kids'), (fun name => under name us). split; [|constructor; exact Sk].
      intros name f Hf. destruct f as [|k]; [lia|]. cbn [p_ext].
      step (proj1 (at_block r Hs Hk _ _ _ _ HB)). lits.
      assert (K : skip 2 a = (Ok tt, a + 2)) by (apply skip_ok; pows; lia). step K.
      specialize (Hl k ltac:(lia)). rewrite (list_then _ _ _ _ _ Hl). reflexivity.
    - intros p a c e b kids HB HI _ HX.
      pose proof (at_wzint r Hs _ _ _ HI) as E1. destruct HI as [HI _].
      destruct (HX 0 ltac:(lia) ltac:(unfold zlen; lia)) as (f0 & kids' & us & Hc & Sk).
      exists (S f0), (Node OConvex kids'), (fun name => under name us). split; [|constructor; exact Sk].
      intros name f Hf. destruct f as [|k]; [lia|]. cbn [p_ext].
      step (proj1 (at_block r Hs Hk _ _ _ _ HB)). lits. step E1.
      assert (K : reserve (Z.of_nat (length kids)) c = (Ok tt, c)) by (apply reserve_ok; lia). step K.
      specialize (Hc k ltac:(lia)). rewrite Z.add_0_l in Hc. unfold zlen in Hc. step Hc. reflexivity.
    - intros p a c e b x y HB H1 H2.
      pose proof (at_wzint r Hs _ _ _ H1) as E1. pose proof (at_wzint r Hs _ _ _ H2) as E2.
      exists 1%nat, (Node (OVector x y) []), (fun _ => []). split; [|constructor].
      intros name f Hf. destruct f as [|k]; [lia|]. cbn [p_ext].
      step (proj1 (at_block r Hs Hk _ _ _ _ HB)). lits. step E1. step E2. reflexivity.
    - intros p a e b t HB H2. pose proof (block_range r _ _ _ _ HB).
      destruct (at_block r Hs Hk _ _ _ _ H2) as (_ & m & E2 & G).
      exists 1%nat, (Node (OUol m) []), (fun name => [[name]]). split; [|constructor; exact G].
      intros name f Hf. destruct f as [|k]; [lia|]. cbn [p_ext].
      step (proj1 (at_block r Hs Hk _ _ _ _ HB)). lits.
      assert (K : skip 1 a = (Ok tt, a + 1)) by (apply skip_ok; pows; lia). step K. step E2. reflexivity.
    - intros p a e b hc w h f s pg hd off sz HB Hhc Hhb H1 HC. pose proof (block_range r _ _ _ _ HB).
      destruct (at_u8 r Hs _ _ hc ltac:(lia) H1) as [E1 _]. pose proof (canvas_ok _ _ _ _ _ _ _ _ _ _ HC) as E2.
      exists 1%nat, (Node (OPng (mkPng w h f s off sz hd pg)) []), (fun name => under name []).
      split; [|constructor; constructor].
      intros name f1 Hf. destruct f1 as [|k]; [lia|]. cbn [p_ext].
      step (proj1 (at_block r Hs Hk _ _ _ _ HB)). lits.
      assert (K : skip 1 a = (Ok tt, a + 1)) by (apply skip_ok; pows; lia). step K. step E1.
      replace (hc =? 1) with false by lia. rewrite bind_ret.
      step E2. reflexivity.
    - intros p a c e b w h f s pg hd off sz kids HB H1 _ (f0 & kids' & us & Hl & Sk) HC.
      pose proof (block_range r _ _ _ _ HB).
      destruct (at_u8 r Hs _ _ 1 ltac:(lia) H1) as [E1 _]. pose proof (canvas_ok _ _ _ _ _ _ _ _ _ _ HC) as E2.
      pose proof (at_range _ _ _ _ H1) as (_ & _ & R1).
      exists (S f0), (Node (OPng (mkPng w h f s off sz hd pg)) kids'), (fun name => under name us).
      split; [|constructor; exact Sk].
      intros name f1 Hf. destruct f1 as [|k]; [lia|]. cbn [p_ext].
      step (proj1 (at_block r Hs Hk _ _ _ _ HB)). lits.
      assert (K : skip 1 a = (Ok tt, a + 1)) by (apply skip_ok; pows; lia). step K. step E1.
      change (1 =? 1) with true. cbv iota. rewrite bind_assoc.
      assert (K2 : skip 2 (a + 2) = (Ok tt, a + 4)) by (rewrite skip_ok by (pows; lia); f_equal; lia). step K2.
      specialize (Hl k ltac:(lia)). unfold p_list in Hl. step Hl. cbv beta. step E2. reflexivity.
    - intros p a c hoff b size dur HB Hsz Hd H1 H2 Hh Hb. pose proof (block_range r _ _ _ _ HB).
      pose proof (at_wzint r Hs _ _ _ H1) as E1. pose proof (at_wzint r Hs _ _ _ H2) as E2.
      pose proof (int_range _ _ _ H1). pose proof (int_range _ _ _ H2).
      destruct H1 as [H1 _], H2 as [H2 _]. change (Z.of_nat (length (rd_buf r))) with (zlen (rd_buf r)) in Hb.
      destruct (slice_total (rd_buf r) hoff (b - size)) as (l & SL & LL); [lia..|].
      pose proof (sound_kind_ok _ _ _ _ size dur SL ltac:(lia)) as ST.
      destruct ST as (ty & ST & SK).
      exists 1%nat, (Node (OSound (mkSound (b - size) size hoff (b - size - hoff) dur ty)) []), (fun _ => []).
      split; [|constructor; exact SK].
      intros name f Hf. destruct f as [|k]; [lia|]. cbn [p_ext].
      step (proj1 (at_block r Hs Hk _ _ _ _ HB)). lits. unfold p_sound. rewrite bind_assoc.
      assert (K : skip 1 a = (Ok tt, a + 1)) by (apply skip_ok; pows; lia). step K. cbv beta.
      rewrite bind_assoc. step E1. cbv beta. rewrite bind_assoc. step E2. cbv beta zeta.
      rewrite bind_assoc. rewrite bind_pos.
      rewrite !(wrap_small 32) by (pows; lia). rewrite (wrap_small 64 (b - size)), (wrap_small 64 (b - size - hoff)) by (pows; lia).
      rewrite (wrap_small 64) by (pows; lia).
      replace (hoff + (b - size - hoff)) with (b - size) by lia. rewrite SL.
      rewrite bind_assoc. unfold lift. rewrite ST. unfold bind, ret. reflexivity.
    - intros p a e b ver size HB Hv Hvb H1 Hsz H2. pose proof (block_range r _ _ _ _ HB).
      destruct (at_u8 r Hs _ _ ver ltac:(lia) H1) as [E1 _]. pose proof (at_wzint r Hs _ _ _ H2) as E2.
      destruct H2 as [H2 _].
      exists 1%nat, (Node (ORaw e size) []), (fun name => under name []). split; [|constructor; constructor].
      intros name f Hf. destruct f as [|k]; [lia|]. cbn [p_ext].
      step (proj1 (at_block r Hs Hk _ _ _ _ HB)). lits. step E1. replace (ver =? 1) with false by lia.
      rewrite bind_ret. change (0 =? 1) with false. cbv iota. rewrite bind_ret. step E2.
      rewrite bind_pos. unfold ret. rewrite (wrap_small 64) by (pows; lia). reflexivity.
    - intros p a e b hc size HB Hv Hvb H1 Hsz H2. pose proof (block_range r _ _ _ _ HB).
      apply at_cons in H1 as [H1 H1']. replace (a + 2) with (a + 1 + 1) in * by lia.
      destruct (at_u8 r Hs _ _ 1 ltac:(lia) H1) as [E1 _]. destruct (at_u8 r Hs _ _ hc ltac:(lia) H1') as [E1' _]. pose proof (at_wzint r Hs _ _ _ H2) as E2.
      destruct H2 as [H2 _].
      exists 1%nat, (Node (ORaw e size) []), (fun name => under name []). split; [|constructor; constructor].
      intros name f Hf. destruct f as [|k]; [lia|]. cbn [p_ext].
      step (proj1 (at_block r Hs Hk _ _ _ _ HB)). lits. step E1. change (1 =? 1) with true. cbv iota. step E1'.
      replace (hc =? 1) with false by lia.
      rewrite bind_ret. step E2.
      rewrite bind_pos. unfold ret. rewrite (wrap_small 64) by (pows; lia). reflexivity.
    - intros p a c e b size kids HB H1 _ (f0 & kids' & us & Hl & Sk) Hsz H2. pose proof (block_range r _ _ _ _ HB).
      pose proof (at_range _ _ _ _ H1) as (_ & _ & R1).
      apply at_cons in H1 as [H1 H1']. replace (a + 2) with (a + 1 + 1) in * by lia.
      destruct (at_u8 r Hs _ _ 1 ltac:(lia) H1) as [E1 _]. destruct (at_u8 r Hs _ _ 1 ltac:(lia) H1') as [E1' _]. pose proof (at_wzint r Hs _ _ _ H2) as E2.
      destruct H2 as [H2 _].
      exists (S f0), (Node (ORaw e size) kids'), (fun name => under name us). split; [|constructor; exact Sk].
      intros name f Hf. destruct f as [|k]; [lia|]. cbn [p_ext].
      step (proj1 (at_block r Hs Hk _ _ _ _ HB)). lits. step E1. change (1 =? 1) with true. cbv iota. step E1'.
      change (1 =? 1) with true. cbv iota. rewrite bind_assoc.
      assert (K2 : skip 2 (a + 1 + 1) = (Ok tt, a + 4)) by (rewrite skip_ok by (pows; lia); f_equal; lia). step K2.
      specialize (Hl k ltac:(lia)). unfold p_list in Hl. step Hl. step E2.
      rewrite bind_pos. unfold ret. rewrite (wrap_small 64) by (pows; lia). reflexivity.
    - intros p a e b size HB Hsz H2. pose proof (block_range r _ _ _ _ HB).
      pose proof (at_wzint r Hs _ _ _ H2) as E2. destruct H2 as [H2 _].
      exists 1%nat, (Node (OVideo e size) []), (fun _ => []). split; [|constructor].
      intros name f Hf. destruct f as [|k]; [lia|]. cbn [p_ext].
      step (proj1 (at_block r Hs Hk _ _ _ _ HB)). lits.
      assert (K : skip 3 a = (Ok tt, a + 3)) by (apply skip_ok; pows; lia). step K. step E2.
      rewrite bind_pos. unfold ret. rewrite (wrap_small 64) by (pows; lia). reflexivity.
    (* convex items *)
    - intros p b i Hi _. exists 0%nat, [], []. split; [|constructor]. intros f _.
      rewrite zlen_nil. destruct f; cbn [p_convex]; replace (i + 0 <=? i) with true by lia; reflexivity.
    - intros p a e b v kids _ (f1 & nd & us & Hx & Sh) _ HX i Hi Hb. rewrite zlen_cons in Hb.
      pose proof (zlen_nonneg kids).
      destruct (HX (i + 1) ltac:(lia) ltac:(lia)) as (f2 & kids' & us' & Hc & Sk).
      destruct (decimal_exists i Hi) as [ds D].
      exists (S (max f1 f2)), ((to_string i, nd) :: kids'), (us (to_string i) ++ us'). split.
      + intros f Hf. destruct f as [|k]; [lia|]. cbn [p_convex]. rewrite zlen_cons.
        replace (i + (1 + zlen kids) <=? i) with false by lia.
        step (Hx (to_string i) k ltac:(lia)).
        replace (i + (1 + zlen kids)) with (i + 1 + zlen kids) by lia.
        step (Hc k ltac:(lia)). reflexivity.
      + rewrite (to_string_decimal i ds D) by lia. constructor; assumption.
    (* list *)
    - intros p a q kids HI _ (f0 & kids' & us & He & Sk).
      exists f0, kids', us. split; [|exact Sk]. intros f Hf. unfold p_list.
      step (at_wzint r Hs _ _ _ HI).
      assert (K : reserve (Z.of_nat (length kids)) a = (Ok tt, a)) by (apply reserve_ok; lia). step K.
      apply He. exact Hf.
  Qed.
End roundtrip.
