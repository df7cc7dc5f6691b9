(** C162-C180: node trees as JSON. *)
From Coq Require Import ZArith List Bool Lia ZifyBool ZifyNat Permutation Sorted.
From Coq Require String Ascii.
From Verif.Model Require Import Base Utf Keys Reader WzStr Image Node Json JsonHeap.
From Verif.Spec Require Import Wire Stream StrWire PropWire PropView PropEnc Tree JsonView JsonProp.
From Verif.Proofs Require Import BaseL WireL KeysL StringL ReaderL AtL ImageL BlowL EncL JsonL JsonFullL JsonPropL.
From Verif.Props Require Import P_Image P_Node.
Import ListNotations. Import String.StringSyntax.
Open Scope Z_scope.

(** A small tree for the examples: a sub-property with a canvas (with a vector in it), a text and a number. *)
Definition ex_node : jnode :=
  JNode (codes "r") JSub
    [(codes "pic", JNode (codes "pic") (JPng 4 3) [(codes "origin", JNode (codes "origin") (JVector 1 (-2)) [])]);
     (codes "name", JNode (codes "name") (JStr (Ok (codes "Bob"))) []);
     (codes "hp", JNode (codes "hp") (JInt 50) [])].
Lemma ex_node_distinct : distinct ex_node.
Proof.
  intros p m B. inversion B; subst; [nodup|]. cbn in H. destruct H as [E|[E|[E|[]]]]; injection E as <- <-.
  - inversion H0; subst; [nodup|]. cbn in H. destruct H as [E|[]]. injection E as <- <-. inversion H1; subst; [nodup|]. destruct H.
  - inversion H0; subst; [nodup|]. destruct H.
  - inversion H0; subst; [nodup|]. destruct H.
Qed.

(** * Simple JSON *)

(** C162: what to_simple_json returns is a picture of the tree. *)
Theorem C162_simple_json_pictures : forall n j, distinct n -> simple_json n = Ok j -> pictures n j.
Proof. exact simple_pictures. Qed.
Print Assumptions C162_simple_json_pictures.

(** C162: every node is found in it under its own path, in one place only. *)
Theorem C162_simple_json_paths : forall n j p m, distinct n -> simple_json n = Ok j -> below n p m ->
  exists v, at_json j p v /\ pictures m v /\ forall v', at_json j p v' -> v' = v.
Proof.
  intros n j p m D E B. pose proof (simple_pictures _ _ D E) as P. clear D E. revert j P.
  induction B as [n|n k c p m I B IH]; intros j P.
  - exists j. split; [constructor|]. split; [exact P|]. intros v' A. inversion A. reflexivity.
  - destruct P as [nm o v Pl|nm o kids m0 NE N C1 C2 C3]; [destruct I|]. cbn [jkids] in I.
    destruct (C1 _ _ I) as (v & J & Pv). destruct (IH _ Pv) as (w & A & Pw & U).
    exists w. split; [econstructor; eassumption|]. split; [exact Pw|]. intros v' A'. inversion A' as [|m1 k1 c1 p1 v1 I1 B1]; subst.
    assert (Q : c1 = v); [|subst; auto].
    pose proof (field_in _ _ _ N J) as F1. pose proof (field_in _ _ _ N I1) as F2. congruence.
Qed.
Print Assumptions C162_simple_json_paths.

Example C162_ex :
  simple_json ex_node = Ok (VObj
    [(codes "hp", VInt 50); (codes "name", VText (codes "Bob"));
     (codes "pic", VObj [(codes "height", VInt 3); (codes "origin", VObj [(codes "x", VInt 1); (codes "y", VInt (-2))]); (codes "width", VInt 4)])]).
Proof. reflexivity. Qed.

(** C163: it is returned exactly when every leaf is a finite number, a readable text or no value at all. *)
Theorem C163_simple_json_total : forall n, (exists j, simple_json n = Ok j) <->
  (forall p m, below n p m -> jkids m = [] -> printable (jthing m)).
Proof. exact simple_total. Qed.
Print Assumptions C163_simple_json_total.

Example C163_ex : exists j, simple_json (JNode (codes "r") (JDouble 0x7FF0000000000000) [(codes "a", JNode (codes "a") (JFloat 0x3F800000) [])]) = Ok j.
Proof.
  apply C163_simple_json_total. intros p m B L. inversion B; subst; [discriminate L|]. cbn in H. destruct H as [E|[]].
  injection E as <- <-. inversion H0; subst; [reflexivity|]. destruct H.
Qed.

(** The children an image is parsed into. *)
Definition parsed (buf : list Z) : list (text * node) :=
  match image_children 40 (rd0 buf) (codes "x.img") 0 0 with Ok (k, _) => k | _ => [] end.

(** C164 (refuted): exporting an image that was read without an error does not panic.  A stored NaN is enough. *)
Definition nan_image : list Z := ser_image key0 [(codes "a", PFloat 0x7FC00000)].
Definition nan_kids := Eval vm_compute in parsed nan_image.
Theorem C164_export_panics_refuted : exists r kids us, zlen (rd_buf r) < 2 ^ 31 /\
  image_children 40 r (codes "x.img") 0 0 = Ok (kids, us) /\ simple_json (image_view r (codes "x.img") kids) = Panic.
Proof. exists (rd0 nan_image), nan_kids, []. split; [reflexivity|]. split; vm_compute; reflexivity. Qed.
Print Assumptions C164_export_panics_refuted.

(** C165: neither form depends on the order in which the child map hands out its entries. *)
Theorem C165_order_irrelevant : forall n n', distinct n -> reorder n n' ->
  (forall j, simple_json n = Ok j -> simple_json n' = Ok j) /\ (forall j, to_json n = Ok j -> to_json n' = Ok j).
Proof. intros n n' D R. split; intro j; [apply simple_reorder|apply full_reorder]; assumption. Qed.
Print Assumptions C165_order_irrelevant.

Example C165_ex : let a := (codes "a", JNode (codes "a") (JInt 1) []) in let b := (codes "b", JNode (codes "b") (JInt 2) []) in
  reorder (JNode (codes "r") JSub [a; b]) (JNode (codes "r") JSub [b; a]) /\
  simple_json (JNode (codes "r") JSub [b; a]) = Ok (VObj [(codes "a", VInt 1); (codes "b", VInt 2)]).
Proof.
  cbv zeta. split; [|reflexivity]. eapply reord; [apply perm_swap|]. repeat (constructor; [eapply reord; constructor|]). constructor.
Qed.

(** C166 (refuted): trees with different content have different simple JSON. *)
Theorem C166_kinds_confused_refuted : exists a b x y k,
  simple_json (JNode k (JVector x y) []) = simple_json (JNode k JSub a) /\ a <> [] /\
  simple_json (JNode k JNull []) = simple_json (JNode k JSub []) /\
  simple_json (JNode k (JInt b) []) = simple_json (JNode k (JLong b) []).
Proof.
  exists [(codes "x", JNode (codes "x") (JInt 1) []); (codes "y", JNode (codes "y") (JInt 2) [])], 7, 1, 2, (codes "k").
  repeat split; discriminate.
Qed.
Print Assumptions C166_kinds_confused_refuted.

(** C167 (refuted): the size of a canvas is always shown. *)
Theorem C167_canvas_size_hidden_refuted : exists n w h j, distinct n /\ jthing n = JPng w h /\ simple_json n = Ok j /\
  ~ at_json j [codes "width"] (VInt w).
Proof.
  exists (JNode (codes "c") (JPng 4 3) [(codes "width", JNode (codes "width") (JStr (Ok (codes "wide"))) [])]), 4, 3. eexists.
  split; [|split; [reflexivity|split; [reflexivity|]]].
  - intros p m B. inversion B; subst; [nodup|]. cbn in H. destruct H as [E|[]]. injection E as <- <-. inversion H0; subst; [nodup|]. destruct H.
  - intro A. inversion A as [|m1 k1 c1 p1 v1 I1 B1]; subst. inversion B1; subst. cbn in I1. destruct I1 as [E|[E|[]]]; discriminate.
Qed.
Print Assumptions C167_canvas_size_hidden_refuted.

(** * Full JSON *)

(** C168: to_json returns a record of the whole tree. *)
Theorem C168_full_json_records : forall n j, distinct n -> to_json n = Ok j -> records n j.
Proof. exact full_records. Qed.
Print Assumptions C168_full_json_records.

Example C168_ex : to_json (JNode (codes "r") (JPng 4 3) [(codes "a", JNode (codes "a") JNull [])]) = Ok (VObj
  [(codes "children", VObj [(codes "a", VObj [(codes "children", VObj []); (codes "name", VText (codes "a")); (codes "type", VText (codes "Null"))])]);
   (codes "data", VObj [(codes "height", VInt 3); (codes "width", VInt 4)]);
   (codes "name", VText (codes "r")); (codes "type", VText (codes "PNG"))]).
Proof. reflexivity. Qed.

(** C169: it does so unless some node is raw data, a video or a script, or a text cannot be looked at without a panic. *)
Theorem C169_full_json_total : forall n, (exists j, to_json n = Ok j) <->
  (forall p m, below n p m -> match jthing m with
                              | JRaw | JVideo | JLua => False
                              | JUol s | JStr s => exists t, reads_as s t
                              | _ => True
                              end).
Proof. exact full_total. Qed.
Print Assumptions C169_full_json_total.

Example C169_ex : (exists j, to_json ex_node = Ok j) /\ exists e, to_json (JNode (codes "r") JSub [(codes "v", JNode (codes "v") JVideo [])]) = Err e.
Proof. split; eexists; reflexivity. Qed.

Definition script_image : list Z := 1 :: enc_wzint 4 0 ++ [1; 2; 3].
(** C170 (refuted): the full JSON of a parsed image can be made.  One script property is enough to lose everything. *)
Theorem C170_export_lost_refuted : exists r kids us e, zlen (rd_buf r) < 2 ^ 31 /\
  image_children 40 r (codes "x.lua") 0 0 = Ok (kids, us) /\ to_json (image_view r (codes "x.lua") kids) = Err e.
Proof.
  exists (rd0 script_image), [(codes "Script", Node (OLua 2 0) [])], [], (EOther 50). split; [reflexivity|]. split; vm_compute; reflexivity.
Qed.
Print Assumptions C170_export_lost_refuted.

(** C171: reading the full JSON back gives the same tree, up to the order of children. *)
Theorem C171_json_roundtrip : forall aes to32 to64 n, block_cipher aes -> distinct n ->
  (forall p m, below n p m -> typed (jthing m) /\ portable (jthing m)) ->
  exists j n', to_json n = Ok j /\ from_json aes to32 to64 j = Some n' /\ reorder n n'.
Proof. exact roundtrip. Qed.
Print Assumptions C171_json_roundtrip.

Example C171_ex : exists j, to_json ex_node = Ok j /\
  from_json (fun b => b) (fun _ => 0) (fun _ => 0) j = Some (JNode (codes "r") JSub
    [(codes "hp", JNode (codes "hp") (JInt 50) []);
     (codes "name", JNode (codes "name") (JStr (Ok (codes "Bob"))) []);
     (codes "pic", JNode (codes "pic") (JPng 4 3) [(codes "origin", JNode (codes "origin") (JVector 1 (-2)) [])])]).
Proof. eexists. split; [reflexivity|vm_compute; reflexivity]. Qed.

(** C172 (refuted): a null value comes back as a null value; it comes back as a sub-property. *)
Theorem C172_null_changes_refuted : exists nm j, to_json (JNode nm JNull []) = Ok j /\
  forall aes to32 to64, from_json aes to32 to64 j = Some (JNode nm JSub []).
Proof. exists (codes "a"). eexists. split; [reflexivity|]. intros. vm_compute. reflexivity. Qed.
Print Assumptions C172_null_changes_refuted.

(** C173 (refuted): every float comes back as a float; NaN and the infinities come back as sub-properties. *)
Theorem C173_float_changes_refuted : exists nm bits j, to_json (JNode nm (JFloat bits) []) = Ok j /\
  to_json (JNode nm (JFloat 0xFF800000) []) = Ok j /\
  forall aes to32 to64, from_json aes to32 to64 j = Some (JNode nm JSub []).
Proof. exists (codes "a"), 0x7FC00000. eexists. split; [reflexivity|]. split; [reflexivity|]. intros. vm_compute. reflexivity. Qed.
Print Assumptions C173_float_changes_refuted.

(** C174 (refuted): every text comes back; one character beyond U+FFFF cuts the end off. *)
Theorem C174_text_changes_refuted : exists nm t j n', Forall (fun c => 0 <= c < 0xD800 \/ 0xE000 <= c <= 0x10FFFF) t /\
  to_json (JNode nm (JStr (Ok t)) []) = Ok j /\
  (forall aes to32 to64, from_json aes to32 to64 j = Some n') /\ n' <> JNode nm (JStr (Ok t)) [].
Proof.
  exists (codes "a"), [0x1F600; 97]. do 2 eexists. split; [repeat constructor; lia|]. split; [reflexivity|].
  split; [intros; vm_compute; reflexivity|]. discriminate.
Qed.
Print Assumptions C174_text_changes_refuted.

(** C175 (refuted): children come back in the order they were in (feature indexmap); they come back sorted. *)
Theorem C175_order_changes_refuted : exists n j n', distinct n /\ to_json n = Ok j /\
  (forall aes to32 to64, from_json aes to32 to64 j = Some n') /\ map fst (jkids n') <> map fst (jkids n).
Proof.
  exists (JNode (codes "r") JSub [(codes "2", JNode (codes "2") (JInt 2) []); (codes "10", JNode (codes "10") (JInt 10) [])]).
  do 2 eexists. split; [|split; [reflexivity|split; [intros; vm_compute; reflexivity|discriminate]]].
  intros p m B. inversion B; subst; [nodup|]. cbn in H. destruct H as [E|[E|[]]]; injection E as <- <-; (inversion H0; subst; [nodup|]; destruct H).
Qed.
Print Assumptions C175_order_changes_refuted.

(** C176 (refuted): JSON with an unknown kind is rejected; without data it is taken for a sub-property. *)
Theorem C176_unknown_kind_refuted : exists m, (forall o, kind_word o <> codes "Imge") /\
  field m (codes "type") = Some (VText (codes "Imge")) /\
  forall aes to32 to64, from_json aes to32 to64 (VObj m) = Some (JNode (codes "a") JSub []).
Proof.
  exists [(codes "children", VObj []); (codes "name", VText (codes "a")); (codes "type", VText (codes "Imge"))].
  split; [intros []; discriminate|]. split; [reflexivity|]. intros. vm_compute. reflexivity.
Qed.
Print Assumptions C176_unknown_kind_refuted.

(** Other JSON that was never written by this program. *)
Definition hand_made (t : text) (d : list (text * json)) : json :=
  VObj ([(codes "children", VObj [])] ++ d ++ [(codes "name", VText (codes "a")); (codes "type", VText t)]).
Example C176_ex : let rd t d := from_json (fun b => b) (fun _ => 5) (fun _ => 6) (hand_made t d) in
  rd (codes "Image") [(codes "data", VObj [(codes "x", VInt 1)])] = Some (JNode (codes "a") JImage []) /\
  rd (codes "Image") [(codes "data", VInt 1)] = None /\
  rd (codes "Imge") [(codes "data", VInt 1)] = None /\
  rd (codes "Float") [(codes "data", VF64 1)] = Some (JNode (codes "a") (JFloat 5) []) /\
  rd (codes "Float") [(codes "data", VInt 1)] = Some (JNode (codes "a") (JFloat 5) []) /\
  rd (codes "Double") [(codes "data", VF32 1)] = Some (JNode (codes "a") (JDouble 6) []) /\
  rd (codes "number") [(codes "data", VInt 7)] = Some (JNode (codes "a") (JInt 7) []) /\
  rd (codes "Sound") [] = Some (JNode (codes "a") JNull []) /\
  rd (codes "Sound") [(codes "data", VInt 1)] = None.
Proof. vm_compute. auto 20. Qed.

(** * From the bytes *)

(** C177: the simple JSON of an image says what the image holds. *)
Theorem C177_image_json : forall r name block_size p q kids, zlen (rd_buf r) < 2 ^ 31 -> (forall j, byte (rd_ks r j)) ->
  good_kids kids -> tidy_kids kids -> at_ (rd_buf r) p q (ser_image (rd_ks r) kids) ->
  (forall pre, name <> pre ++ codes ".txt") ->
  exists f0 kids' us j, (forall f, (f0 <= f)%nat -> image_children f r name p block_size = Ok (kids', us)) /\
    simple_json (image_view r name kids') = Ok j /\ says (rd_buf r) (PSub kids) j.
Proof.
  intros r name bs p q kids Hs Hk G T A Hn.
  destruct (C18_image_roundtrip r name bs p q kids Hs Hk G A Hn) as (f0 & kids' & us & S & P).
  destruct (tidy_kids_inv kids T) as [N Ti].
  destruct (proj1 (json_says r) (Node OSub kids') (PSub kids) (shows_sub r kids' kids S) name (tidy_sub _ T)) as (j & J & Sy).
  exists f0, kids', us, j. split; [exact P|]. split; [|exact Sy].
  rewrite <- J. unfold image_view. rewrite view_eq by (rewrite (kids_keys _ _ _ S); exact N). reflexivity.
Qed.
Print Assumptions C177_image_json.

(** C177: the same for a property list laid out in any other way, with canvases, sounds, raw data and videos. *)
Theorem C177_layout_json : forall r name origin p q kids, zlen (rd_buf r) < 2 ^ 31 -> (forall j, byte (rd_ks r j)) ->
  laid_list (rd_buf r) (rd_ks r) origin p q kids -> tidy_kids kids ->
  exists f0 kids' us j, (forall f, (f0 <= f)%nat -> p_list r origin f p = (Ok (kids', us), q)) /\
    simple_json (image_view r name kids') = Ok j /\ says (rd_buf r) (PSub kids) j.
Proof.
  intros r name origin p q kids Hs Hk L T.
  destruct (C18_layout_parsed r origin p q kids Hs Hk L) as (f0 & kids' & us & S & P).
  destruct (tidy_kids_inv kids T) as [N Ti].
  destruct (proj1 (json_says r) (Node OSub kids') (PSub kids) (shows_sub r kids' kids S) name (tidy_sub _ T)) as (j & J & Sy).
  exists f0, kids', us, j. split; [exact P|]. split; [|exact Sy].
  rewrite <- J. unfold image_view. rewrite view_eq by (rewrite (kids_keys _ _ _ S); exact N). reflexivity.
Qed.
Print Assumptions C177_layout_json.

Definition ex_stored : list (list Z * prop) :=
  [(codes "lv", PShort 3); (codes "txt", PStr (codes "hi")); (codes "e", PSub []); (codes "s", PSub [(codes "f", PFloatByte 2)]);
   (codes "v", PConvex [PVec 1 2; PVec 3 4])].
Definition stored_kids := Eval vm_compute in parsed (ser_image key0 ex_stored).
Example C177_ex : image_children 40 (rd0 (ser_image key0 ex_stored)) (codes "x.img") 0 0 = Ok (stored_kids, []) /\
  simple_json (image_view (rd0 (ser_image key0 ex_stored)) (codes "x.img") stored_kids) = Ok (VObj
    [(codes "e", VNull); (codes "lv", VInt 3); (codes "s", VObj [(codes "f", VF32 0x40000000)]); (codes "txt", VText (codes "hi"));
     (codes "v", VObj [(codes "0", VObj [(codes "x", VInt 1); (codes "y", VInt 2)]); (codes "1", VObj [(codes "x", VInt 3); (codes "y", VInt 4)])])]).
Proof. split; vm_compute; reflexivity. Qed.

(** Of two properties of one name the later one is there, in the place of the first. *)
Definition twice_kids := Eval vm_compute in parsed (ser_image key0 [(codes "b", PInt 1); (codes "a", PInt 2); (codes "b", PInt 3)]).
Example C177_twice : map fst (jkids (image_view (rd0 []) (codes "x.img") twice_kids)) = [codes "b"; codes "a"] /\
  simple_json (image_view (rd0 []) (codes "x.img") twice_kids) = Ok (VObj [(codes "a", VInt 2); (codes "b", VInt 3)]).
Proof. split; vm_compute; reflexivity. Qed.

(** * Nodes as they are linked *)

(** The tree below a node, with the objects filled in. *)
Inductive drawn (h : heap) (thing : id -> jobj) : id -> jnode -> Prop :=
| drawn_node i c kids : h i = Some c -> drawn_kids h thing (nd_slots c) kids -> drawn h thing i (JNode (nd_name c) (thing i) kids)
with drawn_kids (h : heap) (thing : id -> jobj) : list (text * id) -> list (text * jnode) -> Prop :=
| drawn_nil : drawn_kids h thing [] []
| drawn_cons k j n l kids : drawn h thing j n -> drawn_kids h thing l kids -> drawn_kids h thing ((k, j) :: l) ((k, n) :: kids).
Scheme drawn_mut1 := Minimality for drawn Sort Prop
  with drawn_mut2 := Minimality for drawn_kids Sort Prop.
Combined Scheme drawn_mut from drawn_mut1, drawn_mut2.

(** C178: where the links form a finite tree, the export is the export of that tree. *)
Theorem C178_linked_tree_json : forall h thing i n, drawn h thing i n ->
  exists m, forall fuel, (m <= fuel)%nat ->
    heap_simple_json thing fuel h i = simple_json n /\ heap_json thing fuel h i = to_json n.
Proof.
  intros h thing. 
  assert (G : (forall i n, drawn h thing i n -> exists m, forall fuel, (m <= fuel)%nat ->
      heap_simple_json thing fuel h i = simple_json n /\ heap_json thing fuel h i = to_json n) /\
    (forall l kids, drawn_kids h thing l kids -> exists m, forall fuel, (m <= fuel)%nat ->
      (forall acc, heap_loop (heap_simple_json thing fuel h) l acc = loop simple_json kids acc) /\
      (forall acc, heap_loop (heap_json thing fuel h) l acc = loop to_json kids acc))).
  { apply drawn_mut.
    - intros i c kids E D (m & H). exists (S m). intros [|f] Hf; [lia|]. destruct (H f ltac:(lia)) as [H1 H2].
      cbn [heap_simple_json heap_json]. rewrite E. split.
      + destruct D; [reflexivity|]. rewrite simple_inner by discriminate. rewrite H1. reflexivity.
      + rewrite to_json_eq, H2. reflexivity.
    - exists 0%nat. intros fuel _. split; reflexivity.
    - intros k j n l kids _ (m1 & H1) _ (m2 & H2). exists (max m1 m2). intros fuel Hf.
      destruct (H1 fuel ltac:(lia)) as [A1 A2]. destruct (H2 fuel ltac:(lia)) as [B1 B2].
      split; intro acc; cbn [heap_loop loop]; [rewrite A1; destruct (simple_json n)|rewrite A2; destruct (to_json n)]; cbn [rbind]; auto. }
  apply G.
Qed.
Print Assumptions C178_linked_tree_json.

(** A link resolved to a sibling shows the sibling under its own name, too. *)
Example C178_ex : let h := mem
    [(1, mkCell (txt "i") (KImage true) None [(txt "a", 2); (txt "b", 2)]); (2, mkCell (txt "a") (KOther 0) (Some 1) [])] in
  heap_simple_json (fun i => if i =? 1 then JImage else JInt 5) 9 h 1 = Ok (VObj [(codes "a", VInt 5); (codes "b", VInt 5)]).
Proof. reflexivity. Qed.

(** C179 (refuted): exporting a parsed image ends.  A UOL to an ancestor makes it run for ever. *)
Theorem C179_export_ends_refuted : exists load h i h', only_adds load /\ tree h i [i] /\ parse load h [] i i = Ok h' /\
  forall thing fuel, (forall i, exists fs, obj_fields (thing i) = Ok fs) ->
    heap_simple_json thing fuel h' i = OutOfFuel /\ heap_json thing fuel h' i = OutOfFuel.
Proof.
  set (h := mem [(1, mkCell (txt "i") (KImage false) None [])]).
  destruct (parse loop_load h [] 1 1) as [h'| | |] eqn:P; try discriminate P.
  exists loop_load, h, 1, h'. split; [apply lazy_adds|]. split; [|split; [exact P|]].
  - exists (Shape 1 []). split; [reflexivity|]. split; [shape_tac|]. split; [repeat constructor; cbn; lia|reflexivity].
  - assert (H1 : h' 1 = Some (mkCell (txt "i") (KImage true) None [(txt "s", 2)])) by (injection P as <-; reflexivity).
    assert (H2 : h' 2 = Some (mkCell (txt "s") (KOther 0) (Some 1) [(txt "u", 1)])) by (injection P as <-; reflexivity).
    clear P. intros thing fuel F.
    assert (G : (heap_simple_json thing fuel h' 1 = OutOfFuel /\ heap_json thing fuel h' 1 = OutOfFuel) /\
                (heap_simple_json thing fuel h' 2 = OutOfFuel /\ heap_json thing fuel h' 2 = OutOfFuel)).
    { induction fuel as [|f ((I1 & I2) & I3 & I4)]; [repeat split|].
      destruct (F 1) as [fs1 F1]. destruct (F 2) as [fs2 F2].
      cbn [heap_simple_json heap_json]. rewrite H1, H2. cbn [nd_slots nd_name heap_loop]. rewrite I1, I2, I3, I4, F1, F2. repeat split. }
    apply G.
Qed.
Print Assumptions C179_export_ends_refuted.

(** C180 (refuted): the export of a damaged text is an error.  A text that runs over the end of the file is shown as empty. *)
Definition cut_image : list Z := (0x73 :: enc_str key0 (codes "Property")) ++ [0; 0; 1] ++ (0x73 :: enc_str key0 (codes "a")) ++ [8; 0x73; 251; 1; 2].
Definition cut_kids := Eval vm_compute in parsed cut_image.
Theorem C180_damaged_text_refuted : exists r kids us m e, zlen (rd_buf r) < 2 ^ 31 /\
  image_children 40 r (codes "x.img") 0 0 = Ok (kids, us) /\ In (codes "a", Node (OStr m) []) kids /\ get_string r m = Err e /\
  simple_json (image_view r (codes "x.img") kids) = Ok (VObj [(codes "a", VText [])]).
Proof.
  exists (rd0 cut_image), cut_kids, [], (mkMeta 19 5 SAscii), EOob. split; [reflexivity|]. split; [vm_compute; reflexivity|]. split; [left; reflexivity|].
  split; vm_compute; reflexivity.
Qed.
Print Assumptions C180_damaged_text_refuted.
