(** C223-C225: whole packages, from the bytes of the file to the values at the end of a path. *)
From Coq Require Import ZArith List Bool Lia ZifyBool ZifyNat.
From Coq Require String Ascii.
From Verif.Model Require Import Base Utf Keys Reader WzStr Header Offset VersionPkg1 VersionPkg2 Directory Image Media Guess File Node Ms World.
From Verif.Spec Require Import Wire Stream StrWire HeaderSpec Version Media PropWire PropView DirWire DirView DirWire2 Aes KeyFind PropEnc PathSpec Tree ChaCha Whole.
From Verif.Proofs Require Import OpenL BaseL WireL KeysL AtL DirL HeaderL MediaL EncL ImageL StrictL GuessL FileL NodeL WorldL.
From Verif.Props Require Import P_Media P_Header P_Strict P_Version P_Directory P_Node P_Guess P_File.
Import ListNotations. Import String.StringSyntax.
Open Scope Z_scope.

(** Node [i] is what the place says: a directory (or the file), an image (perhaps still hidden in its archive), or a property with
    that value; the bytes are those of a reader in [ok]. *)
Definition presents (st : list Z -> nat -> Z) (bl : list Z -> list Z -> Z -> list Z) (w : world) (ok : rd -> Prop) (i : id) (pl : place) : Prop :=
  match pl with
  | PlDir _ => exists c, w_heap w i = Some c /\ (nd_kind c = KFile true \/ nd_kind c = KMsFile true \/ exists b, nd_kind c = KDir b)
  | PlImage _ => exists r, ok r /\ ((exists name off size, w_thing w i = ThImage r name off size) \/
                                   (exists buf e x, w_thing w i = ThMsImage buf e /\ to_wz_image bl buf e = Ok x /\ r = own_reader st x))
  | PlProp v => exists r o sub, ok r /\ w_thing w i = ThProp r o /\ shows r (Node o sub) v
  end.
(** What is left when these paths have been asked for, found or not. *)
Definition lookups (st : list Z -> nat -> Z) (bl : list Z -> list Z -> Z -> list Z) (f : nat) (w : world) (past : list text) : world :=
  fold_left (fun w path => snd (w_at_path_parsed st bl f w 0 path)) past w.

(** However often and for whatever it has been asked before, the file gives at the end of each path what is there, at
    the right full path, and refuses the others. *)
Definition serves (st : list Z -> nat -> Z) (bl : list Z -> list Z -> Z -> list Z) (f : nat) (w : world) (ok : rd -> Prop) (name : text) (top : place) : Prop :=
  forall past comps, comps <> [] -> Forall (fun c => ~ In 47 c) comps ->
    (forall pl, leads top comps pl -> exists i w',
       w_at_path_parsed st bl f (lookups st bl f w past) 0 (joined comps) = (Ok i, w') /\ presents st bl w' ok i pl /\
       (Forall name_ok comps -> forall k, (length comps <= k)%nat -> get_full_path k (w_heap w') i = Ok (joined (name :: comps)))) /\
    (fails top comps -> exists w', w_at_path_parsed st bl f (lookups st bl f w past) 0 (joined comps) = (Err ENotFound, w')).
(** The node that a path has led to stays the one it leads to. *)
Definition steady (st : list Z -> nat -> Z) (bl : list Z -> list Z -> Z -> list Z) (f : nat) (w : world) : Prop :=
  forall past comps i w', comps <> [] -> Forall name_ok comps ->
    w_at_path_parsed st bl f (lookups st bl f w past) 0 (joined comps) = (Ok i, w') ->
    forall more, at_path (w_heap (lookups st bl f w' more)) 0 (joined comps) = Some i /\
      exists w'', w_at_path_parsed st bl f (lookups st bl f w' more) 0 (joined comps) = (Ok i, w'').

Lemma lookups_ok st bl ok f s name pl : (0 < f)%nat -> forall past w, opened_world st bl ok f s name pl w ->
  opened_world st bl ok f s name pl (lookups st bl f w past) /\ ext f st bl w (lookups st bl f w past).
Proof.
  intro F. induction past as [|p past IH]; intros w O; [split; [exact O|apply ext_refl]|].
  destruct (looked_up st bl ok f F s name pl w p O) as [O1 X1]. destruct (IH _ O1) as [O2 X2]. split; [exact O2|]. eapply ext_trans; eassumption.
Qed.
Lemma plain_names comps : Forall name_ok comps -> Forall (fun c : text => ~ In 47 c) comps.
Proof. apply Forall_impl. intros a [_ H]. exact H. Qed.
Lemma place_presents st bl ok f s w i pl : at_place f st bl ok s w i pl -> presents st bl w ok i pl.
Proof.
  intro A. destruct pl as [cs'|props|v]; cbn [at_place] in A; cbn [presents].
  - destruct A as (n & k & p & l & H & _ & K & _). eexists. split; [exact H|]. cbn [nd_kind]. destruct K as [[->| ->]|(b & d & -> & _)]; eauto.
  - destruct A as (p & n & R). inversion R as [? kids ? ? ? r off size k l H T O I Re L|]; subst. exists r. split; [exact O|].
    inversion T as [b ? ? ? ? Ek Et|buf e x Tx Ek Et]; subst; [left|right]; eauto 8.
  - destruct A as (r & n & p & nm & O & R & Sh). inversion R; subst. eauto 8.
Qed.

Lemma world_serves st bl ok f s name pl w : (0 < f)%nat -> opened_world st bl ok f s name pl w -> serves st bl f w ok name pl.
Proof.
  intros F O0 past comps Ne Pl. destruct (lookups_ok st bl ok f s name pl F past w O0) as [O _]. set (w0 := lookups st bl f w past) in *.
  rewrite (opened_fold st bl ok f s name pl w0 _ O), split_join by assumption. pose proof O as (B & A & _).
  destruct (walk f st bl ok s F comps w0 0 _ B A) as [L Fa]. split.
  - intros z Z. destruct (L z Z) as (j & w' & E & X & B' & Aj & Hg). exists j, w'. split; [exact E|]. split; [eapply place_presents, Aj|].
    intros Nm k Hk. pose proof (opened_ext st bl ok f s name pl w0 w' O X B') as O'. destruct (opened_root st bl ok f s name pl w0 O) as [_ Hr].
    destruct (opened_root st bl ok f s name pl w' O') as [Rl _]. destruct O' as (_ & _ & kd & sl & H & _).
    rewrite (C25_full_path (w_heap w') 0 comps j _ Rl (Hg Nm 0 [] Hr) H k Hk). reflexivity.
  - intro N. destruct (Fa N) as (w' & E & _). exists w'. exact E.
Qed.

Lemma world_steady st bl ok f s name pl w : (0 < f)%nat -> opened_world st bl ok f s name pl w -> steady st bl f w.
Proof.
  intros F O0 past comps i w' Ne Nm E more. pose proof (plain_names _ Nm) as Pl.
  destruct (lookups_ok st bl ok f s name pl F past w O0) as [O _]. set (w0 := lookups st bl f w past) in *.
  rewrite (opened_fold st bl ok f s name pl w0 _ O), split_join in E by assumption. pose proof O as (B & A & _).
  destruct (place_total comps pl) as [[z Z]|N].
  2: { destruct (walk f st bl ok s F comps w0 0 _ B A) as [_ Fa]. destruct (Fa N) as (w2 & E2 & _). congruence. }
  destruct (walk f st bl ok s F comps w0 0 _ B A) as [L _]. destruct (L z Z) as (j & w1 & E1 & X & B1 & _ & Hg).
  rewrite E in E1. injection E1 as <- <-. pose proof (opened_ext st bl ok f s name pl w0 w' O X B1) as O1.
  destruct (opened_root st bl ok f s name pl w0 O) as [_ Hr]. specialize (Hg Nm 0 [] Hr).
  destruct (lookups_ok st bl ok f s name pl F more w' O1) as [O2 X2]. set (w2 := lookups st bl f w' more) in *.
  pose proof (hangs_ext f st bl w' w2 0 B1 X2 _ _ Hg) as H2. destruct (opened_root st bl ok f s name pl w2 O2) as [R2 H0].
  cbn [app] in H2. destruct (C25_path_leads_back _ _ _ _ R2 H2 Ne (length comps) (le_n _)) as [_ P2]. split; [exact P2|].
  rewrite (opened_fold st bl ok f s name pl w2 _ O2), split_join by assumption. pose proof O2 as (B2 & A2 & _).
  destruct (walk f st bl ok s F comps w2 0 _ B2 A2) as [L2 _]. destruct (L2 z Z) as (j & w3 & E3 & X3 & B3 & _ & Hg3).
  specialize (Hg3 Nm 0 [] H0). pose proof (hangs_ext f st bl w2 w3 0 B2 X3 _ _ H2) as H3. cbn [app] in Hg3.
  destruct (opened_root st bl ok f s name pl w3 (opened_ext st bl ok f s name pl w2 w3 O2 X3 B3)) as [R3 _].
  destruct (C25_path_leads_back _ _ _ _ R3 H3 Ne (length comps) (le_n _)) as [_ Pa].
  destruct (C25_path_leads_back _ _ _ _ R3 Hg3 Ne (length comps) (le_n _)) as [_ Pb].
  exists w3. rewrite E3. congruence.
Qed.

Lemma file_opens st bl name buf iv existing patch cache h x kids cs f1 :
  zlen buf < 2 ^ 31 -> header_of buf = Ok h -> (forall j, byte (rd_ks (reader_of st buf (pf_key x)) j)) -> shows_trees (pf_kids x) kids ->
  (forall f, (f1 <= f)%nat -> parse_file st f buf iv existing patch None cache = Ok x) ->
  filled_with buf (rd_ks (reader_of st buf (pf_key x))) kids cs ->
  exists f0, forall f, (f0 <= f)%nat -> exists w s, w_parse st bl f (w_open name buf iv existing patch cache) 0 0 = (Ok tt, w) /\
    (0 < f)%nat /\ opened_world st bl (eq (reader_of st buf (pf_key x))) f s name (PlDir cs) w.
Proof.
  intros Hs Hh Hk Sh P Fw. set (s := shared_of st buf h x).
  assert (Bf : rd_buf (reader_of st buf (pf_key x)) = buf) by (destruct (pf_key x); reflexivity).
  destruct (filled_reads (eq (reader_of st buf (pf_key x))) s kids cs) as (f2 & R); [reflexivity|cbn [s shared_of sh_rd]; rewrite Bf; exact Hs|exact Hk|cbn [s shared_of sh_rd]; rewrite Bf; exact Fw|].
  exists (Nat.max (Nat.max f1 f2) 1). intros f Hf. assert (Pf := P f ltac:(lia)).
  pose proof (R f ltac:(lia) _ Sh (file_settled _ _ _ _ _ _ _ _ _ Pf)) as D.
  destruct (file_read st bl _ f name buf iv existing patch cache h x cs Hh Pf D) as (w & l & E & B & H & N & L).
  exists w, s. split; [exact E|]. split; [lia|]. split; [exact B|]. split.
  - exists name, (KFile true), None, l. split; [exact H|]. split; [exact N|]. split; [left; left; reflexivity|exact L].
  - eexists _, _. split; [exact H|reflexivity].
Qed.

Lemma classic_opens bl name buf h p r t iv existing e v ds kids cs cache :
  bytes buf -> zlen buf < 2 ^ 31 -> read_header buf = Ok (h, p) -> hd_ident h = IV1 -> hd_encver h = Some e ->
  0 <= v < 1000000 -> decimal v ds -> folded (digit_hash 0 ds) = e ->
  laid_dir buf (iv_key (aes256 user_key) (region_iv r)) (hd_fstart h) (digit_hash 0 ds) (hd_data_start h) kids ->
  first_name true buf (hd_data_start h) (enc_str (iv_key (aes256 user_key) (region_iv r)) t) ->
  plain_ascii t -> (r = Sea -> (2 <= length t)%nat) ->
  offered (aes256 user_key) (iv_key (aes256 user_key) (region_iv r)) (length t) (region_iv r) iv existing ->
  filled_with buf (iv_key (aes256 user_key) (region_iv r)) kids cs ->
  exists f0, forall f, (f0 <= f)%nat -> exists w s,
    w_parse (iv_key (aes256 user_key)) bl f (w_open name buf iv existing v cache) 0 0 = (Ok tt, w) /\ (0 < f)%nat /\
    opened_world (iv_key (aes256 user_key)) bl (eq (reader_of (iv_key (aes256 user_key)) buf (DEcb (region_iv r)))) f s name (PlDir cs) w.
Proof.
  intros Hb Hs Hd Id He Hv D Fo L Fn T Hr Of Fw.
  destruct (C149_classic_package buf h p r t iv existing v e v ds kids cache Hb Hs Hd Id He Hv D Fo L Fn T Hr Of) as (f1 & kids' & Sh & P).
  apply (file_opens (iv_key (aes256 user_key)) bl name buf iv existing v cache h (mkFile (inl v) (digit_hash 0 ds) kids' (DEcb (region_iv r)) cache) kids cs f1 Hs
    (header_was _ _ _ Hd)).
  - intro j. cbn [pf_key reader_of rd_ks]. destruct (region_bytes r). apply iv_key_byte; auto. apply user_key_cipher.
  - exact Sh.
  - intros f Hf. exact (P f Hf).
  - exact Fw.
Qed.

(** C223: a classic package opened with its version (and any offer of IV that does not mislead) serves its whole content. *)
Theorem C223_classic_content : forall bl name buf h p r t iv existing e v ds kids cs cache,
  bytes buf -> zlen buf < 2 ^ 31 -> read_header buf = Ok (h, p) -> hd_ident h = IV1 -> hd_encver h = Some e ->
  0 <= v < 1000000 -> decimal v ds -> folded (digit_hash 0 ds) = e ->
  laid_dir buf (iv_key (aes256 user_key) (region_iv r)) (hd_fstart h) (digit_hash 0 ds) (hd_data_start h) kids ->
  first_name true buf (hd_data_start h) (enc_str (iv_key (aes256 user_key) (region_iv r)) t) ->
  plain_ascii t -> (r = Sea -> (2 <= length t)%nat) ->
  offered (aes256 user_key) (iv_key (aes256 user_key) (region_iv r)) (length t) (region_iv r) iv existing ->
  filled_with buf (iv_key (aes256 user_key) (region_iv r)) kids cs ->
  exists f0, forall f, (f0 <= f)%nat -> exists w,
    w_parse (iv_key (aes256 user_key)) bl f (w_open name buf iv existing v cache) 0 0 = (Ok tt, w) /\
    serves (iv_key (aes256 user_key)) bl f w (eq (reader_of (iv_key (aes256 user_key)) buf (DEcb (region_iv r)))) name (PlDir cs).
Proof.
  intros bl name buf h p r t iv existing e v ds kids cs cache Hb Hs Hd Id He Hv D Fo L Fn T Hr Of Fw.
  destruct (classic_opens bl name buf h p r t iv existing e v ds kids cs cache) as (f0 & W); [assumption..|].
  exists f0. intros f Hf. destruct (W f Hf) as (w & s & E & F & O). exists w. split; [exact E|].
  eapply world_serves; eassumption.
Qed.
Print Assumptions C223_classic_content.

(** Version 83: an image "Mob.img" and a directory "d" in which the image "j.img" has the same block. *)
Definition small_props : list (list Z * prop) :=
  [(codes "a", PInt 300); (codes "s", PSub [(codes "x", PStr (codes "hi")); (codes "v", PVec 3 (-4))]); (codes "a", PShort 7)].
Definition full83 : list Z := Eval vm_compute in
  let ks := key_of Global in let img := ser_image ks small_props in let n := zlen img in
  PKG1 ++ enc_le 8 (41 + n) ++ enc_le 4 16 ++ [172; 0] ++
  [2] ++ [4] ++ enc_str ks (codes "Mob.img") ++ [n; 0] ++ stored OPkg1 16 0 1876 30 57 ++
         [3] ++ enc_str ks (codes "d") ++ [14; 0] ++ stored OPkg1 16 0 1876 39 43 ++
  [1] ++ [4] ++ enc_str ks (codes "j.img") ++ [n; 0] ++ stored OPkg1 16 0 1876 53 57 ++ img.
Definition full_head := mkHeader IV1 (zlen full83 - 16) 16 18 (Some 172) 0 0 FNone.
Definition full_kids : list (list Z * dtree) :=
  [(codes "Mob.img", TImage 57 (zlen full83 - 57)); (codes "d", TDir 43 14 [(codes "j.img", TImage 57 (zlen full83 - 57))])].
Definition full_content : list (list Z * content) :=
  [(codes "Mob.img", CImage small_props); (codes "d", CDir [(codes "j.img", CImage small_props)])].

Lemma serialised_image buf ks off q props : zlen buf < 2 ^ 31 -> good_kids props -> at_ buf off q (ser_image ks props) -> laid_image buf ks off props.
Proof.
  intros Hs Hg H. unfold ser_image, ser_block in H.
  change ((0x73 :: enc_str ks (codes "Property")) ++ [0; 0] ++ ser_list ks props)
    with (0x73 :: enc_str ks (codes "Property") ++ [0; 0] ++ ser_list ks props) in H.
  apply at_cons in H as [H1 H]. destruct (at_app _ _ _ _ _ H) as (m & H2 & H3 & _).
  apply at_split in H3 as [H3 H4]. change (zlen [0; 0]) with 2 in *.
  exists m, q. split; [exact H1|]. split; [exact H2|]. exact (ser_list_laid buf ks off Hs _ _ _ Hg H4).
Qed.
Lemma small_good : good_kids small_props.
Proof.
  repeat (constructor; try lia); try (apply good_of_ext; repeat (constructor; try lia));
    try (apply lit_unicode; reflexivity).
Qed.
Lemma not_text_img a : not_text (a ++ codes ".img").
Proof.
  intros pre E. apply (f_equal (@rev Z)) in E. rewrite !rev_app_distr in E. discriminate E.
Qed.
Ltac classic_tail b :=
  match goal with |- tail_at ?buf ?fs ?hash ?p ?q ?size ?off =>
    exists (p + 1), b, 0, (stored_num OPkg1 fs 0 hash b off);
    split; [vm_compute; discriminate|]; split; [split; [vm_compute; split; congruence|at_tac]|]; split; [split; [lia|at_tac]|]; split; [vm_compute; split; congruence|];
    split; [at_tac|]; split; [apply classic_holds; [vm_compute; split; congruence..|vm_compute; reflexivity]|vm_compute; discriminate] end.

Definition prop_at (w : world) (i : id) : option obj := match w_thing w i with ThProp _ o => Some o | _ => None end.
Example C223_example :
  (bytes full83 /\ read_header full83 = Ok (full_head, 16) /\ decimal 83 [8; 3] /\ folded (digit_hash 0 [8; 3]) = 172 /\
   laid_dir full83 (key_of Global) 16 (digit_hash 0 [8; 3]) 18 full_kids /\
   first_name true full83 18 (enc_str (key_of Global) (codes "Mob.img")) /\ filled_with full83 (key_of Global) full_kids full_content) /\
  leads (PlDir full_content) [codes "d"; codes "j.img"; codes "s"; codes "v"] (PlProp (PVec 3 (-4))) /\
  leads (PlDir full_content) [codes "Mob.img"; codes "a"] (PlProp (PShort 7)) /\
  fails (PlDir full_content) [codes "d"; codes "j.img"; codes "a"; codes "b"] /\
  (let st := iv_key (aes256 user_key) in
   let w := snd (w_parse st chacha_block 20 (w_open (codes "Mob.wz") full83 None None 83 []) 0 0) in
   let '(x, w1) := w_at_path_parsed st chacha_block 20 w 0 (codes "d/j.img/s/v") in
   let '(y, w2) := w_at_path_parsed st chacha_block 20 w1 0 (codes "Mob.img/a") in
   match x, y with
   | Ok i, Ok j => prop_at w2 i = Some (OVector 3 (-4)) /\
                   get_full_path 9 (w_heap w2) i = Ok (codes "Mob.wz/d/j.img/s/v") /\
                   prop_at w2 j = Some (OShort 7) /\
                   fst (w_at_path_parsed st chacha_block 20 w2 0 (codes "d/j.img/a/b")) = Err ENotFound
   | _, _ => False
   end).
Proof.
  split; [|split; [|split; [|split]]].
  - split; [byte_list|]. split; [vm_compute; reflexivity|]. split; [repeat split; try discriminate; repeat constructor; lia|]. split; [vm_compute; reflexivity|].
    change (digit_hash 0 [8; 3]) with 1876. split; [|split].
    + apply (dir_at _ _ _ _ 18 19 43 2); [lia|split; [lia|at_tac]|].
      apply (ents_image _ _ _ _ 19 28 34 43 1 (codes "Mob.img") 57 (zlen full83 - 57) 0x73);
        [apply head_inline; [apply lit_unicode; reflexivity|at_tac|at_tac]|classic_tail 30|auto|at_tac|].
      apply (ents_dir _ _ _ _ 34 37 43 43 0 (codes "d") 43 14);
        [apply head_inline; [apply lit_unicode; reflexivity|at_tac|at_tac]|classic_tail 39|lia| |constructor].
      apply (dir_at _ _ _ _ 43 44 57 1); [lia|split; [lia|at_tac]|].
      apply (ents_image _ _ _ _ 44 51 57 57 0 (codes "j.img") 57 (zlen full83 - 57) 0x73);
        [apply head_inline; [apply lit_unicode; reflexivity|at_tac|at_tac]|classic_tail 53|auto|at_tac|constructor].
    + exists 19, 28, 2, 4. split; [split; [lia|at_tac]|]. split; [lia|]. split; [at_tac|]. split; [lia|at_tac].
    + assert (Li : Forall (fun e => linkless (snd e)) small_props) by (repeat constructor).
      assert (Im : laid_image full83 (key_of Global) 57 small_props).
      { apply (serialised_image _ _ _ (zlen full83)); [vm_compute; reflexivity|exact small_good|at_tac]. }
      apply filled_image; [apply (not_text_img (codes "Mob"))|exact Im|exact Li|]. apply filled_dir; [|constructor].
      apply filled_image; [apply (not_text_img (codes "j"))|exact Im|exact Li|constructor].
  - eapply leads_on; [constructor; exists [(codes "Mob.img", CImage small_props)], []; split; [reflexivity|intros []]|].
    eapply leads_on; [constructor; exists [], []; split; [reflexivity|intros []]|].
    eapply leads_on; [constructor; exists [(codes "a", PInt 300)], [(codes "a", PShort 7)]; split; [reflexivity|intros [E|[]]; discriminate E]|].
    eapply leads_on; [econstructor; [constructor|exists [(codes "x", PStr (codes "hi"))], []; split; [reflexivity|intros []]]|constructor].
  - eapply leads_on; [constructor; exists [], [(codes "d", CDir [(codes "j.img", CImage small_props)])]; split; [reflexivity|intros [E|[]]; discriminate E]|].
    eapply leads_on; [constructor; eexists [_; _], []; split; [reflexivity|intros []]|constructor].
  - eapply fails_on; [constructor; exists [(codes "Mob.img", CImage small_props)], []; split; [reflexivity|intros []]|].
    eapply fails_on; [constructor; exists [], []; split; [reflexivity|intros []]|].
    eapply fails_on; [constructor; eexists [_; _], []; split; [reflexivity|intros []]|].
    apply fails_here. eapply nothing_prop; [apply below_leaf; exact I|intros []].
  - vm_compute. repeat split.
Qed.

(** C224: each node found in it is found again, whatever has been asked for in between. *)
Theorem C224_found_again : forall bl name buf h p r t iv existing e v ds kids cs cache,
  bytes buf -> zlen buf < 2 ^ 31 -> read_header buf = Ok (h, p) -> hd_ident h = IV1 -> hd_encver h = Some e ->
  0 <= v < 1000000 -> decimal v ds -> folded (digit_hash 0 ds) = e ->
  laid_dir buf (iv_key (aes256 user_key) (region_iv r)) (hd_fstart h) (digit_hash 0 ds) (hd_data_start h) kids ->
  first_name true buf (hd_data_start h) (enc_str (iv_key (aes256 user_key) (region_iv r)) t) ->
  plain_ascii t -> (r = Sea -> (2 <= length t)%nat) ->
  offered (aes256 user_key) (iv_key (aes256 user_key) (region_iv r)) (length t) (region_iv r) iv existing ->
  filled_with buf (iv_key (aes256 user_key) (region_iv r)) kids cs ->
  exists f0, forall f, (f0 <= f)%nat -> exists w,
    w_parse (iv_key (aes256 user_key)) bl f (w_open name buf iv existing v cache) 0 0 = (Ok tt, w) /\
    steady (iv_key (aes256 user_key)) bl f w.
Proof.
  intros bl name buf h p r t iv existing e v ds kids cs cache Hb Hs Hd Id He Hv D Fo L Fn T Hr Of Fw.
  destruct (classic_opens bl name buf h p r t iv existing e v ds kids cs cache) as (f0 & W); [assumption..|].
  exists f0. intros f Hf. destruct (W f Hf) as (w & s & E & F & O). exists w. split; [exact E|].
  eapply world_steady; eassumption.
Qed.
Print Assumptions C224_found_again.
Example C224_example :
  let st := iv_key (aes256 user_key) in
  let w := snd (w_parse st chacha_block 20 (w_open (codes "Mob.wz") full83 None None 83 []) 0 0) in
  let '(x, w1) := w_at_path_parsed st chacha_block 20 w 0 (codes "d/j.img/s/v") in
  let w2 := lookups st chacha_block 20 w1 [codes "Mob.img/a"; codes "d/j.img/q"; codes "d"] in
  x = Ok 7 /\ at_path (w_heap w2) 0 (codes "d/j.img/s/v") = Some 7 /\ fst (w_at_path_parsed st chacha_block 20 w2 0 (codes "d/j.img/s/v")) = Ok 7 /\
  w_next w1 = 9 /\ w_next w2 = 14.
Proof. vm_compute. repeat split. Qed.

Lemma wide_opens bl name buf h p iv existing patch0 kids cs cache :
  bytes buf -> zlen buf < 2 ^ 31 -> read_header buf = Ok (h, p) -> is_pkg2_64 h = true -> wide_hash h <> 0 ->
  unlike_entry buf (hd_data_start h) ->
  laid_dir2 buf (fun _ => 0) (number_key (wide_number h)) true true (hd_fstart h) (hd_hash1 h) (wide_hash h) OPkg264 true (hd_data_start h) kids ->
  filled_with buf (fun _ => 0) kids cs ->
  exists f0 key, forall f, (f0 <= f)%nat -> exists w s,
    w_parse (iv_key (aes256 user_key)) bl f (w_open name buf iv existing patch0 cache) 0 0 = (Ok tt, w) /\
    (0 < f)%nat /\ opened_world (iv_key (aes256 user_key)) bl (eq (reader_of (iv_key (aes256 user_key)) buf (DPkg2 key))) f s name (PlDir cs) w.
Proof.
  intros Hb Hs Hd W Nz Un L Fw.
  destruct (C153_wide_package buf h p iv existing patch0 None kids cache Hb Hs Hd W Nz Un L) as (f1 & kids' & key & cache' & Sh & _ & _ & P).
  destruct (file_opens (iv_key (aes256 user_key)) bl name buf iv existing patch0 cache h (mkFile (inr P1202) (wide_hash h) kids' (DPkg2 key) cache') kids cs f1 Hs
    (header_was _ _ _ Hd)) as (f0 & Wd).
  - intro j. unfold byte. cbn. lia.
  - exact Sh.
  - intros f Hf. exact (P f Hf).
  - exact Fw.
  - exists f0, key. exact Wd.
Qed.

(** C225: the same for packages with 64-bit hashes; nothing has to be known about them. *)
Theorem C225_wide_content : forall bl name buf h p iv existing patch0 kids cs cache,
  bytes buf -> zlen buf < 2 ^ 31 -> read_header buf = Ok (h, p) -> is_pkg2_64 h = true -> wide_hash h <> 0 ->
  unlike_entry buf (hd_data_start h) ->
  laid_dir2 buf (fun _ => 0) (number_key (wide_number h)) true true (hd_fstart h) (hd_hash1 h) (wide_hash h) OPkg264 true (hd_data_start h) kids ->
  filled_with buf (fun _ => 0) kids cs ->
  exists f0 key, forall f, (f0 <= f)%nat -> exists w,
    w_parse (iv_key (aes256 user_key)) bl f (w_open name buf iv existing patch0 cache) 0 0 = (Ok tt, w) /\
    serves (iv_key (aes256 user_key)) bl f w (eq (reader_of (iv_key (aes256 user_key)) buf (DPkg2 key))) name (PlDir cs) /\
    steady (iv_key (aes256 user_key)) bl f w.
Proof.
  intros bl name buf h p iv existing patch0 kids cs cache Hb Hs Hd W Nz Un L Fw.
  destruct (wide_opens bl name buf h p iv existing patch0 kids cs cache) as (f0 & key & Wd); [assumption..|].
  exists f0, key. intros f Hf. destruct (Wd f Hf) as (w & s & E & F & O). exists w. split; [exact E|]. split.
  - eapply world_serves; eassumption.
  - eapply world_steady; eassumption.
Qed.
Print Assumptions C225_wide_content.

(** A package with 64-bit hashes 5 and 9 whose image has properties. *)
Definition wide_full : list Z := Eval vm_compute in
  let h := mkHeader IV2 0 150 150 None 5 9 FRandom64 in
  let img := ser_image (fun _ => 0) small_props in let n := zlen img in
  wide_header 5 9 (32 + n) ++
  enc_wzint 8 (sext 64 (Z.lxor (Z.lxor (Z.lxor 65536 5) (wide_hash h)) 0x550EC4DD02C468EC)) ++
  [4] ++ enc_le 2 (- 7) ++ body_pkg2 (number_key (wide_number h)) (units16 (codes "Mob.img")) ++
  [n; 0] ++ stored OPkg264 150 5 (wide_hash h) 178 182 ++ img.
Definition wide_full_head := mkHeader IV2 (32 + zlen wide_full - 182) 150 150 None 5 9 FRandom64.
Example C225_example :
  (bytes wide_full /\ read_header wide_full = Ok (wide_full_head, 150) /\ unlike_entry wide_full 150 /\
   laid_dir2 wide_full (fun _ => 0) (number_key (wide_number wide_full_head)) true true 150 5 (wide_hash wide_full_head) OPkg264 true 150
     [(codes "Mob.img", TImage 182 (zlen wide_full - 182))] /\
   filled_with wide_full (fun _ => 0) [(codes "Mob.img", TImage 182 (zlen wide_full - 182))] [(codes "Mob.img", CImage small_props)]) /\
  (let st := iv_key (aes256 user_key) in
   let w := snd (w_parse st chacha_block 20 (w_open (codes "Mob.wz") wide_full None None (-1) []) 0 0) in
   let '(x, w1) := w_at_path_parsed st chacha_block 20 w 0 (codes "Mob.img/s/v") in
   match x with
   | Ok i => prop_at w1 i = Some (OVector 3 (-4)) /\ get_full_path 9 (w_heap w1) i = Ok (codes "Mob.wz/Mob.img/s/v") /\
             at_path (w_heap (lookups st chacha_block 20 w1 [codes "Mob.img/q/q"; codes "Mob.img/s"])) 0 (codes "Mob.img/s/v") = Some i
   | _ => False
   end).
Proof.
  split; [|vm_compute; repeat split]. split; [byte_list|]. split; [vm_compute; reflexivity|]. split; [|split].
  - exists 108, 15, 128, 33, 220, 43. split; [at_tac|]. lia.
  - pose (h := wide_full_head).
    apply (dir_wide _ _ _ _ _ _ _ _ _ _ 150 159 178 182 (sext 64 (Z.lxor (Z.lxor (Z.lxor 65536 5) (wide_hash h)) 0x550EC4DD02C468EC)) 0);
      [reflexivity|reflexivity|cbn; lia|lia|vm_compute; split; congruence|vm_compute; reflexivity|at_tac| |].
    + apply (heads_cons _ _ _ _ _ true 159 176 177 178 178 0);
        [at_tac| |vm_compute; discriminate|split; [vm_compute; split; congruence|at_tac]|split; [lia|at_tac]|constructor].
      apply name_keyed_wide; [reflexivity|apply lit_unicode; reflexivity|reflexivity|vm_compute; split; discriminate|at_tac].
    + apply (offs_image _ _ _ _ _ _ _ _ _ _ 178 182 (codes "Mob.img") 182 (zlen wide_full - 182) (stored_num OPkg264 150 5 (wide_hash h) 178 182) 0x73);
        [vm_compute; discriminate|vm_compute; split; congruence|at_tac|apply pkg2_holds; pk_side|auto|at_tac|constructor].
  - apply filled_image; [apply (not_text_img (codes "Mob"))| |repeat constructor|constructor].
    apply (serialised_image _ _ _ (zlen wide_full)); [vm_compute; reflexivity|exact small_good|at_tac].
Qed.
