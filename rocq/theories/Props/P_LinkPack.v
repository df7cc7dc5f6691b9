(** C265-C267: whole packages and archives whose images have links. *)
From Coq Require Import ZArith List Bool Lia ZifyBool ZifyNat Permutation.
From Coq Require String Ascii.
From Verif.Model Require Import Base Utf Keys Reader WzStr Header Offset VersionPkg1 VersionPkg2 Directory Image Media Guess File Node Snow2 Ms World.
From Verif.Spec Require Import Wire Stream StrWire HeaderSpec Version Media PropWire PropView DirWire DirView DirWire2 Aes KeyFind PropEnc PathSpec Tree ChaCha Snow2 Ms MsFile MsFile2 Whole Linked WholeLinks.
From Verif.Proofs Require Import OpenL BaseL WireL KeysL AtL DirL HeaderL MediaL EncL ImageL StrictL GuessL FileL NodeL WorldL WalkWL Snow2L MsReadL MsFileL LinkedL LinkWorldL TourLinksL.
From Verif.Props Require Import P_Media P_Header P_Strict P_Version P_Directory P_Node P_Guess P_File P_Ms P_MsRead2 P_Ms2 P_Whole P_Archive P_ImgFile P_Linked P_Detect.
Import ListNotations. Import String.StringSyntax.
Open Scope Z_scope.

(** However often and for whatever it has been asked before, every path either leads, down the directories and through the links of the
    image, to a place, and then to the node that stands for it and has that place's own full path, for good; or it is refused. *)
Definition serves_links (st : list Z -> nat -> Z) (bl : list Z -> list Z -> Z -> list Z) (f : nat) (w : world) (ok : rd -> Prop) (name : text)
    (cs : list (list Z * content)) : Prop :=
  forall past comps, comps <> [] -> Forall (fun c => ~ In 47 c) comps ->
    let w0 := lookups st bl f w past in
    (forall Q z, gets cs comps Q z -> exists i w', w_at_path_parsed st bl f w0 0 (joined comps) = (Ok i, w') /\
       presents st bl w' ok i z /\ (forall k, (length Q <= k)%nat -> get_full_path k (w_heap w') i = Ok (joined (name :: Q))) /\
       forall more, let w2 := lookups st bl f w' more in
         at_path (w_heap w2) 0 (joined comps) = Some i /\ w_at_path_parsed st bl f w2 0 (joined comps) = (Ok i, w2)) /\
    (lacks cs comps -> exists w', w_at_path_parsed st bl f w0 0 (joined comps) = (Err ENotFound, w')) /\
    ((exists Q z, gets cs comps Q z) \/ lacks cs comps).

Lemma lookups_linked st bl ok f s name cs : (0 < f)%nat -> (forall comps, (exists Q z, gets cs comps Q z) \/ lacks cs comps) ->
  forall past w, linked_world f st bl ok s cs name w ->
  linked_world f st bl ok s cs name (lookups st bl f w past) /\ grows f st bl ok w (lookups st bl f w past).
Proof.
  intros F T. induction past as [|p past IH]; intros w O; [split; [exact O|apply grows_refl; exact F]|].
  destruct (linked_look f st bl ok s F cs name T w p O) as [O1 X1]. destruct (IH _ O1) as [O2 X2]. split; [exact O2|].
  destruct O as (B & _). destruct O1 as (B1 & _). eapply (grows_trans f st bl ok F _ _ _ B B1); eassumption.
Qed.
Lemma world_links st bl ok f s name cs w : (0 < f)%nat -> (forall comps, (exists Q z, gets cs comps Q z) \/ lacks cs comps) ->
  linked_world f st bl ok s cs name w -> serves_links st bl f w ok name cs.
Proof.
  intros F T O0 past comps Ne Pl w0. destruct (lookups_linked st bl ok f s name cs F T past w O0) as [O _]. fold w0 in O.
  rewrite (linked_fold _ _ _ _ _ _ _ _ _ O), split_join by assumption. pose proof O as (B & A & _).
  destruct (walk_links f st bl ok s F comps cs w0 0 B A) as [G L]. split; [|split].
  - intros Q z Z. destruct (G Q z Z) as (j & w' & E & B' & Gr & S & P & Ab). exists j, w'. split; [exact E|].
    split; [destruct z; exact S|]. pose proof (linked_grows f st bl ok s F cs name w0 w' O B' Gr) as O'. split.
    + intros k Hk. destruct O' as (_ & _ & kd & sl & H & _).
      rewrite (above_path (w_heap w') 0 Q j _ ltac:(eexists; split; [exact H|discriminate]) Ab H k Hk). reflexivity.
    + intros more w2. destruct (lookups_linked st bl ok f s name cs F T more w' O') as [O2 G2]. fold w2 in O2, G2.
      pose proof (grows_passes f st bl ok w' w2 0 comps _ B' G2 P) as P2. destruct (passes_fold _ _ _ _ P2 st bl f) as [P3 P4].
      rewrite (linked_fold _ _ _ _ _ _ _ _ _ O2), split_join, at_path_join by assumption. auto.
  - intro N. destruct (L N) as (w' & E & _). exists w'. exact E.
  - apply T.
Qed.

Lemma stock_world st bl name buf iv existing patch cache h key kids cs :
  zlen buf < 2 ^ 31 -> header_of buf = Ok h -> (forall j, byte (rd_ks (reader_of st buf key) j)) ->
  stocked buf (rd_ks (reader_of st buf key)) kids cs ->
  exists f0, forall f x, (f0 <= f)%nat -> parse_file st f buf iv existing patch None cache = Ok x -> pf_key x = key -> shows_trees (pf_kids x) kids ->
    exists w s, w_parse st bl f (w_open name buf iv existing patch cache) 0 0 = (Ok tt, w) /\ (0 < f)%nat /\
      linked_world f st bl (eq (reader_of st buf key)) s cs name w.
Proof.
  intros Hs Hh Hk Fw.
  assert (Bf : rd_buf (reader_of st buf key) = buf) by (destruct key; reflexivity).
  destruct (stocked_reads (eq (reader_of st buf key)) (mkShared (reader_of st buf key) h true OPkg1 0) kids cs) as (f2 & R);
    [reflexivity|cbn [sh_rd]; rewrite Bf; exact Hs|exact Hk|cbn [sh_rd]; rewrite Bf; exact Fw|].
  exists (Nat.max f2 1). intros f x Hf Pf Ek Sh. subst key.
  pose proof (R f ltac:(lia) _ Sh (file_settled _ _ _ _ _ _ _ _ _ Pf)) as D.
  destruct (file_stocked st bl (eq (reader_of st buf (pf_key x))) f name buf iv existing patch cache h x cs Hh Pf) as (w & E & O).
  { eapply dll_shared; [|exact D]. reflexivity. }
  exists w. eexists. split; [exact E|]. split; [lia|exact O].
Qed.
Lemma stock_opens st bl name buf iv existing patch cache h key kids cs :
  zlen buf < 2 ^ 31 -> header_of buf = Ok h -> (forall j, byte (rd_ks (reader_of st buf key) j)) ->
  stocked buf (rd_ks (reader_of st buf key)) kids cs ->
  exists f0, forall f x, (f0 <= f)%nat -> parse_file st f buf iv existing patch None cache = Ok x -> pf_key x = key -> shows_trees (pf_kids x) kids ->
    exists w, w_parse st bl f (w_open name buf iv existing patch cache) 0 0 = (Ok tt, w) /\
      serves_links st bl f w (eq (reader_of st buf key)) name cs.
Proof.
  intros Hs Hh Hk Fw. pose proof (stocked_total _ _ _ _ Fw) as T.
  destruct (stock_world st bl name buf iv existing patch cache h key kids cs Hs Hh Hk Fw) as (f0 & W).
  exists f0. intros f x Hf Pf Ek Sh. destruct (W f x Hf Pf Ek Sh) as (w & s & E & F & O). exists w. split; [exact E|]. eapply world_links; eassumption.
Qed.

(** C265: a classic package opened with its version serves its content, through the links. *)
Theorem C265_classic_links : forall bl name buf h p r t iv existing e v ds kids cs cache,
  bytes buf -> zlen buf < 2 ^ 31 -> read_header buf = Ok (h, p) -> hd_ident h = IV1 -> hd_encver h = Some e ->
  0 <= v < 1000000 -> Version.decimal v ds -> folded (digit_hash 0 ds) = e ->
  laid_dir buf (iv_key (aes256 user_key) (region_iv r)) (hd_fstart h) (digit_hash 0 ds) (hd_data_start h) kids ->
  first_name true buf (hd_data_start h) (enc_str (iv_key (aes256 user_key) (region_iv r)) t) ->
  plain_ascii t -> (r = Sea -> (2 <= length t)%nat) ->
  offered (aes256 user_key) (iv_key (aes256 user_key) (region_iv r)) (length t) (region_iv r) iv existing ->
  stocked buf (iv_key (aes256 user_key) (region_iv r)) kids cs ->
  exists f0, forall f, (f0 <= f)%nat -> exists w,
    w_parse (iv_key (aes256 user_key)) bl f (w_open name buf iv existing v cache) 0 0 = (Ok tt, w) /\
    serves_links (iv_key (aes256 user_key)) bl f w (eq (reader_of (iv_key (aes256 user_key)) buf (DEcb (region_iv r)))) name cs.
Proof.
  intros bl name buf h p r t iv existing e v ds kids cs cache Hb Hs Hd Id He Hv D Fo L Fn T Hr Of Fw.
  destruct (C149_classic_package buf h p r t iv existing v e v ds kids cache Hb Hs Hd Id He Hv D Fo L Fn T Hr Of) as (f1 & kids' & Sh & P).
  destruct (stock_opens (iv_key (aes256 user_key)) bl name buf iv existing v cache h (DEcb (region_iv r)) kids cs Hs (header_was _ _ _ Hd)
    (region_key_bytes r) Fw) as (f2 & W).
  exists (Nat.max f1 f2). intros f Hf. eapply W; [lia|apply P; lia|reflexivity|exact Sh].
Qed.
Print Assumptions C265_classic_links.

(** Version 83: an image "Mob.img" with links to and fro, and a directory "d" in which there is "j.img", without any. *)
Definition link83 : list Z := Eval vm_compute in
  let ks := key_of Global in let img := ser_image ks small_props in let n := zlen img in
  PKG1 ++ enc_le 8 (45 + zlen linky_img + n) ++ enc_le 4 16 ++ [172; 0] ++
  [2] ++ [4] ++ enc_str ks (codes "Mob.img") ++ enc_wzint 4 (zlen linky_img) ++ [0] ++ stored OPkg1 16 0 1876 34 61 ++
         [3] ++ enc_str ks (codes "d") ++ [14; 0] ++ stored OPkg1 16 0 1876 43 47 ++
  [1] ++ [4] ++ enc_str ks (codes "j.img") ++ [n; 0] ++ stored OPkg1 16 0 1876 57 (61 + zlen linky_img) ++ linky_img ++ img.
Definition link_head := mkHeader IV1 (zlen link83 - 16) 16 18 (Some 172) 0 0 FNone.
Definition link_kids : list (list Z * dtree) :=
  [(codes "Mob.img", TImage 61 (zlen linky_img)); (codes "d", TDir 47 14 [(codes "j.img", TImage (61 + zlen linky_img) (zlen link83 - 61 - zlen linky_img))])].
Definition link_content : list (list Z * content) :=
  [(codes "Mob.img", CImage linky); (codes "d", CDir [(codes "j.img", CImage small_props)])].
(** What is found, and where it is. *)
Definition found (w : world) (path : text) : option (Z * res text) * world :=
  match w_at_path_parsed (iv_key (aes256 user_key)) chacha_block 20 w 0 path with
  | (Ok j, w1) => (Some (match w_thing w1 j with ThProp _ (OInt v) => v | ThProp _ (OUol _) => -1 | ThProp _ OSub => -2 | ThImage _ _ _ _ => -3 | ThProp _ (OVector _ _) => -5 | ThMsImage _ _ => -6 | _ => -4 end,
                         get_full_path 9 (w_heap w1) j), w1)
  | (_, w1) => (None, w1)
  end.
Fixpoint founds (w : world) (paths : list text) : list (option (Z * res text)) :=
  match paths with [] => [] | p :: r => let '(x, w1) := found w p in x :: founds w1 r end.
Ltac wide_tail b :=
  match goal with |- tail_at ?buf ?fs ?hash ?p ?q ?size ?off =>
    exists (p + 5), b, 0, (stored_num OPkg1 fs 0 hash b off);
    split; [vm_compute; discriminate|]; split; [split; [vm_compute; split; congruence|at_tac]|]; split; [split; [lia|at_tac]|]; split; [vm_compute; split; congruence|];
    split; [at_tac|]; split; [apply classic_holds; [vm_compute; split; congruence..|vm_compute; reflexivity]|vm_compute; discriminate] end.
Lemma linky_neat : neat linky.
Proof. right. exact (conj linky_tidy linky_simple). Qed.
Lemma link_gets : gets link_content [codes "Mob.img"; codes "t"; codes "b"; codes "s"; codes "l"] [codes "Mob.img"; codes "a"] (PlProp (PInt 300)).
Proof.
  eapply gets_image; [exists [], [(codes "d", CDir [(codes "j.img", CImage small_props)])]; split; [reflexivity|intros [E|[]]; discriminate E]|exact linky_back|apply linky_leads; auto].
Qed.
Lemma link_lacks : lacks link_content [codes "Mob.img"; codes "d"; codes "x"].
Proof.
  eapply lacks_image; [exists [], [(codes "d", CDir [(codes "j.img", CImage small_props)])]; split; [reflexivity|intros [E|[]]; discriminate E]|exact (proj2 linky_dead)].
Qed.
Example C265_example :
  (bytes link83 /\ read_header link83 = Ok (link_head, 16) /\ Version.decimal 83 [8; 3] /\ folded (digit_hash 0 [8; 3]) = 172 /\
   laid_dir link83 (key_of Global) 16 (digit_hash 0 [8; 3]) 18 link_kids /\
   first_name true link83 18 (enc_str (key_of Global) (codes "Mob.img")) /\ stocked link83 (key_of Global) link_kids link_content) /\
  gets link_content [codes "Mob.img"; codes "t"; codes "b"; codes "s"; codes "l"] [codes "Mob.img"; codes "a"] (PlProp (PInt 300)) /\
  lacks link_content [codes "Mob.img"; codes "d"; codes "x"] /\
  (let w := snd (w_parse (iv_key (aes256 user_key)) chacha_block 20 (w_open (codes "Mob.wz") link83 None None 83 []) 0 0) in
   founds w [codes "Mob.img/t/b/s/l"; codes "d/j.img/s/v"; codes "Mob.img/d/x"; codes "Mob.img/s/b/t"; codes "Mob.img/s/b"; codes "Mob.img/d"; codes "d/q"] =
     [Some (300, Ok (codes "Mob.wz/Mob.img/a")); Some (-5, Ok (codes "Mob.wz/d/j.img/s/v")); None; Some (-2, Ok (codes "Mob.wz/Mob.img/s"));
      Some (-3, Ok (codes "Mob.wz/Mob.img")); Some (-1, Ok (codes "Mob.wz/Mob.img/d")); None]).
Proof.
  split; [|split; [exact link_gets|split; [exact link_lacks|vm_compute; reflexivity]]].
  split; [byte_list|]. split; [vm_compute; reflexivity|]. split; [repeat split; try discriminate; repeat constructor; lia|]. split; [vm_compute; reflexivity|].
  change (digit_hash 0 [8; 3]) with 1876. split; [|split].
  - apply (DirWire.dir_at _ _ _ _ 18 19 47 2); [lia|split; [lia|at_tac]|].
    apply (ents_image _ _ _ _ 19 28 38 47 1 (codes "Mob.img") 61 (zlen linky_img) 0x73);
      [apply head_inline; [apply lit_unicode; reflexivity|at_tac|at_tac]|wide_tail 34|auto|at_tac|].
    apply (ents_dir _ _ _ _ 38 41 47 47 0 (codes "d") 47 14);
      [apply head_inline; [apply lit_unicode; reflexivity|at_tac|at_tac]|classic_tail 43|lia| |constructor].
    apply (DirWire.dir_at _ _ _ _ 47 48 61 1); [lia|split; [lia|at_tac]|].
    apply (ents_image _ _ _ _ 48 55 61 61 0 (codes "j.img") (61 + zlen linky_img) (zlen link83 - 61 - zlen linky_img) 0x73);
      [apply head_inline; [apply lit_unicode; reflexivity|at_tac|at_tac]|classic_tail 57|auto|at_tac|constructor].
  - exists 19, 28, 2, 4. split; [split; [lia|at_tac]|]. split; [lia|]. split; [at_tac|]. split; [lia|at_tac].
  - apply stocked_image; [apply (not_text_img (codes "Mob"))| |exact linky_neat|].
    { apply (serialised_image _ _ _ (61 + zlen linky_img)); [vm_compute; reflexivity|exact linky_good|at_tac]. }
    apply stocked_dir; [|constructor].
    apply stocked_image; [apply (not_text_img (codes "j"))| |left; repeat constructor|constructor].
    apply (serialised_image _ _ _ (zlen link83)); [vm_compute; reflexivity|exact small_good|at_tac].
Qed.

(** C266: so does one with 64-bit hashes. *)
Theorem C266_wide_links : forall bl name buf h p iv existing patch0 kids cs cache,
  bytes buf -> zlen buf < 2 ^ 31 -> read_header buf = Ok (h, p) -> is_pkg2_64 h = true -> wide_hash h <> 0 ->
  unlike_entry buf (hd_data_start h) ->
  laid_dir2 buf (fun _ => 0) (number_key (wide_number h)) true true (hd_fstart h) (hd_hash1 h) (wide_hash h) OPkg264 true (hd_data_start h) kids ->
  stocked buf (fun _ => 0) kids cs ->
  exists f0 key, forall f, (f0 <= f)%nat -> exists w,
    w_parse (iv_key (aes256 user_key)) bl f (w_open name buf iv existing patch0 cache) 0 0 = (Ok tt, w) /\
    serves_links (iv_key (aes256 user_key)) bl f w (eq (reader_of (iv_key (aes256 user_key)) buf (DPkg2 key))) name cs.
Proof.
  intros bl name buf h p iv existing patch0 kids cs cache Hb Hs Hd W Nz Un L Fw.
  destruct (C153_wide_package buf h p iv existing patch0 None kids cache Hb Hs Hd W Nz Un L) as (f1 & kids' & key & cache' & Sh & _ & _ & P).
  destruct (stock_opens (iv_key (aes256 user_key)) bl name buf iv existing patch0 cache h (DPkg2 key) kids cs Hs (header_was _ _ _ Hd)) as (f2 & Wd).
  - intro j. unfold byte. cbn. lia.
  - exact Fw.
  - exists (Nat.max f1 f2), key. intros f Hf. eapply Wd; [lia|apply P; lia|reflexivity|exact Sh].
Qed.
Print Assumptions C266_wide_links.

(** A package with 64-bit hashes 5 and 9 whose image has links. *)
Definition wide_link : list Z := Eval vm_compute in
  let h := mkHeader IV2 0 150 150 None 5 9 FRandom64 in let n := zlen linky_zero in
  wide_header 5 9 (36 + n) ++
  enc_wzint 8 (sext 64 (Z.lxor (Z.lxor (Z.lxor 65536 5) (wide_hash h)) 0x550EC4DD02C468EC)) ++
  [4] ++ enc_le 2 (- 7) ++ body_pkg2 (number_key (wide_number h)) (units16 (codes "Mob.img")) ++
  enc_wzint 4 n ++ [0] ++ stored OPkg264 150 5 (wide_hash h) 182 186 ++ linky_zero.
Definition wide_link_head := mkHeader IV2 (36 + zlen linky_zero) 150 150 None 5 9 FRandom64.
Example C266_example :
  (bytes wide_link /\ read_header wide_link = Ok (wide_link_head, 150) /\ unlike_entry wide_link 150 /\
   laid_dir2 wide_link (fun _ => 0) (number_key (wide_number wide_link_head)) true true 150 5 (wide_hash wide_link_head) OPkg264 true 150
     [(codes "Mob.img", TImage 186 (zlen linky_zero))] /\
   stocked wide_link (fun _ => 0) [(codes "Mob.img", TImage 186 (zlen linky_zero))] [(codes "Mob.img", CImage linky)]) /\
  (let w := snd (w_parse (iv_key (aes256 user_key)) chacha_block 20 (w_open (codes "Mob.wz") wide_link None None (-1) []) 0 0) in
   founds w [codes "Mob.img/t/b/s/l"; codes "Mob.img/d/x"; codes "Mob.img/s/b/t"; codes "Mob.img/s/b"; codes "Mob.img/d"; codes "d/q"] =
     [Some (300, Ok (codes "Mob.wz/Mob.img/a")); None; Some (-2, Ok (codes "Mob.wz/Mob.img/s"));
      Some (-3, Ok (codes "Mob.wz/Mob.img")); Some (-1, Ok (codes "Mob.wz/Mob.img/d")); None]).
Proof.
  split; [|vm_compute; reflexivity]. split; [byte_list|]. split; [vm_compute; reflexivity|]. split; [|split].
  - exists 108, 15, 128, 33, 220, 43. split; [at_tac|]. lia.
  - pose (h := wide_link_head).
    apply (dir_wide _ _ _ _ _ _ _ _ _ _ 150 159 182 186 (sext 64 (Z.lxor (Z.lxor (Z.lxor 65536 5) (wide_hash h)) 0x550EC4DD02C468EC)) 0);
      [reflexivity|reflexivity|cbn; lia|lia|vm_compute; split; congruence|vm_compute; reflexivity|at_tac| |].
    + apply (heads_cons _ _ _ _ _ true 159 176 181 182 182 0);
        [at_tac| |vm_compute; discriminate|split; [vm_compute; split; congruence|at_tac]|split; [lia|at_tac]|constructor].
      apply name_keyed_wide; [reflexivity|apply lit_unicode; reflexivity|reflexivity|vm_compute; split; discriminate|at_tac].
    + apply (offs_image _ _ _ _ _ _ _ _ _ _ 182 186 (codes "Mob.img") 186 (zlen linky_zero) (stored_num OPkg264 150 5 (wide_hash h) 182 186) 0x73);
        [vm_compute; discriminate|vm_compute; split; congruence|at_tac|apply pkg2_holds; pk_side|auto|at_tac|constructor].
  - apply stocked_image; [apply (not_text_img (codes "Mob"))| |exact linky_neat|constructor].
    apply (serialised_image _ _ _ (zlen wide_link)); [vm_compute; reflexivity|exact linky_good|at_tac].
Qed.

(** The images of an archive are property images, without a key, with this content; they may have links. *)
Definition holds_links (images : list (meta * list Z)) (cs : list (list Z * content)) : Prop :=
  Forall2 (fun p c => fst c = m_name (fst p) /\ not_text (m_name (fst p)) /\
    exists props, snd c = CImage props /\ laid_image (snd p) (fun _ => 0) 0 props /\ neat props) images cs.
Lemma archive_linked block name buf file images cs :
  bytes buf -> zlen buf < 2 ^ 63 -> archive block buf file images -> holds_links images cs ->
  exists w0 f0, w_open_ms block name file buf = Ok w0 /\ one_each (w_heap w0) /\ (forall comps, (exists Q z, gets cs comps Q z) \/ lacks cs comps) /\
  forall f, (f0 <= f)%nat -> exists w s,
    w_parse (iv_key (aes256 user_key)) block f w0 0 0 = (Ok tt, w) /\ (0 < f)%nat /\
    linked_world f (iv_key (aes256 user_key)) block (of_image images) s cs name w.
Proof.
  intros Hb Hs A H. destruct (archive_entries block buf file images Hb Hs A) as (h & es & O & P & F).
  unfold w_open_ms. rewrite O. cbn [rmap rbind]. set (st := iv_key (aes256 user_key)).
  assert (R : exists f0, forall f, (f0 <= f)%nat -> Forall2 (fun e c => me_name e = fst c /\ exists x props kids us, snd c = CImage props /\ to_wz_image block buf e = Ok x /\
    of_image images (own_reader st x) /\ shows_kids (own_reader st x) kids props /\
    image_children f (own_reader st x) (me_name e) 0 (wrap 64 (me_size e)) = Ok (kids, us) /\ neat props) es cs).
  { assert (In_ : forall p, In p images -> In p images) by auto. revert In_. generalize images at 2 3 as all. clear P A O. revert cs H.
    induction F as [|e p es images (N & T & Sz) _ IH]; intros cs H all In_; inversion H as [|? c ? cs' (Nc & Nt & props & Ec & L & Li) H']; subst; [exists 0%nat; constructor|].
    destruct (IH cs' H' all) as (f1 & R1); [intros q Q; apply In_; right; exact Q|].
    assert (Ne : snd p <> []).
    { intro E. destruct L as (q & e' & (a & b & E1 & _) & _). rewrite E in E1. destruct a; discriminate. }
    assert (Ow : own_reader st (snd p) = mkRd (snd p) (fun _ => 0) (rd_pks (own_reader st (snd p)))).
    { unfold own_reader, fresh_reader. destruct (snd p); [congruence|]. reflexivity. }
    destruct (image_shows (own_reader st (snd p)) (me_name e) (wrap 64 (me_size e)) 0 props) as (f2 & kids & R2).
    { rewrite Ow. exact Sz. } { rewrite Ow. intro j. cbn. split; lia. } { rewrite Ow. exact L. } { rewrite N. exact Nt. }
    exists (Nat.max f1 f2). intros f Hf. constructor; [|apply R1; lia]. split; [rewrite N; symmetry; exact Nc|]. destruct (R2 f ltac:(lia)) as (Sh & us & Im).
    exists (snd p), props, kids, us. split; [exact Ec|]. split; [exact T|]. split; [|auto]. exists p. split; [apply In_; left; reflexivity|]. rewrite Ow. split; reflexivity. }
  assert (T : forall comps, (exists Q z, gets cs comps Q z) \/ lacks cs comps).
  { apply level_total.
    - intros n props I. clear - H I. induction H as [|p c images cs (_ & _ & ps & E & _ & Ne) _ IH]; [destruct I|]. destruct I as [->|I]; [|auto]. injection E as ->. exact Ne.
    - intros n kids I. exfalso. clear - H I. induction H as [|p c images cs (_ & _ & ps & E & _) _ IH]; [destruct I|]. destruct I as [->|I]; [discriminate E|auto]. }
  destruct R as (f0 & R). eexists _, (Nat.max f0 1). split; [reflexivity|]. split; [apply one_fresh; intros ? ? X; discriminate X|]. split; [exact T|]. intros f Hf.
  destruct (archive_stocked st block (of_image images) no_shared f name buf h es cs P (R f ltac:(lia))) as (w & E & O').
  exists w. eexists. split; [exact E|]. split; [lia|exact O'].
Qed.
(** C267: and an archive of such images. *)
Theorem C267_archive_links : forall block name buf file images cs,
  bytes buf -> zlen buf < 2 ^ 63 -> archive block buf file images -> holds_links images cs ->
  exists w0 f0, w_open_ms block name file buf = Ok w0 /\ forall f, (f0 <= f)%nat -> exists w,
    w_parse (iv_key (aes256 user_key)) block f w0 0 0 = (Ok tt, w) /\
    serves_links (iv_key (aes256 user_key)) block f w (of_image images) name cs.
Proof.
  intros block name buf file images cs Hb Hs A H. destruct (archive_linked block name buf file images cs Hb Hs A H) as (w0 & f0 & O & _ & T & W).
  exists w0, f0. split; [exact O|]. intros f Hf. destruct (W f Hf) as (w & s & E & F & L). exists w. split; [exact E|]. eapply world_links; eassumption.
Qed.
Print Assumptions C267_archive_links.

(** An archive of version 2 with the images "l.img", with links, and "Mob/x.img". *)
Definition arcl_meta : meta := Meta (codes "l.img") 5 6 1 (zlen linky_zero) (zlen linky_zero + 1) 7 8 ex_key1 11 (-12).
Definition arcl_metas : list meta := [arcl_meta; arc_meta2].
Definition arcl_images : list (meta * list Z) := [(arcl_meta, linky_zero); (arc_meta2, arc_x)].
Definition arcl_pieces := flat_map pieces2 arcl_metas.
Definition arcl_table : list Z := quick (table_key2 ex_fb) (repeat 0 12) (counter (ends 0 arcl_pieces)) (Ms.stream arcl_pieces ++ repeat 0 52).
Definition arcl : list Z := Eval vm_compute in
  ex_rand ++ [1] ++ [7; 1; 2; 3] ++ e2_hidden ++ e2_enc 2 ++ repeat 0 131 ++ arcl_table ++ repeat 0 445 ++
  e2_store arc_meta2 (arc_x ++ arc_fill2) ++ repeat 0 992 ++ e2_store arcl_meta (linky_zero ++ [0]).
Lemma arcl_metas_ok : Forall meta_ok arcl_metas.
Proof.
  apply Forall_cons; [|apply Forall_cons; [|apply Forall_nil]];
    (split; [repeat (apply Forall_cons || apply Forall_nil); cbn; lia|]; split; [discriminate|]; split; [vm|];
     repeat (split; [cbn; unfold i32; lia|]); split; [apply bytes_dec; vm|]; cbn; unfold i32; lia).
Qed.
Lemma arcl_image image m filler :
  forallb (fun c => (0 <=? c) && (c <? 128)) (m_name m) = true ->
  len image = m_size m -> len (image ++ filler) = m_aligned m ->
  slice arcl (1024 + 1024 * m_start m) (1024 + 1024 * m_start m + m_aligned m) = Some (e2_store m (image ++ filler)) ->
  image_at2 chacha_block arcl ex_salt 1024 m image.
Proof.
  intros A L La S. exists ex_digits, filler, (e2_store m (image ++ filler)).
  split.
  - split; [apply Forall_forall; intros x Hx; cbn in Hx; lia|]. split; [vm|]. right. do 2 eexists. split; [reflexivity|discriminate].
  - split; [apply Forall_forall; intros x Hx; rewrite forallb_forall in A; specialize (A x Hx); lia|].
    split; [exact L|]. split; [exact La|]. split; [unfold e2_store; rewrite quick_ok by reflexivity; reflexivity|]. apply at_slice, S.
Qed.
Lemma arcl_head : head2 chacha_block arcl ex_file ex_salt 77 4 2 387.
Proof.
  exists [97; 98; 46; 109; 115], ex_fb, ex_rand, 7, 1, 2, 3, e2_hidden, (repeat 0 56), (e2_enc 2).
  cbv zeta. change (total [97; 98; 46; 109; 115] mod 312 + 30) with 183. change (183 + 5 + 2 * len ex_salt) with 192.
  split; [apply utf8_check; vm|]. split; [apply utf8_check; vm|]. split; [discriminate|].
  split; [apply (bytes_dec ex_salt); vm|]. split; [vm|]. split; [discriminate|].
  split; [apply at_slice; vm|]. split; [apply at_slice; vm|]. split; [apply at_slice; vm|]. split; [vm|]. split; [apply at_slice; vm|].
  split; [intros [|[|i]] H; [vm|vm|cbn in H; lia]|].
  split; [split; [discriminate|vm]|]. split; [lia|]. split; [split; [discriminate|vm]|]. split; [vm|].
  split; [apply quick_ok; reflexivity|]. split; [apply at_slice; vm|]. split; [vm_compute; discriminate|]. vm.
Qed.
Lemma arcl_first : not_version1 arcl ex_file.
Proof.
  exists e2_salt1, (sext 32 (le_val (firstn 4 e2_dec1))), (nth 4 e2_dec1 0), (sext 32 (le_val (firstn 4 (skipn 5 e2_dec1)))).
  eexists _, _. split; [|intros [V _]; discriminate V].
  exists [97; 98; 46; 109; 115], e2_fb1, ex_rand, 1, 7, 1, 2, (firstn 20 (skipn 187 arcl)), (skipn 9 e2_dec1), (firstn 12 (skipn 207 arcl)).
  cbv zeta. change (total [97; 98; 46; 109; 115] mod 312 + 30) with 183. change (183 + 4 + 2 * len e2_salt1) with 207.
  split; [apply utf8_check; vm|]. split; [apply utf8_check; vm|]. split; [discriminate|].
  split; [apply (bytes_dec e2_salt1); vm|]. split; [vm|]. split; [discriminate|].
  split; [apply at_slice; vm|]. split; [apply at_slice; vm|]. split; [vm|]. split; [apply at_slice; vm|].
  split; [intros i H; change (length e2_salt1) with 10%nat in H; do 10 (destruct i as [|i]; [vm|]); lia|].
  split; [split; [discriminate|vm]|]. split; [split; [discriminate|vm]|]. split; [split; [discriminate|vm]|]. split; [vm|].
  split; [apply added_check; [apply head_key_ok|vm|vm]|]. split; [apply at_slice; vm|]. split; reflexivity.
Qed.
Lemma arcl_archive : archive chacha_block arcl ex_file arcl_images.
Proof.
  exists 1024. right. split; [exact chacha64|]. split; [|exact arcl_first].
  exists ex_salt, ex_fb, 77, 387, 579. split; [exact arcl_head|]. split; [apply utf8_check; vm|].
  split; [exact arcl_metas_ok|]. split.
  { exists (repeat 0 52), arcl_table. split; [apply quick_ok; reflexivity|]. split; [cbn; lia|]. split; [vm|]. split; [apply at_slice; vm|].
    apply Forall_forall. intros p Hp.
    assert (X : forallb (fun p => 579 + len (piece_bytes p) <=? len arcl) (flat_map pieces2 (map fst arcl_images)) = true) by vm.
    rewrite forallb_forall in X. apply Z.leb_le, X, Hp. }
  split; [split; [vm|lia]|].
  apply Forall_cons; [|apply Forall_cons; [|apply Forall_nil]]; cbn [fst snd].
  - apply (arcl_image _ _ [0]); vm.
  - apply (arcl_image _ _ arc_fill2); vm.
Qed.
Lemma arcl_holds : holds_links arcl_images [(codes "l.img", CImage linky); (codes "Mob/x.img", CImage arc_props)].
Proof.
  constructor; [|constructor; [|constructor]]; cbn [fst snd arcl_meta arc_meta2 m_name]; (split; [reflexivity|]).
  - split; [apply (not_text_img (codes "l"))|]. exists linky. split; [reflexivity|]. split; [|exact linky_neat].
    apply (serialised_image _ _ _ (zlen linky_zero)); [vm_compute; reflexivity|exact linky_good|]. exists [], []. repeat split; vm_compute; reflexivity.
  - split; [apply (not_text_img (codes "Mob/x"))|]. exists arc_props. split; [reflexivity|]. split; [|left; repeat constructor].
    apply (serialised_image _ _ _ (zlen arc_x)); [vm_compute; reflexivity|repeat (constructor; try lia); apply lit_unicode; reflexivity|]. exists [], []. repeat split.
Qed.
Example C267_example :
  bytes arcl /\ archive chacha_block arcl ex_file arcl_images /\ holds_links arcl_images [(codes "l.img", CImage linky); (codes "Mob/x.img", CImage arc_props)] /\
  match w_open_ms chacha_block (codes "ab.ms") ex_file arcl with
  | Ok w0 => let w := snd (w_parse (iv_key (aes256 user_key)) chacha_block 20 w0 0 0) in
      founds w [codes "l.img"; codes "l.img/t/b/s/l"; codes "l.img/d/x"; codes "l.img/s/b/t"; codes "l.img/s/b"; codes "Mob"] =
        [Some (-6, Ok (codes "ab.ms/l.img")); Some (300, Ok (codes "ab.ms/l.img/a")); None; Some (-2, Ok (codes "ab.ms/l.img/s")); Some (-3, Ok (codes "ab.ms/l.img")); None]
  | _ => False
  end.
Proof. split; [apply bytes_dec; vm|]. split; [exact arcl_archive|]. split; [exact arcl_holds|]. vm_compute. reflexivity. Qed.

(** C268: a package without a version field serves its content through the links, opened with no version or with 770. *)
Theorem C268_unversioned_links : forall bl name buf h p r t iv existing patch kids cs cache,
  bytes buf -> zlen buf < 2 ^ 31 -> read_header buf = Ok (h, p) -> hd_ident h = IV1 -> hd_encver h = None ->
  patch = -1 \/ patch = 770 ->
  laid_dir buf (iv_key (aes256 user_key) (region_iv r)) (hd_fstart h) (digit_hash 0 [7; 7; 0]) (hd_data_start h) kids ->
  first_name true buf (hd_data_start h) (enc_str (iv_key (aes256 user_key) (region_iv r)) t) ->
  plain_ascii t -> (r = Sea -> (2 <= length t)%nat) ->
  offered (aes256 user_key) (iv_key (aes256 user_key) (region_iv r)) (length t) (region_iv r) iv existing ->
  stocked buf (iv_key (aes256 user_key) (region_iv r)) kids cs ->
  exists f0, forall f, (f0 <= f)%nat -> exists w,
    w_parse (iv_key (aes256 user_key)) bl f (w_open name buf iv existing patch cache) 0 0 = (Ok tt, w) /\
    serves_links (iv_key (aes256 user_key)) bl f w (eq (reader_of (iv_key (aes256 user_key)) buf (DEcb (region_iv r)))) name cs.
Proof.
  intros bl name buf h p r t iv existing patch kids cs cache Hb Hs Hd Id He Hp L Fn T Hr Of Fw.
  destruct (C245_unversioned_package buf h p r t iv existing patch kids cache) as (f1 & kids' & Sh & P); [assumption..|].
  destruct (stock_opens (iv_key (aes256 user_key)) bl name buf iv existing patch cache h (DEcb (region_iv r)) kids cs Hs (header_was _ _ _ Hd)
    (region_key_bytes r) Fw) as (f2 & W).
  exists (Nat.max f1 f2). intros f Hf. eapply W; [lia|apply P; lia|reflexivity|exact Sh].
Qed.
Print Assumptions C268_unversioned_links.
(** And one whose version is the lowest that fits its field, opened with none. *)
Theorem C268_lowest_version_links : forall bl name buf h p r t iv existing v ds kids cs cache,
  bytes buf -> zlen buf < 2 ^ 31 -> read_header buf = Ok (h, p) -> hd_ident h = IV1 ->
  1 <= v <= 2000 -> Version.decimal v ds -> hd_encver h = Some (folded (digit_hash 0 ds)) -> (forall u, ~ rival v (folded (digit_hash 0 ds)) u) ->
  laid_dir buf (iv_key (aes256 user_key) (region_iv r)) (hd_fstart h) (digit_hash 0 ds) (hd_data_start h) kids ->
  first_name true buf (hd_data_start h) (enc_str (iv_key (aes256 user_key) (region_iv r)) t) ->
  plain_ascii t -> (r = Sea -> (2 <= length t)%nat) ->
  offered (aes256 user_key) (iv_key (aes256 user_key) (region_iv r)) (length t) (region_iv r) iv existing ->
  stocked buf (iv_key (aes256 user_key) (region_iv r)) kids cs ->
  exists f0, forall f, (f0 <= f)%nat -> exists w,
    w_parse (iv_key (aes256 user_key)) bl f (w_open name buf iv existing (-1) cache) 0 0 = (Ok tt, w) /\
    serves_links (iv_key (aes256 user_key)) bl f w (eq (reader_of (iv_key (aes256 user_key)) buf (DEcb (region_iv r)))) name cs.
Proof.
  intros bl name buf h p r t iv existing v ds kids cs cache Hb Hs Hd Id Hv D He Nr L Fn T Hr Of Fw.
  destruct (C247_lowest_version buf h p r t iv existing v ds kids cache) as (f1 & kids' & Sh & P); [assumption..|].
  destruct (stock_opens (iv_key (aes256 user_key)) bl name buf iv existing (-1) cache h (DEcb (region_iv r)) kids cs Hs (header_was _ _ _ Hd)
    (region_key_bytes r) Fw) as (f2 & W).
  exists (Nat.max f1 f2). intros f Hf. eapply W; [lia|apply P; lia|reflexivity|exact Sh].
Qed.
Print Assumptions C268_lowest_version_links.
(** A package without a version field whose image has links. *)
Definition link770 : list Z := Eval vm_compute in
  PKG1 ++ enc_le 8 (20 + zlen linky_img) ++ enc_le 4 16 ++
  [1] ++ [4] ++ enc_str (key_of Global) (codes "Mob.img") ++ enc_wzint 4 (zlen linky_img) ++ [0] ++ stored OPkg1 16 0 (digit_hash 0 [7; 7; 0]) 32 36 ++ linky_img.
Example C268_example :
  (bytes link770 /\ read_header link770 = Ok (mkHeader IV1 (zlen link770 - 16) 16 16 None 0 0 FNone, 16) /\
   laid_dir link770 (iv_key (aes256 user_key) (region_iv Global)) 16 (digit_hash 0 [7; 7; 0]) 16 [(codes "Mob.img", TImage 36 (zlen linky_img))] /\
   first_name true link770 16 (enc_str (iv_key (aes256 user_key) (region_iv Global)) (codes "Mob.img")) /\
   stocked link770 (iv_key (aes256 user_key) (region_iv Global)) [(codes "Mob.img", TImage 36 (zlen linky_img))] [(codes "Mob.img", CImage linky)]) /\
  (let look := fun buf => founds (snd (w_parse (iv_key (aes256 user_key)) chacha_block 20 (w_open (codes "Mob.wz") buf None None (-1) []) 0 0))
                            [codes "Mob.img/t/b/s/l"; codes "Mob.img/d/x"; codes "Mob.img/s/b"] in
   let all := [Some (300, Ok (codes "Mob.wz/Mob.img/a")); None; Some (-3, Ok (codes "Mob.wz/Mob.img"))] in
   look link770 = all /\ look link83 = all).
Proof.
  split; [|vm_compute; split; reflexivity]. split; [byte_list|]. split; [vm_compute; reflexivity|]. change (digit_hash 0 [7; 7; 0]) with 59185. split; [|split].
  - apply (DirWire.dir_at _ _ _ _ 16 17 36 1); [lia|split; [lia|at_tac]|].
    apply (ents_image _ _ _ _ 17 26 36 36 0 (codes "Mob.img") 36 (zlen linky_img) 0x73);
      [apply head_inline; [apply lit_unicode; reflexivity|at_tac|at_tac]|wide_tail 32|auto|at_tac|constructor].
  - exists 17, 26, 1, 4. split; [split; [lia|at_tac]|]. split; [lia|]. split; [at_tac|]. split; [lia|at_tac].
  - apply stocked_image; [apply (not_text_img (codes "Mob"))| |exact linky_neat|constructor].
    apply (serialised_image _ _ _ (zlen link770)); [vm_compute; reflexivity|exact linky_good|at_tac].
Qed.
