(** C262-C264: canvases of a package called "Base" whose links never give a picture. *)
From Coq Require Import ZArith List Bool Lia ZifyBool ZifyNat.
From Coq Require String Ascii.
From Verif.Model Require Import Base Utf Keys Reader WzStr Header Offset VersionPkg1 VersionPkg2 Directory Image Media Guess File Png Node Ms World WorldPicture.
From Verif.Spec Require Import Wire Stream StrWire HeaderSpec Version Media PropWire PropView DirWire DirView DirWire2 Aes KeyFind PropEnc PathSpec Tree ChaCha Whole Pixel Picture Portrait Outlook Blocked.
From Verif.Proofs Require Import OpenL BaseL WireL KeysL AtL DirL HeaderL MediaL EncL ImageL StrictL GuessL FileL NodeL WorldL WalkWL CanvasL PortraitL OutlookL BlockL CasesL.
From Verif.Props Require Import P_Media P_Header P_Strict P_Version P_Directory P_Node P_Guess P_File P_Canvas P_Whole P_Archive P_ImgFile P_Portrait P_Outlook.
Import ListNotations. Import String.StringSyntax.
Open Scope Z_scope.

(** Whatever has been asked before: the canvas at a blocked path is found, and asking for its picture waits for ever (written [Panic]). *)
Definition waits_for_ever (st : list Z -> nat -> Z) (bl : list Z -> list Z -> Z -> list Z) (f : nat) (inflate : bool -> list Z -> Z -> option (list Z))
    (bc7 : list Z -> Z -> Z -> option (list Z)) (rayon : bool) (w : world) (top : place) : Prop :=
  forall past X, good_path X -> jams top [] X ->
  exists i w1 d0, w_at_path_parsed st bl f (lookups st bl f w past) 0 (joined X) = (Ok i, w1) /\
    forall d, (d0 <= d)%nat -> exists w2, w_get_image st bl f inflate bc7 rayon d [] w1 i = (Panic, w2).
(** And where links go round, no depth of calls is enough. *)
Definition never_ends (st : list Z -> nat -> Z) (bl : list Z -> list Z -> Z -> list Z) (f : nat) (inflate : bool -> list Z -> Z -> option (list Z))
    (bc7 : list Z -> Z -> Z -> option (list Z)) (rayon : bool) (w : world) (top : place) : Prop :=
  forall past X, good_path X -> circles top [] X ->
  exists i w1, w_at_path_parsed st bl f (lookups st bl f w past) 0 (joined X) = (Ok i, w1) /\
    forall d, fst (w_get_image st bl f inflate bc7 rayon d [] w1 i) = OutOfFuel.
(** These and [gives_views] are all there is. *)
Definition no_other_way (st : list Z -> nat -> Z) (bl : list Z -> list Z -> Z -> list Z) (f : nat) (inflate : bool -> list Z -> Z -> option (list Z))
    (bc7 : list Z -> Z -> Z -> option (list Z)) (rayon : bool) (w : world) (top : place) : Prop :=
  forall past X z, good_path X -> leads top X z ->
  (exists r, views top [] X r) \/
  exists i w1, w_at_path_parsed st bl f (lookups st bl f w past) 0 (joined X) = (Ok i, w1) /\
    ((jams top [] X /\ exists d0, forall d, (d0 <= d)%nat -> exists w2, w_get_image st bl f inflate bc7 rayon d [] w1 i = (Panic, w2)) \/
     (circles top [] X /\ forall d, fst (w_get_image st bl f inflate bc7 rayon d [] w1 i) = OutOfFuel)).

Lemma in_leads top X Y : by_inlink top X Y -> exists z, leads top X z.
Proof. intros (P & props & v & p & z & (Q & _ & -> & L1 & L2 & _) & _). exists (PlProp v). eapply leads_join; eassumption. Qed.
Lemma out_leads top X Y : by_outlink top X Y -> exists z, leads top X z.
Proof. intros (P & props & v & z & (Q & _ & -> & L1 & L2 & _) & _). exists (PlProp v). eapply leads_join; eassumption. Qed.
Lemma jams_lead top seen X : jams top seen X -> exists z, leads top X z.
Proof.
  destruct 1 as [seen P props X v p Y (Q & _ & -> & L1 & L2 & _) _ _ _ _ _|seen X Y Li _|seen X Y Lo _ _]; [|eapply in_leads; exact Li|eapply out_leads; exact Lo].
  exists (PlProp v). eapply leads_join; eassumption.
Qed.

Lemma circles_lead top seen X : circles top seen X -> exists z, leads top X z.
Proof.
  destruct 1 as [seen S X G SX|seen X Y Li _|seen X Y Lo _ _]; [|eapply in_leads; exact Li|eapply out_leads; exact Lo].
  destruct (G X SX) as (Y & _ & [Li|[Lo _]]); [eapply in_leads; exact Li|eapply out_leads; exact Lo].
Qed.

Section ever.
  Variable st : list Z -> nat -> Z.
  Variable bl : list Z -> list Z -> Z -> list Z.
  Variable ok : rd -> Prop.
  Variable f : nat.
  Hypothesis F : (0 < f)%nat.
  Variable s : shared.
  Variable cs : list (list Z * content).
  Variable inflate : bool -> list Z -> Z -> option (list Z).
  Variable bc7 : list Z -> Z -> Z -> option (list Z).
  Variable rayon : bool.
  Variable w : world.
  Hypothesis Op : opened_world st bl ok f s [66; 97; 115; 101] (PlDir cs) w.
  Hypothesis Kf : exists c, w_heap w 0 = Some c /\ nd_kind c = KFile true.

  Lemma base_lookup past X z : good_path X -> leads (PlDir cs) X z ->
    exists i w1, w_at_path_parsed st bl f (lookups st bl f w past) 0 (joined X) = (Ok i, w1) /\ base_world f st bl ok s cs w1 /\ hangs (w_heap w1) 0 X i.
  Proof using F Op Kf.
    intros Gp L. destruct Kf as (c & Hc & Kc).
    assert (W0 : base_world f st bl ok s cs w).
    { destruct Op as (B & A & k & sl & H & _). split; [exact B|]. split; [exact A|]. rewrite H in Hc. injection Hc as <-. cbn [nd_kind] in Kc. subst k. eauto. }
    destruct (lookups_ok st bl ok f s _ _ F past w Op) as [O X0]. set (w0 := lookups st bl f w past) in *. clearbody w0.
    assert (W : base_world f st bl ok s cs w0) by (eapply base_ext; [exact W0|exact X0|apply O]).
    pose proof O as (B & A & _). destruct (walk f st bl ok s F X w0 0 _ B A) as [Wk _]. destruct (Wk _ L) as (i & w1 & E1 & X1 & B1 & _ & Hg).
    destruct (base_root f st bl ok s cs w0 W) as [_ H0]. exists i, w1. split; [|split].
    - rewrite (opened_fold st bl ok f s _ _ w0 _ O), split_join by first [apply good_plain, Gp|apply Gp]. exact E1.
    - eapply base_ext; eassumption.
    - exact (Hg (proj2 Gp) 0 [] H0).
  Qed.
  Lemma world_waits : waits_for_ever st bl f inflate bc7 rayon w (PlDir cs).
  Proof using F Op Kf.
    intros past X Gp Bk. destruct (jams_lead _ _ _ Bk) as [z L]. destruct (base_lookup past X z Gp L) as (i & w1 & E & W1 & H).
    destruct (blocked f F st bl ok s inflate bc7 rayon cs [] X Bk w1 [] i W1) as [d0 D]; [constructor|constructor|exact H|]. eauto.
  Qed.
  Lemma world_ends_not : never_ends st bl f inflate bc7 rayon w (PlDir cs).
  Proof using F Op Kf.
    intros past X Gp Ci. destruct (circles_lead _ _ _ Ci) as [z L]. destruct (base_lookup past X z Gp L) as (i & w1 & E & W1 & H). exists i, w1. split; [exact E|].
    apply (circled f F st bl ok s inflate bc7 rayon cs [] X Ci w1 [] i W1); [constructor|constructor|exact H].
  Qed.
  Lemma world_cases : path_links (PlDir cs) -> no_other_way st bl f inflate bc7 rayon w (PlDir cs).
  Proof using F Op Kf.
    intros Good past X z Gp L. destruct (three_cases cs Good X z (proj1 Gp) L) as [V|[J|Ci]]; [left; exact V|right..].
    - destruct (world_waits past X Gp J) as (i & w1 & d0 & E & D). exists i, w1. split; [exact E|]. left. split; [exact J|]. exists d0. exact D.
    - destruct (world_ends_not past X Gp Ci) as (i & w1 & E & D). exists i, w1. split; [exact E|]. right. split; [exact Ci|exact D].
  Qed.
End ever.

(** C262: in a classic package that is called "Base", opened with its version, a picture whose outlink leads below a canvas passed on the way
    to it is never given. *)
Theorem C262_base_blocked : forall inflate bc7 rayon bl buf h p r t iv existing e v ds kids cs cache,
  bytes buf -> zlen buf < 2 ^ 31 -> read_header buf = Ok (h, p) -> hd_ident h = IV1 -> hd_encver h = Some e ->
  0 <= v < 1000000 -> decimal v ds -> folded (digit_hash 0 ds) = e ->
  laid_dir buf (iv_key (aes256 user_key) (region_iv r)) (hd_fstart h) (digit_hash 0 ds) (hd_data_start h) kids ->
  first_name true buf (hd_data_start h) (enc_str (iv_key (aes256 user_key) (region_iv r)) t) ->
  plain_ascii t -> (r = Sea -> (2 <= length t)%nat) ->
  offered (aes256 user_key) (iv_key (aes256 user_key) (region_iv r)) (length t) (region_iv r) iv existing ->
  filled_with buf (iv_key (aes256 user_key) (region_iv r)) kids cs ->
  exists f0, forall f, (f0 <= f)%nat -> exists w,
    w_parse (iv_key (aes256 user_key)) bl f (w_open (codes "Base") buf iv existing v cache) 0 0 = (Ok tt, w) /\
    waits_for_ever (iv_key (aes256 user_key)) bl f inflate bc7 rayon w (PlDir cs).
Proof.
  intros inflate bc7 rayon bl buf h p r t iv existing e v ds kids cs cache Hb Hs Hd Id He Hv D Fo L Fn T Hr Of Fw.
  destruct (classic_opens bl (codes "Base") buf h p r t iv existing e v ds kids cs cache) as (f0 & W); [assumption..|].
  exists f0. intros f Hf. destruct (W f Hf) as (w & s & E & F & O). exists w. split; [exact E|].
  pose proof O as (_ & _ & k & sl & H & _). eapply world_waits; [exact F|exact O|eexists; split; [exact H|eapply parsed_root; [exact E|exact H]]].
Qed.
Print Assumptions C262_base_blocked.
(** The same with 64-bit hashes. *)
Theorem C262_wide_base_blocked : forall inflate bc7 rayon bl buf h p iv existing patch0 kids cs cache,
  bytes buf -> zlen buf < 2 ^ 31 -> read_header buf = Ok (h, p) -> is_pkg2_64 h = true -> wide_hash h <> 0 ->
  unlike_entry buf (hd_data_start h) ->
  laid_dir2 buf (fun _ => 0) (number_key (wide_number h)) true true (hd_fstart h) (hd_hash1 h) (wide_hash h) OPkg264 true (hd_data_start h) kids ->
  filled_with buf (fun _ => 0) kids cs ->
  exists f0, forall f, (f0 <= f)%nat -> exists w,
    w_parse (iv_key (aes256 user_key)) bl f (w_open (codes "Base") buf iv existing patch0 cache) 0 0 = (Ok tt, w) /\
    waits_for_ever (iv_key (aes256 user_key)) bl f inflate bc7 rayon w (PlDir cs).
Proof.
  intros inflate bc7 rayon bl buf h p iv existing patch0 kids cs cache Hb Hs Hd W Nz Un L Fw.
  destruct (wide_opens bl (codes "Base") buf h p iv existing patch0 kids cs cache) as (f0 & key & Wd); [assumption..|].
  exists f0. intros f Hf. destruct (Wd f Hf) as (w & s & E & F & O). exists w. split; [exact E|].
  pose proof O as (_ & _ & k & sl & H & _). eapply world_waits; [exact F|exact O|eexists; split; [exact H|eapply parsed_root; [exact E|exact H]]].
Qed.
Print Assumptions C262_wide_base_blocked.

(** C263: nor is one whose links go round: the calls go deeper without end. *)
Theorem C263_base_round : forall inflate bc7 rayon bl buf h p r t iv existing e v ds kids cs cache,
  bytes buf -> zlen buf < 2 ^ 31 -> read_header buf = Ok (h, p) -> hd_ident h = IV1 -> hd_encver h = Some e ->
  0 <= v < 1000000 -> decimal v ds -> folded (digit_hash 0 ds) = e ->
  laid_dir buf (iv_key (aes256 user_key) (region_iv r)) (hd_fstart h) (digit_hash 0 ds) (hd_data_start h) kids ->
  first_name true buf (hd_data_start h) (enc_str (iv_key (aes256 user_key) (region_iv r)) t) ->
  plain_ascii t -> (r = Sea -> (2 <= length t)%nat) ->
  offered (aes256 user_key) (iv_key (aes256 user_key) (region_iv r)) (length t) (region_iv r) iv existing ->
  filled_with buf (iv_key (aes256 user_key) (region_iv r)) kids cs ->
  exists f0, forall f, (f0 <= f)%nat -> exists w,
    w_parse (iv_key (aes256 user_key)) bl f (w_open (codes "Base") buf iv existing v cache) 0 0 = (Ok tt, w) /\
    never_ends (iv_key (aes256 user_key)) bl f inflate bc7 rayon w (PlDir cs).
Proof.
  intros inflate bc7 rayon bl buf h p r t iv existing e v ds kids cs cache Hb Hs Hd Id He Hv D Fo L Fn T Hr Of Fw.
  destruct (classic_opens bl (codes "Base") buf h p r t iv existing e v ds kids cs cache) as (f0 & W); [assumption..|].
  exists f0. intros f Hf. destruct (W f Hf) as (w & s & E & F & O). exists w. split; [exact E|].
  pose proof O as (_ & _ & k & sl & H & _). eapply world_ends_not; [exact F|exact O|eexists; split; [exact H|eapply parsed_root; [exact E|exact H]]].
Qed.
Print Assumptions C263_base_round.
(** The same with 64-bit hashes. *)
Theorem C263_wide_base_round : forall inflate bc7 rayon bl buf h p iv existing patch0 kids cs cache,
  bytes buf -> zlen buf < 2 ^ 31 -> read_header buf = Ok (h, p) -> is_pkg2_64 h = true -> wide_hash h <> 0 ->
  unlike_entry buf (hd_data_start h) ->
  laid_dir2 buf (fun _ => 0) (number_key (wide_number h)) true true (hd_fstart h) (hd_hash1 h) (wide_hash h) OPkg264 true (hd_data_start h) kids ->
  filled_with buf (fun _ => 0) kids cs ->
  exists f0, forall f, (f0 <= f)%nat -> exists w,
    w_parse (iv_key (aes256 user_key)) bl f (w_open (codes "Base") buf iv existing patch0 cache) 0 0 = (Ok tt, w) /\
    never_ends (iv_key (aes256 user_key)) bl f inflate bc7 rayon w (PlDir cs).
Proof.
  intros inflate bc7 rayon bl buf h p iv existing patch0 kids cs cache Hb Hs Hd W Nz Un L Fw.
  destruct (wide_opens bl (codes "Base") buf h p iv existing patch0 kids cs cache) as (f0 & key & Wd); [assumption..|].
  exists f0. intros f Hf. destruct (Wd f Hf) as (w & s & E & F & O). exists w. split; [exact E|].
  pose proof O as (_ & _ & k & sl & H & _). eapply world_ends_not; [exact F|exact O|eexists; split; [exact H|eapply parsed_root; [exact E|exact H]]].
Qed.
Print Assumptions C263_wide_base_round.

(** C264: whatever the links are (as long as they are paths), the picture at a path is given as C258 says, waited for as in C262, or sought
    without end as in C263. *)
Theorem C264_base_cases : forall inflate bc7 rayon bl buf h p r t iv existing e v ds kids cs cache,
  bytes buf -> zlen buf < 2 ^ 31 -> read_header buf = Ok (h, p) -> hd_ident h = IV1 -> hd_encver h = Some e ->
  0 <= v < 1000000 -> decimal v ds -> folded (digit_hash 0 ds) = e ->
  laid_dir buf (iv_key (aes256 user_key) (region_iv r)) (hd_fstart h) (digit_hash 0 ds) (hd_data_start h) kids ->
  first_name true buf (hd_data_start h) (enc_str (iv_key (aes256 user_key) (region_iv r)) t) ->
  plain_ascii t -> (r = Sea -> (2 <= length t)%nat) ->
  offered (aes256 user_key) (iv_key (aes256 user_key) (region_iv r)) (length t) (region_iv r) iv existing ->
  filled_with buf (iv_key (aes256 user_key) (region_iv r)) kids cs -> path_links (PlDir cs) ->
  exists f0, forall f, (f0 <= f)%nat -> exists w,
    w_parse (iv_key (aes256 user_key)) bl f (w_open (codes "Base") buf iv existing v cache) 0 0 = (Ok tt, w) /\
    no_other_way (iv_key (aes256 user_key)) bl f inflate bc7 rayon w (PlDir cs).
Proof.
  intros inflate bc7 rayon bl buf h p r t iv existing e v ds kids cs cache Hb Hs Hd Id He Hv D Fo L Fn T Hr Of Fw Good.
  destruct (classic_opens bl (codes "Base") buf h p r t iv existing e v ds kids cs cache) as (f0 & W); [assumption..|].
  exists f0. intros f Hf. destruct (W f Hf) as (w & s & E & F & O). exists w. split; [exact E|].
  pose proof O as (_ & _ & k & sl & H & _). eapply world_cases; [exact F|exact O|eexists; split; [exact H|eapply parsed_root; [exact E|exact H]]|exact Good].
Qed.
Print Assumptions C264_base_cases.
(** The same with 64-bit hashes. *)
Theorem C264_wide_base_cases : forall inflate bc7 rayon bl buf h p iv existing patch0 kids cs cache,
  bytes buf -> zlen buf < 2 ^ 31 -> read_header buf = Ok (h, p) -> is_pkg2_64 h = true -> wide_hash h <> 0 ->
  unlike_entry buf (hd_data_start h) ->
  laid_dir2 buf (fun _ => 0) (number_key (wide_number h)) true true (hd_fstart h) (hd_hash1 h) (wide_hash h) OPkg264 true (hd_data_start h) kids ->
  filled_with buf (fun _ => 0) kids cs -> path_links (PlDir cs) ->
  exists f0, forall f, (f0 <= f)%nat -> exists w,
    w_parse (iv_key (aes256 user_key)) bl f (w_open (codes "Base") buf iv existing patch0 cache) 0 0 = (Ok tt, w) /\
    no_other_way (iv_key (aes256 user_key)) bl f inflate bc7 rayon w (PlDir cs).
Proof.
  intros inflate bc7 rayon bl buf h p iv existing patch0 kids cs cache Hb Hs Hd W Nz Un L Fw Good.
  destruct (wide_opens bl (codes "Base") buf h p iv existing patch0 kids cs cache) as (f0 & key & Wd); [assumption..|].
  exists f0. intros f Hf. destruct (Wd f Hf) as (w & s & E & F & O). exists w. split; [exact E|].
  pose proof O as (_ & _ & k & sl & H & _). eapply world_cases; [exact F|exact O|eexists; split; [exact H|eapply parsed_root; [exact E|exact H]]|exact Good].
Qed.
Print Assumptions C264_wide_base_cases.

(** Two images.  "r" of the first and "s" of the second stand for each other, "t" for itself.  "d" has an outlink below itself, "e" stands
    for "d"; "g" stands for "h" of the second, which has an outlink below "g".  "f" stands for "r". *)
Definition ring1_block (ks : nat -> Z) : list Z :=
  (115 :: enc_str ks (codes "Property") ++ [0; 0]) ++
  [6] ++
  (115 :: enc_str ks (codes "r")) ++
  (9 :: enc_le 4 50) ++
  (115 :: enc_str ks (codes "Canvas")) ++
  [0; 1; 0; 0] ++
  [1] ++
  (115 :: enc_str ks (codes "_outlink")) ++
  [8] ++
  (115 :: enc_str ks (codes "B.img/s")) ++
  [1; 1; 2; 0; 0; 0] ++
  [0; 0] ++
  (enc_le 4 5) ++
  [0] ++
  [120; 156; 9; 9] ++
  (115 :: enc_str ks (codes "t")) ++
  (9 :: enc_le 4 43) ++
  (115 :: enc_str ks (codes "Canvas")) ++
  [0; 1; 0; 0] ++
  [1] ++
  (115 :: enc_str ks (codes "_inlink")) ++
  [8] ++
  (115 :: enc_str ks (codes "t")) ++
  [1; 1; 2; 0; 0; 0] ++
  [0; 0] ++
  (enc_le 4 5) ++
  [0] ++
  [120; 156; 8; 8] ++
  (115 :: enc_str ks (codes "d")) ++
  (9 :: enc_le 4 52) ++
  (115 :: enc_str ks (codes "Canvas")) ++
  [0; 1; 0; 0] ++
  [1] ++
  (115 :: enc_str ks (codes "_outlink")) ++
  [8] ++
  (115 :: enc_str ks (codes "A.img/d/z")) ++
  [1; 1; 2; 0; 0; 0] ++
  [0; 0] ++
  (enc_le 4 5) ++
  [0] ++
  [120; 156; 7; 7] ++
  (115 :: enc_str ks (codes "e")) ++
  (9 :: enc_le 4 43) ++
  (115 :: enc_str ks (codes "Canvas")) ++
  [0; 1; 0; 0] ++
  [1] ++
  (115 :: enc_str ks (codes "_inlink")) ++
  [8] ++
  (115 :: enc_str ks (codes "d")) ++
  [1; 1; 2; 0; 0; 0] ++
  [0; 0] ++
  (enc_le 4 5) ++
  [0] ++
  [120; 156; 6; 6] ++
  (115 :: enc_str ks (codes "g")) ++
  (9 :: enc_le 4 50) ++
  (115 :: enc_str ks (codes "Canvas")) ++
  [0; 1; 0; 0] ++
  [1] ++
  (115 :: enc_str ks (codes "_outlink")) ++
  [8] ++
  (115 :: enc_str ks (codes "B.img/h")) ++
  [1; 1; 2; 0; 0; 0] ++
  [0; 0] ++
  (enc_le 4 5) ++
  [0] ++
  [120; 156; 5; 5] ++
  (115 :: enc_str ks (codes "f")) ++
  (9 :: enc_le 4 43) ++
  (115 :: enc_str ks (codes "Canvas")) ++
  [0; 1; 0; 0] ++
  [1] ++
  (115 :: enc_str ks (codes "_inlink")) ++
  [8] ++
  (115 :: enc_str ks (codes "r")) ++
  [1; 1; 2; 0; 0; 0] ++
  [0; 0] ++
  (enc_le 4 5) ++
  [0] ++
  [120; 156; 2; 2].
Definition ring1_props : list (list Z * prop) :=
  [(codes "r", PCanvas 1 1 2 0 0 40056 120 4 [(codes "_outlink", PStr (codes "B.img/s"))]);
   (codes "t", PCanvas 1 1 2 0 0 40056 171 4 [(codes "_inlink", PStr (codes "t"))]);
   (codes "d", PCanvas 1 1 2 0 0 40056 231 4 [(codes "_outlink", PStr (codes "A.img/d/z"))]);
   (codes "e", PCanvas 1 1 2 0 0 40056 282 4 [(codes "_inlink", PStr (codes "d"))]);
   (codes "g", PCanvas 1 1 2 0 0 40056 340 4 [(codes "_outlink", PStr (codes "B.img/h"))]);
   (codes "f", PCanvas 1 1 2 0 0 40056 391 4 [(codes "_inlink", PStr (codes "r"))])].
Definition ring2_block (ks : nat -> Z) : list Z :=
  (115 :: enc_str ks (codes "Property") ++ [0; 0]) ++
  [2] ++
  (115 :: enc_str ks (codes "s")) ++
  (9 :: enc_le 4 50) ++
  (115 :: enc_str ks (codes "Canvas")) ++
  [0; 1; 0; 0] ++
  [1] ++
  (115 :: enc_str ks (codes "_outlink")) ++
  [8] ++
  (115 :: enc_str ks (codes "A.img/r")) ++
  [1; 1; 2; 0; 0; 0] ++
  [0; 0] ++
  (enc_le 4 5) ++
  [0] ++
  [120; 156; 4; 4] ++
  (115 :: enc_str ks (codes "h")) ++
  (9 :: enc_le 4 52) ++
  (115 :: enc_str ks (codes "Canvas")) ++
  [0; 1; 0; 0] ++
  [1] ++
  (115 :: enc_str ks (codes "_outlink")) ++
  [8] ++
  (115 :: enc_str ks (codes "A.img/g/q")) ++
  [1; 1; 2; 0; 0; 0] ++
  [0; 0] ++
  (enc_le 4 5) ++
  [0] ++
  [120; 156; 3; 3].
Definition ring2_props : list (list Z * prop) :=
  [(codes "s", PCanvas 1 1 2 0 0 40056 462 4 [(codes "_outlink", PStr (codes "A.img/r"))]);
   (codes "h", PCanvas 1 1 2 0 0 40056 522 4 [(codes "_outlink", PStr (codes "A.img/g/q"))])].
Definition rings : list Z := Eval vm_compute in
  let ks := key_of Global in let a := ring1_block ks in let b := ring2_block ks in
  PKG1 ++ enc_le 8 (37 + zlen a + zlen b) ++ enc_le 4 16 ++ [172; 0] ++
  [2] ++ [4] ++ enc_str ks (codes "A.img") ++ enc_wzint 4 (zlen a) ++ [0] ++ stored OPkg1 16 0 1876 32 53 ++
  [4] ++ enc_str ks (codes "B.img") ++ enc_wzint 4 (zlen b) ++ [0] ++ stored OPkg1 16 0 1876 49 395 ++ a ++ b.
Definition rings_head := mkHeader IV1 (zlen rings - 16) 16 18 (Some 172) 0 0 FNone.
Definition rings_kids : list (list Z * dtree) := [(codes "A.img", TImage 53 342); (codes "B.img", TImage 395 131)].
Definition rings_content : list (list Z * content) := [(codes "A.img", CImage ring1_props); (codes "B.img", CImage ring2_props)].
Lemma ring1_laid : laid_image rings (key_of Global) 53 ring1_props.
Proof.
exists 63, 395. split; [at_tac|]. split; [at_tac|].
apply (list_at _ _ _ 65 66 395); [split; [vm_compute; split; congruence|at_tac]|].
apply (entries_cons _ _ _ 66 69 124 395).
{ apply (block_inline _ _ _ 66 69 _ 115); [right; reflexivity|apply lit_unicode; reflexivity|at_tac|at_tac]. }
{ apply (value_ext _ _ _ 69 124 122 50); [lia|at_tac|reflexivity|].
apply (ext_canvas_kids _ _ _ 74 82 107 122 124); [|at_tac| |].
{ apply (block_inline _ _ _ 74 82 _ 115); [right; reflexivity|apply lit_unicode; reflexivity|at_tac|at_tac]. }
{ apply (list_at _ _ _ 86 87 107); [split; [vm_compute; split; congruence|at_tac]|]. apply (entries_cons _ _ _ 87 97 107 107); [|apply value_str; [at_tac|]|constructor].
{ apply (block_inline _ _ _ 87 97 _ 115); [right; reflexivity|apply lit_unicode; reflexivity|at_tac|at_tac]. }
{ apply (block_inline _ _ _ 98 107 _ 115); [right; reflexivity|apply lit_unicode; reflexivity|at_tac|at_tac]. }
}
{ apply (canvas_at _ 107 108 109 110 112 113 1 1 2 0 0 0 40056 4); try lia; first [split; [lia|at_tac]|at_tac]. }
}
apply (entries_cons _ _ _ 124 127 175 395).
{ apply (block_inline _ _ _ 124 127 _ 115); [right; reflexivity|apply lit_unicode; reflexivity|at_tac|at_tac]. }
{ apply (value_ext _ _ _ 127 175 173 43); [lia|at_tac|reflexivity|].
apply (ext_canvas_kids _ _ _ 132 140 158 173 175); [|at_tac| |].
{ apply (block_inline _ _ _ 132 140 _ 115); [right; reflexivity|apply lit_unicode; reflexivity|at_tac|at_tac]. }
{ apply (list_at _ _ _ 144 145 158); [split; [vm_compute; split; congruence|at_tac]|]. apply (entries_cons _ _ _ 145 154 158 158); [|apply value_str; [at_tac|]|constructor].
{ apply (block_inline _ _ _ 145 154 _ 115); [right; reflexivity|apply lit_unicode; reflexivity|at_tac|at_tac]. }
{ apply (block_inline _ _ _ 155 158 _ 115); [right; reflexivity|apply lit_unicode; reflexivity|at_tac|at_tac]. }
}
{ apply (canvas_at _ 158 159 160 161 163 164 1 1 2 0 0 0 40056 4); try lia; first [split; [lia|at_tac]|at_tac]. }
}
apply (entries_cons _ _ _ 175 178 235 395).
{ apply (block_inline _ _ _ 175 178 _ 115); [right; reflexivity|apply lit_unicode; reflexivity|at_tac|at_tac]. }
{ apply (value_ext _ _ _ 178 235 233 52); [lia|at_tac|reflexivity|].
apply (ext_canvas_kids _ _ _ 183 191 218 233 235); [|at_tac| |].
{ apply (block_inline _ _ _ 183 191 _ 115); [right; reflexivity|apply lit_unicode; reflexivity|at_tac|at_tac]. }
{ apply (list_at _ _ _ 195 196 218); [split; [vm_compute; split; congruence|at_tac]|]. apply (entries_cons _ _ _ 196 206 218 218); [|apply value_str; [at_tac|]|constructor].
{ apply (block_inline _ _ _ 196 206 _ 115); [right; reflexivity|apply lit_unicode; reflexivity|at_tac|at_tac]. }
{ apply (block_inline _ _ _ 207 218 _ 115); [right; reflexivity|apply lit_unicode; reflexivity|at_tac|at_tac]. }
}
{ apply (canvas_at _ 218 219 220 221 223 224 1 1 2 0 0 0 40056 4); try lia; first [split; [lia|at_tac]|at_tac]. }
}
apply (entries_cons _ _ _ 235 238 286 395).
{ apply (block_inline _ _ _ 235 238 _ 115); [right; reflexivity|apply lit_unicode; reflexivity|at_tac|at_tac]. }
{ apply (value_ext _ _ _ 238 286 284 43); [lia|at_tac|reflexivity|].
apply (ext_canvas_kids _ _ _ 243 251 269 284 286); [|at_tac| |].
{ apply (block_inline _ _ _ 243 251 _ 115); [right; reflexivity|apply lit_unicode; reflexivity|at_tac|at_tac]. }
{ apply (list_at _ _ _ 255 256 269); [split; [vm_compute; split; congruence|at_tac]|]. apply (entries_cons _ _ _ 256 265 269 269); [|apply value_str; [at_tac|]|constructor].
{ apply (block_inline _ _ _ 256 265 _ 115); [right; reflexivity|apply lit_unicode; reflexivity|at_tac|at_tac]. }
{ apply (block_inline _ _ _ 266 269 _ 115); [right; reflexivity|apply lit_unicode; reflexivity|at_tac|at_tac]. }
}
{ apply (canvas_at _ 269 270 271 272 274 275 1 1 2 0 0 0 40056 4); try lia; first [split; [lia|at_tac]|at_tac]. }
}
apply (entries_cons _ _ _ 286 289 344 395).
{ apply (block_inline _ _ _ 286 289 _ 115); [right; reflexivity|apply lit_unicode; reflexivity|at_tac|at_tac]. }
{ apply (value_ext _ _ _ 289 344 342 50); [lia|at_tac|reflexivity|].
apply (ext_canvas_kids _ _ _ 294 302 327 342 344); [|at_tac| |].
{ apply (block_inline _ _ _ 294 302 _ 115); [right; reflexivity|apply lit_unicode; reflexivity|at_tac|at_tac]. }
{ apply (list_at _ _ _ 306 307 327); [split; [vm_compute; split; congruence|at_tac]|]. apply (entries_cons _ _ _ 307 317 327 327); [|apply value_str; [at_tac|]|constructor].
{ apply (block_inline _ _ _ 307 317 _ 115); [right; reflexivity|apply lit_unicode; reflexivity|at_tac|at_tac]. }
{ apply (block_inline _ _ _ 318 327 _ 115); [right; reflexivity|apply lit_unicode; reflexivity|at_tac|at_tac]. }
}
{ apply (canvas_at _ 327 328 329 330 332 333 1 1 2 0 0 0 40056 4); try lia; first [split; [lia|at_tac]|at_tac]. }
}
apply (entries_cons _ _ _ 344 347 395 395).
{ apply (block_inline _ _ _ 344 347 _ 115); [right; reflexivity|apply lit_unicode; reflexivity|at_tac|at_tac]. }
{ apply (value_ext _ _ _ 347 395 393 43); [lia|at_tac|reflexivity|].
apply (ext_canvas_kids _ _ _ 352 360 378 393 395); [|at_tac| |].
{ apply (block_inline _ _ _ 352 360 _ 115); [right; reflexivity|apply lit_unicode; reflexivity|at_tac|at_tac]. }
{ apply (list_at _ _ _ 364 365 378); [split; [vm_compute; split; congruence|at_tac]|]. apply (entries_cons _ _ _ 365 374 378 378); [|apply value_str; [at_tac|]|constructor].
{ apply (block_inline _ _ _ 365 374 _ 115); [right; reflexivity|apply lit_unicode; reflexivity|at_tac|at_tac]. }
{ apply (block_inline _ _ _ 375 378 _ 115); [right; reflexivity|apply lit_unicode; reflexivity|at_tac|at_tac]. }
}
{ apply (canvas_at _ 378 379 380 381 383 384 1 1 2 0 0 0 40056 4); try lia; first [split; [lia|at_tac]|at_tac]. }
}
constructor.
Qed.
Lemma ring2_laid : laid_image rings (key_of Global) 395 ring2_props.
Proof.
exists 405, 526. split; [at_tac|]. split; [at_tac|].
apply (list_at _ _ _ 407 408 526); [split; [vm_compute; split; congruence|at_tac]|].
apply (entries_cons _ _ _ 408 411 466 526).
{ apply (block_inline _ _ _ 408 411 _ 115); [right; reflexivity|apply lit_unicode; reflexivity|at_tac|at_tac]. }
{ apply (value_ext _ _ _ 411 466 464 50); [lia|at_tac|reflexivity|].
apply (ext_canvas_kids _ _ _ 416 424 449 464 466); [|at_tac| |].
{ apply (block_inline _ _ _ 416 424 _ 115); [right; reflexivity|apply lit_unicode; reflexivity|at_tac|at_tac]. }
{ apply (list_at _ _ _ 428 429 449); [split; [vm_compute; split; congruence|at_tac]|]. apply (entries_cons _ _ _ 429 439 449 449); [|apply value_str; [at_tac|]|constructor].
{ apply (block_inline _ _ _ 429 439 _ 115); [right; reflexivity|apply lit_unicode; reflexivity|at_tac|at_tac]. }
{ apply (block_inline _ _ _ 440 449 _ 115); [right; reflexivity|apply lit_unicode; reflexivity|at_tac|at_tac]. }
}
{ apply (canvas_at _ 449 450 451 452 454 455 1 1 2 0 0 0 40056 4); try lia; first [split; [lia|at_tac]|at_tac]. }
}
apply (entries_cons _ _ _ 466 469 526 526).
{ apply (block_inline _ _ _ 466 469 _ 115); [right; reflexivity|apply lit_unicode; reflexivity|at_tac|at_tac]. }
{ apply (value_ext _ _ _ 469 526 524 52); [lia|at_tac|reflexivity|].
apply (ext_canvas_kids _ _ _ 474 482 509 524 526); [|at_tac| |].
{ apply (block_inline _ _ _ 474 482 _ 115); [right; reflexivity|apply lit_unicode; reflexivity|at_tac|at_tac]. }
{ apply (list_at _ _ _ 486 487 509); [split; [vm_compute; split; congruence|at_tac]|]. apply (entries_cons _ _ _ 487 497 509 509); [|apply value_str; [at_tac|]|constructor].
{ apply (block_inline _ _ _ 487 497 _ 115); [right; reflexivity|apply lit_unicode; reflexivity|at_tac|at_tac]. }
{ apply (block_inline _ _ _ 498 509 _ 115); [right; reflexivity|apply lit_unicode; reflexivity|at_tac|at_tac]. }
}
{ apply (canvas_at _ 509 510 511 512 514 515 1 1 2 0 0 0 40056 4); try lia; first [split; [lia|at_tac]|at_tac]. }
}
constructor.
Qed.
Lemma rings_files :
  bytes rings /\ read_header rings = Ok (rings_head, 16) /\ decimal 83 [8; 3] /\ folded (digit_hash 0 [8; 3]) = 172 /\
  laid_dir rings (key_of Global) 16 (digit_hash 0 [8; 3]) 18 rings_kids /\
  first_name true rings 18 (enc_str (key_of Global) (codes "A.img")) /\ filled_with rings (key_of Global) rings_kids rings_content.
Proof.
  split; [apply bytes_check; vm_compute; reflexivity|]. split; [vm_compute; reflexivity|]. split; [repeat split; try discriminate; repeat constructor; lia|]. split; [vm_compute; reflexivity|].
  change (digit_hash 0 [8; 3]) with 1876. split; [|split].
  - apply (dir_at _ _ _ _ 18 19 53 2); [lia|split; [lia|at_tac]|].
    apply (ents_image _ _ _ _ 19 26 36 53 1 (codes "A.img") 53 342 0x73);
      [apply head_inline; [apply lit_unicode; reflexivity|at_tac|at_tac]| |auto|at_tac|].
    { exists 31, 32, 0, (stored_num OPkg1 16 0 1876 32 53). split; [vm_compute; discriminate|]. split; [split; [vm_compute; split; congruence|at_tac]|].
      split; [split; [lia|at_tac]|]. split; [vm_compute; split; congruence|]. split; [at_tac|].
      split; [apply classic_holds; [vm_compute; split; congruence..|vm_compute; reflexivity]|vm_compute; discriminate]. }
    apply (ents_image _ _ _ _ 36 43 53 53 0 (codes "B.img") 395 131 0x73);
      [apply head_inline; [apply lit_unicode; reflexivity|at_tac|at_tac]| |auto|at_tac|constructor].
    exists 48, 49, 0, (stored_num OPkg1 16 0 1876 49 395). split; [vm_compute; discriminate|]. split; [split; [vm_compute; split; congruence|at_tac]|].
    split; [split; [lia|at_tac]|]. split; [vm_compute; split; congruence|]. split; [at_tac|].
    split; [apply classic_holds; [vm_compute; split; congruence..|vm_compute; reflexivity]|vm_compute; discriminate].
  - exists 19, 26, 2, 4. split; [split; [lia|at_tac]|]. split; [lia|]. split; [at_tac|]. split; [lia|at_tac].
  - apply filled_image; [apply (not_text_img (codes "A"))|exact ring1_laid|repeat constructor|].
    apply filled_image; [apply (not_text_img (codes "B"))|exact ring2_laid|repeat constructor|constructor].
Qed.
(** One image: "t" stands for itself; "g" stands for "h", which has an outlink below "g". *)
Definition knot_block (ks : nat -> Z) : list Z :=
  (115 :: enc_str ks (codes "Property") ++ [0; 0]) ++
  [3] ++
  (115 :: enc_str ks (codes "t")) ++
  (9 :: enc_le 4 43) ++
  (115 :: enc_str ks (codes "Canvas")) ++
  [0; 1; 0; 0] ++
  [1] ++
  (115 :: enc_str ks (codes "_inlink")) ++
  [8] ++
  (115 :: enc_str ks (codes "t")) ++
  [1; 1; 2; 0; 0; 0] ++
  [0; 0] ++
  (enc_le 4 5) ++
  [0] ++
  [120; 156; 8; 8] ++
  (115 :: enc_str ks (codes "g")) ++
  (9 :: enc_le 4 52) ++
  (115 :: enc_str ks (codes "Canvas")) ++
  [0; 1; 0; 0] ++
  [1] ++
  (115 :: enc_str ks (codes "_outlink")) ++
  [8] ++
  (115 :: enc_str ks (codes "Mob.img/h")) ++
  [1; 1; 2; 0; 0; 0] ++
  [0; 0] ++
  (enc_le 4 5) ++
  [0] ++
  [120; 156; 5; 5] ++
  (115 :: enc_str ks (codes "h")) ++
  (9 :: enc_le 4 54) ++
  (115 :: enc_str ks (codes "Canvas")) ++
  [0; 1; 0; 0] ++
  [1] ++
  (115 :: enc_str ks (codes "_outlink")) ++
  [8] ++
  (115 :: enc_str ks (codes "Mob.img/g/q")) ++
  [1; 1; 2; 0; 0; 0] ++
  [0; 0] ++
  (enc_le 4 5) ++
  [0] ++
  [120; 156; 3; 3].
Definition knot_props : list (list Z * prop) :=
  [(codes "t", PCanvas 1 1 2 0 0 40056 246 4 [(codes "_inlink", PStr (codes "t"))]);
   (codes "g", PCanvas 1 1 2 0 0 40056 306 4 [(codes "_outlink", PStr (codes "Mob.img/h"))]);
   (codes "h", PCanvas 1 1 2 0 0 40056 368 4 [(codes "_outlink", PStr (codes "Mob.img/g/q"))])].
Definition knot : list Z := Eval vm_compute in
  let h := mkHeader IV2 0 150 150 None 5 9 FRandom64 in
  let img := knot_block (fun _ => 0) in let n := zlen img in
  wide_header 5 9 (36 + n) ++
  enc_wzint 8 (sext 64 (Z.lxor (Z.lxor (Z.lxor 65536 5) (wide_hash h)) 0x550EC4DD02C468EC)) ++
  [4] ++ enc_le 2 (- 7) ++ body_pkg2 (number_key (wide_number h)) (units16 (codes "Mob.img")) ++
  enc_wzint 4 n ++ [0] ++ stored OPkg264 150 5 (wide_hash h) 182 186 ++ img.
Definition knot_head := mkHeader IV2 (36 + zlen knot - 186) 150 150 None 5 9 FRandom64.
Lemma knot_laid : laid_image knot (fun _ => 0) 186 knot_props.
Proof.
exists 196, 372. split; [at_tac|]. split; [at_tac|].
apply (list_at _ _ _ 198 199 372); [split; [vm_compute; split; congruence|at_tac]|].
apply (entries_cons _ _ _ 199 202 250 372).
{ apply (block_inline _ _ _ 199 202 _ 115); [right; reflexivity|apply lit_unicode; reflexivity|at_tac|at_tac]. }
{ apply (value_ext _ _ _ 202 250 248 43); [lia|at_tac|reflexivity|].
apply (ext_canvas_kids _ _ _ 207 215 233 248 250); [|at_tac| |].
{ apply (block_inline _ _ _ 207 215 _ 115); [right; reflexivity|apply lit_unicode; reflexivity|at_tac|at_tac]. }
{ apply (list_at _ _ _ 219 220 233); [split; [vm_compute; split; congruence|at_tac]|]. apply (entries_cons _ _ _ 220 229 233 233); [|apply value_str; [at_tac|]|constructor].
{ apply (block_inline _ _ _ 220 229 _ 115); [right; reflexivity|apply lit_unicode; reflexivity|at_tac|at_tac]. }
{ apply (block_inline _ _ _ 230 233 _ 115); [right; reflexivity|apply lit_unicode; reflexivity|at_tac|at_tac]. }
}
{ apply (canvas_at _ 233 234 235 236 238 239 1 1 2 0 0 0 40056 4); try lia; first [split; [lia|at_tac]|at_tac]. }
}
apply (entries_cons _ _ _ 250 253 310 372).
{ apply (block_inline _ _ _ 250 253 _ 115); [right; reflexivity|apply lit_unicode; reflexivity|at_tac|at_tac]. }
{ apply (value_ext _ _ _ 253 310 308 52); [lia|at_tac|reflexivity|].
apply (ext_canvas_kids _ _ _ 258 266 293 308 310); [|at_tac| |].
{ apply (block_inline _ _ _ 258 266 _ 115); [right; reflexivity|apply lit_unicode; reflexivity|at_tac|at_tac]. }
{ apply (list_at _ _ _ 270 271 293); [split; [vm_compute; split; congruence|at_tac]|]. apply (entries_cons _ _ _ 271 281 293 293); [|apply value_str; [at_tac|]|constructor].
{ apply (block_inline _ _ _ 271 281 _ 115); [right; reflexivity|apply lit_unicode; reflexivity|at_tac|at_tac]. }
{ apply (block_inline _ _ _ 282 293 _ 115); [right; reflexivity|apply lit_unicode; reflexivity|at_tac|at_tac]. }
}
{ apply (canvas_at _ 293 294 295 296 298 299 1 1 2 0 0 0 40056 4); try lia; first [split; [lia|at_tac]|at_tac]. }
}
apply (entries_cons _ _ _ 310 313 372 372).
{ apply (block_inline _ _ _ 310 313 _ 115); [right; reflexivity|apply lit_unicode; reflexivity|at_tac|at_tac]. }
{ apply (value_ext _ _ _ 313 372 370 54); [lia|at_tac|reflexivity|].
apply (ext_canvas_kids _ _ _ 318 326 355 370 372); [|at_tac| |].
{ apply (block_inline _ _ _ 318 326 _ 115); [right; reflexivity|apply lit_unicode; reflexivity|at_tac|at_tac]. }
{ apply (list_at _ _ _ 330 331 355); [split; [vm_compute; split; congruence|at_tac]|]. apply (entries_cons _ _ _ 331 341 355 355); [|apply value_str; [at_tac|]|constructor].
{ apply (block_inline _ _ _ 331 341 _ 115); [right; reflexivity|apply lit_unicode; reflexivity|at_tac|at_tac]. }
{ apply (block_inline _ _ _ 342 355 _ 115); [right; reflexivity|apply lit_unicode; reflexivity|at_tac|at_tac]. }
}
{ apply (canvas_at _ 355 356 357 358 360 361 1 1 2 0 0 0 40056 4); try lia; first [split; [lia|at_tac]|at_tac]. }
}
constructor.
Qed.
Ltac in_rings a := let c := eval cbv in a in match c with 0%nat => apply (inside_dir rings_content _ (CImage ring1_props)) | _ => apply (inside_dir rings_content _ (CImage ring2_props)) end; named_at a.
Ltac in_knot := apply (inside_dir [(codes "Mob.img", CImage knot_props)] _ (CImage knot_props)); named_at 0%nat.
Ltac the_canvas tac k := eexists [_]; split; [discriminate|]; split; [reflexivity|]; split; [eapply leads_on; [tac|cbn [place_of]; constructor]|]; split; [in_place k|repeat eexists].
Ltac lead_to tac k := eapply leads_on; [tac|cbn [place_of]; in_place k].
Ltac in_link tac P k q m := exists P; eexists _, _, [q], _; split; [the_canvas tac k|]; split; [a_path|]; split; [a_remark|]; split; [in_place m|reflexivity].
Ltac out_link tac P k tac2 m := exists P; eexists _, _, _; split; [the_canvas tac k|]; split; [left; no_remark|]; split; [a_path|]; split; [a_remark|lead_to tac2 m].
Ltac below := eexists [_]; split; [discriminate|reflexivity].
Definition tied (top : place) : Prop :=
  jams top [] [codes "A.img"; codes "d"] /\ jams top [] [codes "A.img"; codes "e"] /\ jams top [] [codes "A.img"; codes "g"].
Lemma rings_tied : tied (PlDir rings_content).
Proof.
  assert (D : forall seen, jams (PlDir rings_content) seen [codes "A.img"; codes "d"]).
  { intro seen. eapply (jams_here _ _ [codes "A.img"] _ _ _ [codes "A.img"; codes "d"; codes "z"]); [the_canvas ltac:(in_rings 0%nat) 2%nat|left; no_remark|a_path|a_remark|left; reflexivity|below]. }
  split; [apply D|]. split.
  - eapply jams_in; [in_link ltac:(in_rings 0%nat) [codes "A.img"] 3%nat (codes "d") 2%nat|apply D].
  - apply (jams_out _ _ _ [codes "B.img"; codes "h"]); [out_link ltac:(in_rings 0%nat) [codes "A.img"] 4%nat ltac:(in_rings 1%nat) 1%nat|not_beyond|].
    eapply (jams_here _ _ [codes "B.img"] _ _ _ [codes "A.img"; codes "g"; codes "q"]); [the_canvas ltac:(in_rings 1%nat) 1%nat|left; no_remark|a_path|a_remark|right; left; reflexivity|below].
Qed.
(** The two paths, and the one. *)
Definition pair_of (X : list (list Z)) : Prop := X = [codes "A.img"; codes "r"] \/ X = [codes "B.img"; codes "s"].
Lemma rings_round : goes_round (PlDir rings_content) [] pair_of /\ goes_round (PlDir rings_content) [] (eq [codes "A.img"; codes "t"]).
Proof.
  split.
  - assert (Nb : forall Y Z, length Y = 2%nat -> pair_of Z -> ~ beyond Z Y).
    { intros Y Z Ly [->| ->] ([|? rest] & Nr & ->); try contradiction; discriminate Ly. }
    intros X [->| ->].
    + exists [codes "B.img"; codes "s"]. split; [right; reflexivity|]. right. split; [out_link ltac:(in_rings 0%nat) [codes "A.img"] 0%nat ltac:(in_rings 1%nat) 0%nat|]. intros Z [SZ|[]]. apply Nb; [reflexivity|exact SZ].
    + exists [codes "A.img"; codes "r"]. split; [left; reflexivity|]. right. split; [out_link ltac:(in_rings 1%nat) [codes "B.img"] 0%nat ltac:(in_rings 0%nat) 0%nat|]. intros Z [SZ|[]]. apply Nb; [reflexivity|exact SZ].
  - intros X <-. eexists. split; [reflexivity|]. left. in_link ltac:(in_rings 0%nat) [codes "A.img"] 1%nat (codes "t") 1%nat.
Qed.
Lemma knot_tied : jams (PlDir [(codes "Mob.img", CImage knot_props)]) [] [codes "Mob.img"; codes "g"].
Proof.
  apply (jams_out _ _ _ [codes "Mob.img"; codes "h"]); [out_link ltac:(in_knot) [codes "Mob.img"] 1%nat ltac:(in_knot) 2%nat|not_beyond|].
  eapply (jams_here _ _ [codes "Mob.img"] _ _ _ [codes "Mob.img"; codes "g"; codes "q"]); [the_canvas ltac:(in_knot) 2%nat|left; no_remark|a_path|a_remark|right; left; reflexivity|below].
Qed.
Lemma knot_round : goes_round (PlDir [(codes "Mob.img", CImage knot_props)]) [] (eq [codes "Mob.img"; codes "t"]).
Proof. intros X <-. eexists. split; [reflexivity|]. left. in_link ltac:(in_knot) [codes "Mob.img"] 0%nat (codes "t") 0%nat. Qed.
Definition knot_files : Prop :=
  bytes knot /\ read_header knot = Ok (knot_head, 150) /\ unlike_entry knot 150 /\
  laid_dir2 knot (fun _ => 0) (number_key (wide_number knot_head)) true true 150 5 (wide_hash knot_head) OPkg264 true 150
    [(codes "Mob.img", TImage 186 (zlen knot - 186))] /\
  filled_with knot (fun _ => 0) [(codes "Mob.img", TImage 186 (zlen knot - 186))] [(codes "Mob.img", CImage knot_props)].
Lemma knot_is : knot_files.
Proof.
  split; [apply bytes_check; vm_compute; reflexivity|]. split; [vm_compute; reflexivity|]. split; [|split].
  - exists 108, 15, 128, 33, 220, 43. split; [at_tac|]. lia.
  - pose (h := knot_head).
    apply (dir_wide _ _ _ _ _ _ _ _ _ _ 150 159 182 186 (sext 64 (Z.lxor (Z.lxor (Z.lxor 65536 5) (wide_hash h)) 0x550EC4DD02C468EC)) 0);
      [reflexivity|reflexivity|cbn; lia|lia|vm_compute; split; congruence|vm_compute; reflexivity|at_tac| |].
    + apply (heads_cons _ _ _ _ _ true 159 176 181 182 182 0);
        [at_tac| |vm_compute; discriminate|split; [vm_compute; split; congruence|at_tac]|split; [lia|at_tac]|constructor].
      apply name_keyed_wide; [reflexivity|apply lit_unicode; reflexivity|reflexivity|vm_compute; split; discriminate|at_tac].
    + apply (offs_image _ _ _ _ _ _ _ _ _ _ 182 186 (codes "Mob.img") 186 (zlen knot - 186) (stored_num OPkg264 150 5 (wide_hash h) 182 186) 0x73);
        [vm_compute; discriminate|vm_compute; split; congruence|at_tac|apply pkg2_holds; pk_side|auto|at_tac|constructor].
  - apply filled_image; [apply (not_text_img (codes "Mob"))|exact knot_laid|repeat constructor|constructor].
Qed.
Definition asked (w : world) (path : list Z) : res (list px) := fst (fst (far w path)).
Definition rings_world := snd (w_parse (iv_key (aes256 user_key)) chacha_block 40 (w_open (codes "Base") rings None None 83 []) 0 0).
Definition knot_world := snd (w_parse (iv_key (aes256 user_key)) chacha_block 40 (w_open (codes "Base") knot None None (-1) []) 0 0).
Example C262_example :
  tied (PlDir rings_content) /\ asked rings_world (codes "A.img/d") = Panic /\ asked rings_world (codes "A.img/e") = Panic /\ asked rings_world (codes "A.img/g") = Panic /\
  asked rings_world (codes "A.img") = Err (EOther 70) /\
  knot_files /\ jams (PlDir [(codes "Mob.img", CImage knot_props)]) [] [codes "Mob.img"; codes "g"] /\ asked knot_world (codes "Mob.img/g") = Panic.
Proof.
  split; [exact rings_tied|]. do 4 (split; [vm_compute; reflexivity|]). split; [exact knot_is|]. split; [exact knot_tied|vm_compute; reflexivity].
Qed.
Lemma rings_circle : circles (PlDir rings_content) [] [codes "A.img"; codes "r"] /\ circles (PlDir rings_content) [] [codes "B.img"; codes "s"] /\
  circles (PlDir rings_content) [] [codes "A.img"; codes "t"] /\ circles (PlDir rings_content) [] [codes "A.img"; codes "f"].
Proof.
  destruct rings_round as [R T]. split; [eapply circles_here; [exact R|left; reflexivity]|]. split; [eapply circles_here; [exact R|right; reflexivity]|]. split; [eapply circles_here; [exact T|reflexivity]|].
  eapply circles_in; [in_link ltac:(in_rings 0%nat) [codes "A.img"] 5%nat (codes "r") 0%nat|]. eapply (circles_here _ _ pair_of); [|left; reflexivity].
  intros X SX. destruct (R X SX) as (Y & SY & K). exists Y. split; [exact SY|]. destruct K as [Li|[Lo Nb]]; [left; exact Li|right; split; [exact Lo|]]. intros Z [SZ|[<-|[]]]; [apply Nb; left; exact SZ|].
  intros ([|? rest] & Nr & ->); [contradiction|]. destruct SY as [E|E]; discriminate E.
Qed.
Example C263_example :
  (circles (PlDir rings_content) [] [codes "A.img"; codes "r"] /\ circles (PlDir rings_content) [] [codes "B.img"; codes "s"] /\
   circles (PlDir rings_content) [] [codes "A.img"; codes "t"] /\ circles (PlDir rings_content) [] [codes "A.img"; codes "f"]) /\
  asked rings_world (codes "A.img/r") = OutOfFuel /\ asked rings_world (codes "B.img/s") = OutOfFuel /\ asked rings_world (codes "A.img/t") = OutOfFuel /\
  asked rings_world (codes "A.img/f") = OutOfFuel /\
  circles (PlDir [(codes "Mob.img", CImage knot_props)]) [] [codes "Mob.img"; codes "t"] /\ asked knot_world (codes "Mob.img/t") = OutOfFuel.
Proof.
  split; [exact rings_circle|]. do 4 (split; [vm_compute; reflexivity|]). split; [eapply circles_here; [exact knot_round|reflexivity]|vm_compute; reflexivity].
Qed.

(** Canvases in images, each with at most texts below. *)
Definition flat (c : content) : Prop :=
  match c with
  | CImage props => Forall (fun e => exists w h f s pg hd off size kids, snd e = PCanvas w h f s pg hd off size kids /\ Forall (fun k => exists p, good_path p /\ snd k = PStr (joined p)) kids) props
  | CDir _ => False
  end.
Lemma flat_links cs : Forall (fun e => flat (snd e)) cs -> path_links (PlDir cs).
Proof.
  intros Fl X v t L Cv R. inversion L as [|? n q X1 ? I1 L1]; subst. inversion I1 as [? ? c La| |]; subst.
  rewrite Forall_forall in Fl. specialize (Fl _ (named_in _ _ _ La)). cbn [snd] in Fl. destruct c as [props|]; [|contradiction]. cbn [flat place_of] in *.
  inversion L1 as [|? m q2 X2 ? I2 L2]; subst. inversion I2 as [|? ? u Lu|]; subst. rewrite Forall_forall in Fl. specialize (Fl _ (named_in _ _ _ Lu)). cbn [snd] in Fl.
  destruct Fl as (w & h & f & s & pg & hd & off & size & kids & -> & Fk). rewrite Forall_forall in Fk.
  inversion L2 as [|? k q3 X3 ? I3 L3]; subst.
  - destruct R as [R|R]; destruct R as (ks & u & B & Lk & E); inversion B; subst; try contradiction; specialize (Fk _ (named_in _ _ _ Lk)); cbn [snd] in Fk; destruct Fk as (p & Gp & Ep); exists p;
      (split; [exact Gp|]); destruct E as [E|E]; congruence.
  - exfalso. inversion I3 as [| |? ks ? u B Lk]; subst. inversion B; subst; try contradiction. specialize (Fk _ (named_in _ _ _ Lk)). cbn [snd] in Fk. destruct Fk as (p & _ & ->).
    inversion L3 as [|? ? ? ? ? I4 _]; subst; [destruct Cv as (? & ? & ? & ? & ? & ? & ? & ? & ? & E); discriminate E|].
    inversion I4 as [| |? ks4 ? u4 B4 L4]; subst. inversion B4; subst. destruct L4 as ([|? ?] & ? & E & _); discriminate E.
Qed.
Ltac good_one p := exists p; split; [a_path|reflexivity].
Ltac flat_tac := match goal with |- Forall _ _ => constructor; flat_tac | |- flat _ => cbn [snd flat]; flat_tac | |- exists _ _ _ _ _ _ _ _ _, _ => do 9 eexists; split; [reflexivity|flat_tac] | _ => idtac end.
Lemma rings_good : path_links (PlDir rings_content).
Proof.
  apply flat_links. flat_tac; [good_one [codes "B.img"; codes "s"]|good_one [codes "t"]|good_one [codes "A.img"; codes "d"; codes "z"]|good_one [codes "d"]|good_one [codes "B.img"; codes "h"]|
    good_one [codes "r"]|good_one [codes "A.img"; codes "r"]|good_one [codes "A.img"; codes "g"; codes "q"]].
Qed.
Lemma knot_good : path_links (PlDir [(codes "Mob.img", CImage knot_props)]).
Proof. apply flat_links. flat_tac; [good_one [codes "t"]|good_one [codes "Mob.img"; codes "h"]|good_one [codes "Mob.img"; codes "g"; codes "q"]]. Qed.
Example C264_example :
  path_links (PlDir rings_content) /\ path_links (PlDir [(codes "Mob.img", CImage knot_props)]) /\
  views (PlDir rings_content) [] [codes "A.img"] None /\ jams (PlDir rings_content) [] [codes "A.img"; codes "g"] /\ circles (PlDir rings_content) [] [codes "A.img"; codes "f"].
Proof.
  split; [exact rings_good|]. split; [exact knot_good|]. split; [|split; [apply rings_tied|apply rings_circle]].
  eapply views_other; [discriminate|eapply leads_on; [in_rings 0%nat|cbn [place_of]; constructor]|]. intros v E. discriminate E.
Qed.
