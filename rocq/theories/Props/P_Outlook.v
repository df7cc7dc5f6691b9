(** C258, C259: pictures of a package called "Base", where canvases may stand for others in other images. *)
From Coq Require Import ZArith List Bool Lia ZifyBool ZifyNat.
From Coq Require String Ascii.
From Verif.Model Require Import Base Utf Keys Reader WzStr Header Offset VersionPkg1 VersionPkg2 Directory Image Media Guess File Png Node Ms World WorldPicture.
From Verif.Spec Require Import Wire Stream StrWire HeaderSpec Version Media PropWire PropView DirWire DirView DirWire2 Aes KeyFind PropEnc PathSpec Tree ChaCha Whole Pixel Picture Portrait Outlook.
From Verif.Proofs Require Import OpenL BaseL WireL KeysL AtL DirL HeaderL MediaL EncL ImageL StrictL GuessL FileL NodeL WorldL WalkWL CanvasL PortraitL OutlookL.
From Verif.Props Require Import P_Media P_Header P_Strict P_Version P_Directory P_Node P_Guess P_File P_Canvas P_Whole P_Archive P_ImgFile P_Portrait.
Import ListNotations. Import String.StringSyntax.
Open Scope Z_scope.

(** Whatever has been asked before: at the end of a path, asking for the picture gives that of the canvas which the place stands for, and
    [NotPngProperty] where it stands for none.  Following links may read more of the package; it goes on to serve its content. *)
Definition gives_views (st : list Z -> nat -> Z) (bl : list Z -> list Z -> Z -> list Z) (f : nat) (inflate : bool -> list Z -> Z -> option (list Z))
    (bc7 : list Z -> Z -> Z -> option (list Z)) (rayon : bool) (buf : list Z) (key : nat -> Z) (w : world) (ok : rd -> Prop) (name : text) (top : place) : Prop :=
  forall past X r, good_path X -> views top [] X r ->
  exists i w1 w2, w_at_path_parsed st bl f (lookups st bl f w past) 0 (joined X) = (Ok i, w1) /\ serves st bl f w2 ok name top /\
    match r with
    | None => exists d0, forall d, (d0 <= d)%nat -> w_get_image st bl f inflate bc7 rayon d [] w1 i = (Err (EOther 70), w2)
    | Some v => forall raw wd h fm, holds_picture inflate rayon buf key v raw wd h fm ->
        exists d0 l, (forall d, (d0 <= d)%nat -> w_get_image st bl f inflate bc7 rayon d [] w1 i = (Ok l, w2)) /\ Pixel.picture wd h l (pixel_of fm raw wd)
    end.

Lemma views_lead top seen X r : views top seen X r -> exists z, leads top X z.
Proof.
  intro V. inversion V as [? ? z Nx L|? P props ? v p z ? C|? P props ? v p z ? C|? P props ? v C]; subst; [eauto|destruct C as (Q & _ & -> & L1 & L2 & _)..];
    exists (PlProp v); eapply leads_join; eassumption.
Qed.
Lemma parsed_root st bl f name buf iv existing patch cache w c : w_parse st bl f (w_open name buf iv existing patch cache) 0 0 = (Ok tt, w) -> w_heap w 0 = Some c -> nd_kind c = KFile true.
Proof.
  unfold w_open, World.fresh, nowhere. cbn [fst w_next w_heap w_thing w_cache kind_of]. set (w0 := mkWorld _ _ _ _).
  assert (C0 : w_heap w0 0 = Some (mkCell name (KFile false) None [])) by reflexivity. unfold w_parse. rewrite C0. cbn [nd_kind unread negb].
  assert (Us : forall l us w', w_load st bl f w0 0 0 = (Ok (l, us), w') -> us = []).
  { intros l us w'. unfold w_load. change (w_thing w0 0) with (ThFile buf iv existing patch). cbv iota. destruct (rbind (header_of buf) _) as [[h x]| | |]; try discriminate.
    destruct (plant_list _ _ _) as [[w1 l1] u1]. intros [= _ <- _]. reflexivity. }
  destruct (w_load st bl f w0 0 0) as [[[l us]| | |] w1] eqn:E; try discriminate. specialize (Us _ _ _ eq_refl). subst us.
  unfold parse. rewrite C0. cbn [nd_kind]. unfold parse_as. destruct (w_heap w1 0) as [c1|]; [|discriminate]. cbn [fold_left]. intros [= <-]. cbn [w_heap]. unfold put. cbn. intros [= <-]. reflexivity.
Qed.

Section gives.
  Variable st : list Z -> nat -> Z.
  Variable bl : list Z -> list Z -> Z -> list Z.
  Variable ok : rd -> Prop.
  Variable f : nat.
  Hypothesis F : (0 < f)%nat.
  Variable s : shared.
  Variable cs : list (list Z * content).
  Variable buf : list Z.
  Variable key : nat -> Z.
  Hypothesis Buf : zlen buf < 2 ^ 31.
  Hypothesis Ok_reads : forall r, ok r -> rd_buf r = buf /\ forall j, rd_ks r j = key j.
  Variable inflate : bool -> list Z -> Z -> option (list Z).
  Variable bc7 : list Z -> Z -> Z -> option (list Z).
  Variable rayon : bool.
  Local Notation opened := (opened_world st bl ok f s [66; 97; 115; 101] (PlDir cs)).

  Lemma base_opened w : base_world f st bl ok s cs w -> opened w.
  Proof using. clear F. intros (B & A & sl & H). split; [exact B|]. split; [exact A|]. eexists _, _. split; [exact H|reflexivity]. Qed.

  Lemma world_views w : opened w -> (exists c, w_heap w 0 = Some c /\ nd_kind c = KFile true) ->
    gives_views st bl f inflate bc7 rayon buf key w ok [66; 97; 115; 101] (PlDir cs).
  Proof using F Buf Ok_reads.
    intros O0 (c & Hc & Kc) past X r Gp V.
    assert (W0 : base_world f st bl ok s cs w).
    { destruct O0 as (B & A & k & sl & H & _). split; [exact B|]. split; [exact A|]. rewrite H in Hc. injection Hc as <-. cbn [nd_kind] in Kc. subst k. eauto. }
    destruct (lookups_ok st bl ok f s _ _ F past w O0) as [O X0]. set (w0 := lookups st bl f w past) in *. clearbody w0.
    assert (W : base_world f st bl ok s cs w0) by (eapply base_ext; [exact W0|exact X0|apply O]).
    destruct (views_lead _ _ _ _ V) as [z L]. pose proof O as (B & A & _).
    destruct (walk f st bl ok s F X w0 0 _ B A) as [Wk _]. destruct (Wk _ L) as (i & w1 & E1 & X1 & B1 & _ & Hg). destruct (base_root f st bl ok s cs w0 W) as [_ H0].
    specialize (Hg (proj2 Gp) 0 [] H0). assert (W1 : base_world f st bl ok s cs w1) by (eapply base_ext; eassumption).
    destruct (viewed f F st bl ok s inflate bc7 rayon cs [] X r V w1 [] i W1) as (d0 & x & w2 & Sh & X2 & W2 & D); [constructor|constructor|exact Hg|].
    exists i, w1, w2. split; [|split].
    - rewrite (opened_fold st bl ok f s _ _ w0 _ O), split_join by first [apply good_plain, Gp|apply Gp]. exact E1.
    - eapply world_serves; [exact F|apply base_opened, W2].
    - destruct r as [v|]; cbn [shown_as] in Sh; [|subst x; eauto].
      intros raw wd h fm (f1 & f2 & pg & hd & off & size & kids & -> & -> & Hf & Hw & Hh & Hs & Hb & Da & K & M & M3).
      destruct Sh as (rr & Or & ->). destruct (Ok_reads rr Or) as [Eb Ek].
      destruct (extract_picture inflate bc7 rayon rr (Png.mkPng off size f1 f2 hd wd h) raw (zlen raw)) as (l & El & Pl); cbn [pg_fmt1 pg_fmt2 pg_w pg_h pg_off pg_size pg_header];
        try assumption; try reflexivity.
      + rewrite Eb. lia.
      + rewrite Eb. eapply kept_key; [exact Ek|exact K].
      + exists d0, l. split; [intros d Hd; rewrite (D d Hd), El; reflexivity|exact Pl].
  Qed.
End gives.

(** C258: so does a classic package that is called "Base", opened with its version. *)
Theorem C258_base_views : forall inflate bc7 rayon bl buf h p r t iv existing e v ds kids cs cache,
  bytes buf -> zlen buf < 2 ^ 31 -> read_header buf = Ok (h, p) -> hd_ident h = IV1 -> hd_encver h = Some e ->
  0 <= v < 1000000 -> decimal v ds -> folded (digit_hash 0 ds) = e ->
  laid_dir buf (iv_key (aes256 user_key) (region_iv r)) (hd_fstart h) (digit_hash 0 ds) (hd_data_start h) kids ->
  first_name true buf (hd_data_start h) (enc_str (iv_key (aes256 user_key) (region_iv r)) t) ->
  plain_ascii t -> (r = Sea -> (2 <= length t)%nat) ->
  offered (aes256 user_key) (iv_key (aes256 user_key) (region_iv r)) (length t) (region_iv r) iv existing ->
  filled_with buf (iv_key (aes256 user_key) (region_iv r)) kids cs ->
  exists f0, forall f, (f0 <= f)%nat -> exists w,
    w_parse (iv_key (aes256 user_key)) bl f (w_open (codes "Base") buf iv existing v cache) 0 0 = (Ok tt, w) /\
    gives_views (iv_key (aes256 user_key)) bl f inflate bc7 rayon buf (iv_key (aes256 user_key) (region_iv r)) w
      (eq (reader_of (iv_key (aes256 user_key)) buf (DEcb (region_iv r)))) (codes "Base") (PlDir cs).
Proof.
  intros inflate bc7 rayon bl buf h p r t iv existing e v ds kids cs cache Hb Hs Hd Id He Hv D Fo L Fn T Hr Of Fw.
  destruct (classic_opens bl (codes "Base") buf h p r t iv existing e v ds kids cs cache) as (f0 & W); [assumption..|].
  exists f0. intros f Hf. destruct (W f Hf) as (w & s & E & F & O). exists w. split; [exact E|].
  pose proof O as (_ & _ & k & sl & H & _). eapply world_views; [exact F|exact Hs| |exact O|eexists; split; [exact H|eapply parsed_root; [exact E|exact H]]]. intros rr <-. split; reflexivity.
Qed.
Print Assumptions C258_base_views.

(** C259: and so does a package with 64-bit hashes. *)
Theorem C259_wide_base_views : forall inflate bc7 rayon bl buf h p iv existing patch0 kids cs cache,
  bytes buf -> zlen buf < 2 ^ 31 -> read_header buf = Ok (h, p) -> is_pkg2_64 h = true -> wide_hash h <> 0 ->
  unlike_entry buf (hd_data_start h) ->
  laid_dir2 buf (fun _ => 0) (number_key (wide_number h)) true true (hd_fstart h) (hd_hash1 h) (wide_hash h) OPkg264 true (hd_data_start h) kids ->
  filled_with buf (fun _ => 0) kids cs ->
  exists f0 key, forall f, (f0 <= f)%nat -> exists w,
    w_parse (iv_key (aes256 user_key)) bl f (w_open (codes "Base") buf iv existing patch0 cache) 0 0 = (Ok tt, w) /\
    gives_views (iv_key (aes256 user_key)) bl f inflate bc7 rayon buf (fun _ => 0) w
      (eq (reader_of (iv_key (aes256 user_key)) buf (DPkg2 key))) (codes "Base") (PlDir cs).
Proof.
  intros inflate bc7 rayon bl buf h p iv existing patch0 kids cs cache Hb Hs Hd W Nz Un L Fw.
  destruct (wide_opens bl (codes "Base") buf h p iv existing patch0 kids cs cache) as (f0 & key & Wd); [assumption..|].
  exists f0, key. intros f Hf. destruct (Wd f Hf) as (w & s & E & F & O). exists w. split; [exact E|].
  pose proof O as (_ & _ & k & sl & H & _). eapply world_views; [exact F|exact Hs| |exact O|eexists; split; [exact H|eapply parsed_root; [exact E|exact H]]]. intros rr <-. split; reflexivity.
Qed.
Print Assumptions C259_wide_base_views.

(** Two images: in the first "o" stands for "c" of the second, "i" for "o", "x" for nothing (so it is itself), "y" for an image
    (which is no picture); in the second "b" stands for "x". *)
Definition first_block (ks : nat -> Z) : list Z :=
  (115 :: enc_str ks (codes "Property") ++ [0; 0]) ++
  [4] ++
  (115 :: enc_str ks (codes "o")) ++
  (9 :: enc_le 4 50) ++
  (115 :: enc_str ks (codes "Canvas")) ++
  [0; 1; 0; 0] ++
  [1] ++
  (115 :: enc_str ks (codes "_outlink")) ++
  [8] ++
  (115 :: enc_str ks (codes "B.img/c")) ++
  [1; 1; 2; 0; 0; 0] ++
  [0; 0] ++
  (enc_le 4 5) ++
  [0] ++
  [120; 156; 9; 9] ++
  (115 :: enc_str ks (codes "i")) ++
  (9 :: enc_le 4 43) ++
  (115 :: enc_str ks (codes "Canvas")) ++
  [0; 1; 0; 0] ++
  [1] ++
  (115 :: enc_str ks (codes "_inlink")) ++
  [8] ++
  (115 :: enc_str ks (codes "o")) ++
  [1; 1; 2; 0; 0; 0] ++
  [0; 0] ++
  (enc_le 4 5) ++
  [0] ++
  [120; 156; 8; 8] ++
  (115 :: enc_str ks (codes "x")) ++
  (9 :: enc_le 4 50) ++
  (115 :: enc_str ks (codes "Canvas")) ++
  [0; 1; 0; 0] ++
  [1] ++
  (115 :: enc_str ks (codes "_outlink")) ++
  [8] ++
  (115 :: enc_str ks (codes "C.img/y")) ++
  [1; 1; 2; 0; 0; 0] ++
  [0; 0] ++
  (enc_le 4 5) ++
  [0] ++
  [120; 156; 7; 7] ++
  (115 :: enc_str ks (codes "y")) ++
  (9 :: enc_le 4 48) ++
  (115 :: enc_str ks (codes "Canvas")) ++
  [0; 1; 0; 0] ++
  [1] ++
  (115 :: enc_str ks (codes "_outlink")) ++
  [8] ++
  (115 :: enc_str ks (codes "B.img")) ++
  [1; 1; 2; 0; 0; 0] ++
  [0; 0] ++
  (enc_le 4 5) ++
  [0] ++
  [120; 156; 6; 6].
Definition first_props : list (list Z * prop) :=
  [(codes "o", PCanvas 1 1 2 0 0 40056 116 4 [(codes "_outlink", PStr (codes "B.img/c"))]);
   (codes "i", PCanvas 1 1 2 0 0 40056 167 4 [(codes "_inlink", PStr (codes "o"))]);
   (codes "x", PCanvas 1 1 2 0 0 40056 225 4 [(codes "_outlink", PStr (codes "C.img/y"))]);
   (codes "y", PCanvas 1 1 2 0 0 40056 281 4 [(codes "_outlink", PStr (codes "B.img"))])].
Definition second_block (ks : nat -> Z) : list Z :=
  (115 :: enc_str ks (codes "Property") ++ [0; 0]) ++
  [2] ++
  (115 :: enc_str ks (codes "c")) ++
  (9 :: enc_le 4 31) ++
  (115 :: enc_str ks (codes "Canvas")) ++
  [0; 0] ++
  [2; 1; 2; 0; 0; 0] ++
  [0; 0] ++
  (enc_le 4 9) ++
  [0] ++
  [120; 156; 3; 4; 5; 6; 7; 8] ++
  (115 :: enc_str ks (codes "b")) ++
  (9 :: enc_le 4 50) ++
  (115 :: enc_str ks (codes "Canvas")) ++
  [0; 1; 0; 0] ++
  [1] ++
  (115 :: enc_str ks (codes "_outlink")) ++
  [8] ++
  (115 :: enc_str ks (codes "A.img/x")) ++
  [1; 1; 2; 0; 0; 0] ++
  [0; 0] ++
  (enc_le 4 5) ++
  [0] ++
  [120; 156; 5; 5].
Definition second_props : list (list Z * prop) :=
  [(codes "c", PCanvas 2 1 2 0 0 40056 329 8 []);
   (codes "b", PCanvas 1 1 2 0 0 40056 391 4 [(codes "_outlink", PStr (codes "A.img/x"))])].
Definition both : list Z := Eval vm_compute in
  let ks := key_of Global in let a := first_block ks in let b := second_block ks in
  PKG1 ++ enc_le 8 (33 + zlen a + zlen b) ++ enc_le 4 16 ++ [172; 0] ++
  [2] ++ [4] ++ enc_str ks (codes "A.img") ++ enc_wzint 4 (zlen a) ++ [0] ++ stored OPkg1 16 0 1876 32 49 ++
  [4] ++ enc_str ks (codes "B.img") ++ enc_wzint 4 (zlen b) ++ [0] ++ stored OPkg1 16 0 1876 45 285 ++ a ++ b.
Definition both_head := mkHeader IV1 (zlen both - 16) 16 18 (Some 172) 0 0 FNone.
Definition both_kids : list (list Z * dtree) := [(codes "A.img", TImage 49 236); (codes "B.img", TImage 285 110)].
Definition both_content : list (list Z * content) := [(codes "A.img", CImage first_props); (codes "B.img", CImage second_props)].
Lemma first_laid : laid_image both (key_of Global) 49 first_props.
Proof.
exists 59, 285. split; [at_tac|]. split; [at_tac|].
apply (list_at _ _ _ 61 62 285); [split; [vm_compute; split; congruence|at_tac]|].
apply (entries_cons _ _ _ 62 65 120 285).
{ apply (block_inline _ _ _ 62 65 _ 115); [right; reflexivity|apply lit_unicode; reflexivity|at_tac|at_tac]. }
{ apply (value_ext _ _ _ 65 120 118 50); [lia|at_tac|reflexivity|].
apply (ext_canvas_kids _ _ _ 70 78 103 118 120); [|at_tac| |].
{ apply (block_inline _ _ _ 70 78 _ 115); [right; reflexivity|apply lit_unicode; reflexivity|at_tac|at_tac]. }
{ apply (list_at _ _ _ 82 83 103); [split; [vm_compute; split; congruence|at_tac]|]. apply (entries_cons _ _ _ 83 93 103 103); [|apply value_str; [at_tac|]|constructor].
{ apply (block_inline _ _ _ 83 93 _ 115); [right; reflexivity|apply lit_unicode; reflexivity|at_tac|at_tac]. }
{ apply (block_inline _ _ _ 94 103 _ 115); [right; reflexivity|apply lit_unicode; reflexivity|at_tac|at_tac]. }
}
{ apply (canvas_at _ 103 104 105 106 108 109 1 1 2 0 0 0 40056 4); try lia; first [split; [lia|at_tac]|at_tac]. }
}
apply (entries_cons _ _ _ 120 123 171 285).
{ apply (block_inline _ _ _ 120 123 _ 115); [right; reflexivity|apply lit_unicode; reflexivity|at_tac|at_tac]. }
{ apply (value_ext _ _ _ 123 171 169 43); [lia|at_tac|reflexivity|].
apply (ext_canvas_kids _ _ _ 128 136 154 169 171); [|at_tac| |].
{ apply (block_inline _ _ _ 128 136 _ 115); [right; reflexivity|apply lit_unicode; reflexivity|at_tac|at_tac]. }
{ apply (list_at _ _ _ 140 141 154); [split; [vm_compute; split; congruence|at_tac]|]. apply (entries_cons _ _ _ 141 150 154 154); [|apply value_str; [at_tac|]|constructor].
{ apply (block_inline _ _ _ 141 150 _ 115); [right; reflexivity|apply lit_unicode; reflexivity|at_tac|at_tac]. }
{ apply (block_inline _ _ _ 151 154 _ 115); [right; reflexivity|apply lit_unicode; reflexivity|at_tac|at_tac]. }
}
{ apply (canvas_at _ 154 155 156 157 159 160 1 1 2 0 0 0 40056 4); try lia; first [split; [lia|at_tac]|at_tac]. }
}
apply (entries_cons _ _ _ 171 174 229 285).
{ apply (block_inline _ _ _ 171 174 _ 115); [right; reflexivity|apply lit_unicode; reflexivity|at_tac|at_tac]. }
{ apply (value_ext _ _ _ 174 229 227 50); [lia|at_tac|reflexivity|].
apply (ext_canvas_kids _ _ _ 179 187 212 227 229); [|at_tac| |].
{ apply (block_inline _ _ _ 179 187 _ 115); [right; reflexivity|apply lit_unicode; reflexivity|at_tac|at_tac]. }
{ apply (list_at _ _ _ 191 192 212); [split; [vm_compute; split; congruence|at_tac]|]. apply (entries_cons _ _ _ 192 202 212 212); [|apply value_str; [at_tac|]|constructor].
{ apply (block_inline _ _ _ 192 202 _ 115); [right; reflexivity|apply lit_unicode; reflexivity|at_tac|at_tac]. }
{ apply (block_inline _ _ _ 203 212 _ 115); [right; reflexivity|apply lit_unicode; reflexivity|at_tac|at_tac]. }
}
{ apply (canvas_at _ 212 213 214 215 217 218 1 1 2 0 0 0 40056 4); try lia; first [split; [lia|at_tac]|at_tac]. }
}
apply (entries_cons _ _ _ 229 232 285 285).
{ apply (block_inline _ _ _ 229 232 _ 115); [right; reflexivity|apply lit_unicode; reflexivity|at_tac|at_tac]. }
{ apply (value_ext _ _ _ 232 285 283 48); [lia|at_tac|reflexivity|].
apply (ext_canvas_kids _ _ _ 237 245 268 283 285); [|at_tac| |].
{ apply (block_inline _ _ _ 237 245 _ 115); [right; reflexivity|apply lit_unicode; reflexivity|at_tac|at_tac]. }
{ apply (list_at _ _ _ 249 250 268); [split; [vm_compute; split; congruence|at_tac]|]. apply (entries_cons _ _ _ 250 260 268 268); [|apply value_str; [at_tac|]|constructor].
{ apply (block_inline _ _ _ 250 260 _ 115); [right; reflexivity|apply lit_unicode; reflexivity|at_tac|at_tac]. }
{ apply (block_inline _ _ _ 261 268 _ 115); [right; reflexivity|apply lit_unicode; reflexivity|at_tac|at_tac]. }
}
{ apply (canvas_at _ 268 269 270 271 273 274 1 1 2 0 0 0 40056 4); try lia; first [split; [lia|at_tac]|at_tac]. }
}
constructor.
Qed.
Lemma second_laid : laid_image both (key_of Global) 285 second_props.
Proof.
exists 295, 395. split; [at_tac|]. split; [at_tac|].
apply (list_at _ _ _ 297 298 395); [split; [vm_compute; split; congruence|at_tac]|].
apply (entries_cons _ _ _ 298 301 337 395).
{ apply (block_inline _ _ _ 298 301 _ 115); [right; reflexivity|apply lit_unicode; reflexivity|at_tac|at_tac]. }
{ apply (value_ext _ _ _ 301 337 331 31); [lia|at_tac|reflexivity|].
apply (ext_canvas_plain _ _ _ 306 314 331 337 0); [|lia|lia|at_tac|].
{ apply (block_inline _ _ _ 306 314 _ 115); [right; reflexivity|apply lit_unicode; reflexivity|at_tac|at_tac]. }
{ apply (canvas_at _ 316 317 318 319 321 322 2 1 2 0 0 0 40056 8); try lia; first [split; [lia|at_tac]|at_tac]. }
}
apply (entries_cons _ _ _ 337 340 395 395).
{ apply (block_inline _ _ _ 337 340 _ 115); [right; reflexivity|apply lit_unicode; reflexivity|at_tac|at_tac]. }
{ apply (value_ext _ _ _ 340 395 393 50); [lia|at_tac|reflexivity|].
apply (ext_canvas_kids _ _ _ 345 353 378 393 395); [|at_tac| |].
{ apply (block_inline _ _ _ 345 353 _ 115); [right; reflexivity|apply lit_unicode; reflexivity|at_tac|at_tac]. }
{ apply (list_at _ _ _ 357 358 378); [split; [vm_compute; split; congruence|at_tac]|]. apply (entries_cons _ _ _ 358 368 378 378); [|apply value_str; [at_tac|]|constructor].
{ apply (block_inline _ _ _ 358 368 _ 115); [right; reflexivity|apply lit_unicode; reflexivity|at_tac|at_tac]. }
{ apply (block_inline _ _ _ 369 378 _ 115); [right; reflexivity|apply lit_unicode; reflexivity|at_tac|at_tac]. }
}
{ apply (canvas_at _ 378 379 380 381 383 384 1 1 2 0 0 0 40056 4); try lia; first [split; [lia|at_tac]|at_tac]. }
}
constructor.
Qed.

Ltac in_pack a := let c := eval cbv in a in match c with 0%nat => apply (inside_dir both_content _ (CImage first_props)) | _ => apply (inside_dir both_content _ (CImage second_props)) end; named_at a.
Ltac lead2 a k := eapply leads_on; [in_pack a|cbn [place_of]; in_place k].
Ltac a_path := split; [discriminate|repeat constructor; try discriminate; vm_compute; intuition discriminate].
Ltac canvas_tac a k := eexists [_]; split; [discriminate|]; split; [reflexivity|]; split; [eapply leads_on; [in_pack a|cbn [place_of]; constructor]|]; split; [in_place k|repeat eexists].
Ltac a_remark := eexists _, _; split; [constructor|split; [named_at 0%nat|left; reflexivity]].
Ltac no_remark := intros t (kids & u & B & (pre & post & E & _) & _); inversion B; subst; try contradiction;
  match goal with H : _ = pre ++ _ |- _ => destruct pre as [|? [|? ?]]; vm_compute in H; discriminate H end.
Definition far_right (top : place) : Prop :=
  (exists v, nth_error (map snd second_props) 0 = Some v /\ views top [] [codes "A.img"; codes "o"] (Some v) /\ views top [] [codes "A.img"; codes "i"] (Some v)) /\
  (exists v, nth_error (map snd first_props) 2 = Some v /\ views top [] [codes "A.img"; codes "x"] (Some v) /\ views top [] [codes "B.img"; codes "b"] (Some v)) /\
  views top [] [codes "A.img"; codes "y"] None.
Ltac not_beyond := repeat constructor; intros ([|? rest] & Nr & E); [contradiction|]; discriminate E.
Lemma sees_c seen : Forall (fun Y => length Y = 2%nat) seen -> views (PlDir both_content) seen [codes "B.img"; codes "c"] (nth_error (map snd second_props) 0).
Proof. intros _. eapply (views_own _ _ [codes "B.img"]); [canvas_tac 1%nat 0%nat|left; no_remark|left; no_remark]. Qed.
Lemma level_beyond (seen : list (list (list Z))) p : length p = 2%nat -> Forall (fun Y => length Y = 2%nat) seen -> Forall (fun Y => ~ beyond Y p) seen.
Proof.
  intros Lp H. eapply Forall_impl; [|exact H]. intros Y L (rest & Nr & E). cbn beta in L. rewrite E, app_length in Lp. destruct rest; [contradiction|]. cbn [length] in Lp. lia.
Qed.
Lemma sees_o seen : Forall (fun Y => length Y = 2%nat) seen -> views (PlDir both_content) seen [codes "A.img"; codes "o"] (nth_error (map snd second_props) 0).
Proof.
  intro Hs. eapply (views_out _ _ [codes "A.img"] _ _ _ [codes "B.img"; codes "c"]); [canvas_tac 0%nat 0%nat|left; no_remark|a_path|a_remark|lead2 1%nat 0%nat|apply level_beyond; [reflexivity|constructor; [reflexivity|exact Hs]]|].
  apply sees_c. constructor; [reflexivity|exact Hs].
Qed.
Lemma sees_x seen : Forall (fun Y => length Y = 2%nat) seen -> views (PlDir both_content) seen [codes "A.img"; codes "x"] (nth_error (map snd first_props) 2).
Proof.
  intro Hs. eapply (views_own _ _ [codes "A.img"]); [canvas_tac 0%nat 2%nat|left; no_remark|right]. exists [codes "C.img"; codes "y"].
  split; [a_path|]. split; [a_remark|]. split; [apply fails_here; constructor; vm_compute; intuition discriminate|apply level_beyond; [reflexivity|constructor; [reflexivity|exact Hs]]].
Qed.
Lemma both_far : far_right (PlDir both_content).
Proof.
  split; [|split].
  - eexists. split; [reflexivity|]. split; [apply (sees_o []); constructor|].
    eapply (views_in _ _ [codes "A.img"] _ _ _ [codes "o"]); [canvas_tac 0%nat 1%nat|a_path|a_remark|in_place 0%nat|]. apply (sees_o [_]). repeat constructor.
  - eexists. split; [reflexivity|]. split; [apply (sees_x []); constructor|].
    eapply (views_out _ _ [codes "B.img"] _ _ _ [codes "A.img"; codes "x"]); [canvas_tac 1%nat 1%nat|left; no_remark|a_path|a_remark|lead2 0%nat 2%nat|apply level_beyond; repeat constructor|].
    apply (sees_x [_]). repeat constructor.
  - eapply (views_out _ _ [codes "A.img"] _ _ _ [codes "B.img"]); [canvas_tac 0%nat 3%nat|left; no_remark|a_path|a_remark| | |].
    + eapply leads_on; [in_pack 1%nat|cbn [place_of]; constructor].
    + not_beyond.
    + eapply views_other; [discriminate|eapply leads_on; [in_pack 1%nat|cbn [place_of]; constructor]|]. intros v E. discriminate E.
Qed.
Lemma both_files :
  bytes both /\ read_header both = Ok (both_head, 16) /\ decimal 83 [8; 3] /\ folded (digit_hash 0 [8; 3]) = 172 /\
  laid_dir both (key_of Global) 16 (digit_hash 0 [8; 3]) 18 both_kids /\
  first_name true both 18 (enc_str (key_of Global) (codes "A.img")) /\ filled_with both (key_of Global) both_kids both_content.
Proof.
  split; [apply bytes_check; vm_compute; reflexivity|]. split; [vm_compute; reflexivity|]. split; [repeat split; try discriminate; repeat constructor; lia|]. split; [vm_compute; reflexivity|].
  change (digit_hash 0 [8; 3]) with 1876. split; [|split].
  - apply (dir_at _ _ _ _ 18 19 49 2); [lia|split; [lia|at_tac]|].
    apply (ents_image _ _ _ _ 19 26 36 49 1 (codes "A.img") 49 236 0x73);
      [apply head_inline; [apply lit_unicode; reflexivity|at_tac|at_tac]| |auto|at_tac|].
    { exists 31, 32, 0, (stored_num OPkg1 16 0 1876 32 49). split; [vm_compute; discriminate|]. split; [split; [vm_compute; split; congruence|at_tac]|].
      split; [split; [lia|at_tac]|]. split; [vm_compute; split; congruence|]. split; [at_tac|].
      split; [apply classic_holds; [vm_compute; split; congruence..|vm_compute; reflexivity]|vm_compute; discriminate]. }
    apply (ents_image _ _ _ _ 36 43 49 49 0 (codes "B.img") 285 110 0x73);
      [apply head_inline; [apply lit_unicode; reflexivity|at_tac|at_tac]| |auto|at_tac|constructor].
    exists 44, 45, 0, (stored_num OPkg1 16 0 1876 45 285). split; [vm_compute; discriminate|]. split; [split; [vm_compute; split; congruence|at_tac]|].
    split; [split; [lia|at_tac]|]. split; [vm_compute; split; congruence|]. split; [at_tac|].
    split; [apply classic_holds; [vm_compute; split; congruence..|vm_compute; reflexivity]|vm_compute; discriminate].
  - exists 19, 26, 2, 4. split; [split; [lia|at_tac]|]. split; [lia|]. split; [at_tac|]. split; [lia|at_tac].
  - apply filled_image; [apply (not_text_img (codes "A"))|exact first_laid|repeat constructor|].
    apply filled_image; [apply (not_text_img (codes "B"))|exact second_laid|repeat constructor|constructor].
Qed.
(** What is seen at a path, and the number of nodes before and after. *)
Definition far (w : world) (path : list Z) : res (list px) * Z * Z :=
  let st := iv_key (aes256 user_key) in
  match w_at_path_parsed st chacha_block 40 w 0 path with
  | (Ok i, w1) => let '(x, w2) := w_get_image st chacha_block 40 as_is no_bc7 false 20 [] w1 i in (x, w_next w1, w_next w2)
  | _ => (Panic, 0, 0)
  end.
Ltac held_tac := eexists; split; [reflexivity|]; do 7 eexists; (split; [reflexivity|]); (split; [reflexivity|]); (split; [lia|]); (split; [lia|]); (split; [lia|]); (split; [lia|]);
  (split; [byte_list|]); (split; [apply (size_four 2); left; reflexivity|]); (split; [as_they_are|unfold in_blocks; split; intros; lia]).
Example C258_example :
  far_right (PlDir both_content) /\
  (exists v, nth_error (map snd second_props) 0 = Some v /\ holds_picture as_is false both (key_of Global) v [120; 156; 3; 4; 5; 6; 7; 8] 2 1 2) /\
  (exists v, nth_error (map snd first_props) 2 = Some v /\ holds_picture as_is false both (key_of Global) v [120; 156; 7; 7] 1 1 2) /\
  let w := snd (w_parse (iv_key (aes256 user_key)) chacha_block 40 (w_open (codes "Base") both None None 83 []) 0 0) in
  let m := snd (w_parse (iv_key (aes256 user_key)) chacha_block 40 (w_open (codes "Mob") both None None 83 []) 0 0) in
  far w (codes "A.img/o") = (Ok [[3; 156; 120; 4]; [7; 6; 5; 8]], 11, 14) /\ far w (codes "A.img/i") = (Ok [[3; 156; 120; 4]; [7; 6; 5; 8]], 11, 14) /\
  far w (codes "A.img/x") = (Ok [[7; 156; 120; 7]], 11, 11) /\ far w (codes "A.img/y") = (Err (EOther 70), 11, 11) /\
  far w (codes "B.img/b") = (Ok [[7; 156; 120; 7]], 6, 14) /\ far m (codes "A.img/o") = (Ok [[9; 156; 120; 9]], 11, 11).
Proof. split; [exact both_far|]. split; [held_tac|]. split; [held_tac|]. vm_compute. repeat split. Qed.
Ltac one_canvas L k := eexists [_]; split; [discriminate|]; split; [reflexivity|]; split; [exact L|]; split; [in_place k|repeat eexists].
Lemma broad_far : exists v, nth_error (map snd broad_props) 0 = Some v /\ views (PlDir [(codes "Mob.img", CImage broad_props)]) [] [codes "Mob.img"; codes "l"] (Some v).
Proof.
  assert (I : inside (PlDir [(codes "Mob.img", CImage broad_props)]) (codes "Mob.img") (PlImage broad_props)) by (apply (inside_dir _ _ (CImage broad_props)); named_at 0%nat).
  assert (L : leads (PlDir [(codes "Mob.img", CImage broad_props)]) [codes "Mob.img"] (PlImage broad_props)) by (eapply leads_on; [exact I|constructor]).
  eexists. split; [reflexivity|]. eapply (views_in _ _ [codes "Mob.img"] broad_props _ _ [codes "c"]); [one_canvas L 1%nat|a_path|a_remark|in_place 0%nat|].
  eapply (views_own _ _ [codes "Mob.img"] broad_props); [one_canvas L 0%nat|left; no_remark|left; no_remark].
Qed.
Example C259_example :
  (exists v, nth_error (map snd broad_props) 0 = Some v /\ views (PlDir [(codes "Mob.img", CImage broad_props)]) [] [codes "Mob.img"; codes "l"] (Some v) /\
     holds_picture as_is false broad (fun _ => 0) v [120; 156; 3; 4; 5; 6; 7; 8] 2 1 2) /\
  let w := snd (w_parse (iv_key (aes256 user_key)) chacha_block 40 (w_open (codes "Base") broad None None (-1) []) 0 0) in
  far w (codes "Mob.img/l") = (Ok [[3; 156; 120; 4]; [7; 6; 5; 8]], 13, 13).
Proof.
  split; [|vm_compute; reflexivity]. destruct broad_far as (v & E & V). exists v. split; [exact E|]. split; [exact V|].
  assert (H : exists v, nth_error (map snd broad_props) 0 = Some v /\ holds_picture as_is false broad (fun _ => 0) v [120; 156; 3; 4; 5; 6; 7; 8] 2 1 2) by held_tac.
  destruct H as (v' & E' & H). rewrite E in E'. injection E' as ->. exact H.
Qed.
