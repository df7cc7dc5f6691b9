(** C254-C256: pictures and other data in packages and image files, from the bytes of the file to the pixels at the end of a path. *)
From Coq Require Import ZArith List Bool Lia ZifyBool ZifyNat.
From Coq Require String Ascii.
From Verif.Model Require Import Base Utf Keys Reader WzStr Header Offset VersionPkg1 VersionPkg2 Directory Image Media Guess File Png Node Ms World WorldPicture.
From Verif.Spec Require Import Wire Stream StrWire HeaderSpec Version Media PropWire PropView DirWire DirView DirWire2 Aes KeyFind PropEnc PathSpec Tree ChaCha Whole Pixel Picture Portrait.
From Verif.Proofs Require Import OpenL BaseL WireL KeysL AtL DirL HeaderL MediaL EncL ImageL StrictL GuessL FileL NodeL WorldL WalkWL CanvasL PortraitL.
From Verif.Props Require Import P_Media P_Header P_Strict P_Version P_Directory P_Node P_Guess P_File P_Canvas P_Whole P_Archive P_ImgFile.
Import ListNotations. Import String.StringSyntax.
Open Scope Z_scope.

(** The canvas [v] of a file read with [key] keeps a picture of that size and format in the bytes [raw]. *)
Definition holds_picture (inflate : bool -> list Z -> Z -> option (list Z)) (rayon : bool) (buf : list Z) (key : nat -> Z)
    (v : prop) (raw : list Z) (wd h fm : Z) : Prop :=
  exists f1 f2 pg hd off size kids, v = PCanvas wd h f1 f2 pg hd off size kids /\ fm = f1 + f2 /\ 0 <= fm < 2 ^ 32 /\ 0 < wd /\ 0 <= h /\
    16 * ((wd + 3) * (h + 3)) < 2 ^ 32 /\ bytes raw /\ data_size fm wd h (zlen raw) /\ kept inflate buf key off size hd (zlen raw) raw /\
    (in_blocks fm \/ fm = 3 -> wd mod 4 = 0 /\ (rayon = false -> h mod 4 = 0)) /\ (fm = 3 -> h mod 4 = 0).

(** Whatever has been asked before: at the end of a path that leads into an image, asking for the picture gives that of the canvas
    which the place stands for, and [NotPngProperty] where it stands for none; nothing changes by that. *)
Definition gives_pictures (st : list Z -> nat -> Z) (bl : list Z -> list Z -> Z -> list Z) (f : nat) (inflate : bool -> list Z -> Z -> option (list Z))
    (bc7 : list Z -> Z -> Z -> option (list Z)) (rayon : bool) (buf : list Z) (key : nat -> Z) (w : world) (top : place) : Prop :=
  forall past P props Q r, Q <> [] -> Forall (fun c => ~ In 47 c) (P ++ Q) -> leads top P (PlImage props) -> portrays props Q r ->
  exists i w', w_at_path_parsed st bl f (lookups st bl f w past) 0 (joined (P ++ Q)) = (Ok i, w') /\
    match r with
    | None => exists d0, forall d, (d0 <= d)%nat -> w_get_image st bl f inflate bc7 rayon d [] w' i = (Err (EOther 70), w')
    | Some v => forall raw wd h fm, holds_picture inflate rayon buf key v raw wd h fm ->
        exists d0 l, (forall d, (d0 <= d)%nat -> w_get_image st bl f inflate bc7 rayon d [] w' i = (Ok l, w')) /\ Pixel.picture wd h l (pixel_of fm raw wd)
    end.

Lemma kept_key inflate buf key key' off size hd n raw : (forall j, key' j = key j) -> kept inflate buf key off size hd n raw -> kept inflate buf key' off size hd n raw.
Proof.
  intros E (file & A & [K|(N & bs & B & K)]); exists file; (split; [exact A|]); [left; exact K|right]. split; [exact N|]. exists bs. split; [|exact K].
  clear K N A. induction B as [|b bs s rest L [X1 X2] _ IH]; constructor; try assumption. split; [exact X1|]. intros j d Hd. rewrite E. apply X2, Hd.
Qed.

Section gives.
  Variable st : list Z -> nat -> Z.
  Variable bl : list Z -> list Z -> Z -> list Z.
  Variable ok : rd -> Prop.
  Variable f : nat.
  Hypothesis F : (0 < f)%nat.
  Variable s : shared.
  Variable name : text.
  Variable top : place.
  Variable buf : list Z.
  Variable key : nat -> Z.
  Hypothesis Buf : zlen buf < 2 ^ 31.
  Hypothesis Ok_reads : forall r, ok r -> rd_buf r = buf /\ forall j, rd_ks r j = key j.
  Variable inflate : bool -> list Z -> Z -> option (list Z).
  Variable bc7 : list Z -> Z -> Z -> option (list Z).
  Variable rayon : bool.

  Lemma world_pictures w : (forall w0 c, opened_world st bl ok f s name top w0 -> w_heap w0 0 = Some c -> ~ base_file c) ->
    opened_world st bl ok f s name top w -> gives_pictures st bl f inflate bc7 rayon buf key w top.
  Proof using F Buf Ok_reads.
    intros Nb O0 past P props Q r Nq Sl L Po. destruct (lookups_ok st bl ok f s name top F past w O0) as [O _]. set (w0 := lookups st bl f w past) in *. clearbody w0.
    rewrite (opened_fold st bl ok f s name top w0 _ O), split_join by (first [exact Sl|destruct P; [exact Nq|discriminate]]).
    pose proof O as (B & A & k & sl & H & U).
    assert (Cl : clear w0 0) by (eapply clear_top; [exact H|reflexivity|eapply Nb; eassumption]).
    destruct (walk f st bl ok s F P w0 0 _ B A) as [Wk _]. destruct (Wk _ L) as (a & w1 & E1 & X1 & B1 & A1 & _).
    pose proof (walk_clear f F st bl ok s P w0 0 top _ a w1 B A Cl L E1) as C1.
    destruct (parse_place f st bl ok s w1 a _ F B1 A1) as (w2 & E2 & X2 & B2 & A2 & _ & _ & Rd2).
    assert (R2 : read_image f st bl ok s w2 a props) by (split; [exact A2|exact (Rd2 props eq_refl)]).
    assert (C2 : clear w2 a) by (eapply clear_ext; [exact B1|exact X2|exact C1]).
    assert (LQ : exists z, leads (PlImage props) Q z) by (inversion Po; eauto). destruct LQ as [z LQ].
    destruct (image_walk f st bl ok s w2 a props Q R2) as [Iw _]. destruct (Iw z LQ Nq) as (j & u & _ & E3 & T3 & _).
    exists j, w2. split.
    - rewrite fold_app, E1. destruct Q as [|c Q]; [congruence|]. cbn [w_fold] in E3 |- *. rewrite E2.
      destruct Rd2 with (props := props) as (n & p & sl2 & H2); [reflexivity|].
      unfold w_parse in E3 at 1. rewrite H2 in E3. exact E3.
    - destruct (portrayed f F st bl ok s inflate bc7 rayon w2 a props R2 C2 Q r Po Nq j T3 []) as (d0 & x & Sh & G).
      destruct r as [v|]; cbn [shown_as] in Sh; [|subst x; eauto].
      intros raw wd h fm (f1 & f2 & pg & hd & off & size & kids & -> & -> & Hf & Hw & Hh & Hs & Hb & D & K & M & M3).
      destruct Sh as (rr & Or & ->). destruct (Ok_reads rr Or) as [Eb Ek].
      destruct (extract_picture inflate bc7 rayon rr (Png.mkPng off size f1 f2 hd wd h) raw (zlen raw)) as (l & El & Pl); cbn [pg_fmt1 pg_fmt2 pg_w pg_h pg_off pg_size pg_header];
        try assumption; try reflexivity.
      + rewrite Eb. lia.
      + rewrite Eb. eapply kept_key; [exact Ek|exact K].
      + exists d0, l. split; [intros d Hd; rewrite (G d Hd), El; reflexivity|exact Pl].
  Qed.
End gives.

Lemma named_other st bl ok f s name top : name <> [66; 97; 115; 101] -> forall w0 c, opened_world st bl ok f s name top w0 -> w_heap w0 0 = Some c -> ~ base_file c.
Proof. intros N w0 c (_ & _ & k & sl & H & _) E [Nm _]. rewrite H in E. injection E as <-. exact (N Nm). Qed.
Lemma image_other st bl ok f s name props : forall w0 c, opened_world st bl ok f s name (PlImage props) w0 -> w_heap w0 0 = Some c -> ~ base_file c.
Proof.
  intros w0 c (_ & (p & n & R) & _) E (_ & b & K). inversion R as [? kids ? ? ? r off size k l H T|]; subst. rewrite H in E. injection E as <-. cbn [nd_kind] in K. subst k. inversion T.
Qed.

(** C254: so does a classic package that is not called "Base", opened with its version. *)
Theorem C254_package_pictures : forall inflate bc7 rayon bl name buf h p r t iv existing e v ds kids cs cache,
  bytes buf -> zlen buf < 2 ^ 31 -> read_header buf = Ok (h, p) -> hd_ident h = IV1 -> hd_encver h = Some e ->
  0 <= v < 1000000 -> decimal v ds -> folded (digit_hash 0 ds) = e ->
  laid_dir buf (iv_key (aes256 user_key) (region_iv r)) (hd_fstart h) (digit_hash 0 ds) (hd_data_start h) kids ->
  first_name true buf (hd_data_start h) (enc_str (iv_key (aes256 user_key) (region_iv r)) t) ->
  plain_ascii t -> (r = Sea -> (2 <= length t)%nat) ->
  offered (aes256 user_key) (iv_key (aes256 user_key) (region_iv r)) (length t) (region_iv r) iv existing ->
  filled_with buf (iv_key (aes256 user_key) (region_iv r)) kids cs -> name <> codes "Base" ->
  exists f0, forall f, (f0 <= f)%nat -> exists w,
    w_parse (iv_key (aes256 user_key)) bl f (w_open name buf iv existing v cache) 0 0 = (Ok tt, w) /\
    gives_pictures (iv_key (aes256 user_key)) bl f inflate bc7 rayon buf (iv_key (aes256 user_key) (region_iv r)) w (PlDir cs).
Proof.
  intros inflate bc7 rayon bl name buf h p r t iv existing e v ds kids cs cache Hb Hs Hd Id He Hv D Fo L Fn T Hr Of Fw Nb.
  destruct (classic_opens bl name buf h p r t iv existing e v ds kids cs cache) as (f0 & W); [assumption..|].
  exists f0. intros f Hf. destruct (W f Hf) as (w & s & E & F & O). exists w. split; [exact E|].
  eapply world_pictures; [exact F|exact Hs| |apply named_other; exact Nb|exact O]. intros rr <-. split; reflexivity.
Qed.
Print Assumptions C254_package_pictures.

(** C255: so does a package with 64-bit hashes. *)
Theorem C255_wide_pictures : forall inflate bc7 rayon bl name buf h p iv existing patch0 kids cs cache,
  bytes buf -> zlen buf < 2 ^ 31 -> read_header buf = Ok (h, p) -> is_pkg2_64 h = true -> wide_hash h <> 0 ->
  unlike_entry buf (hd_data_start h) ->
  laid_dir2 buf (fun _ => 0) (number_key (wide_number h)) true true (hd_fstart h) (hd_hash1 h) (wide_hash h) OPkg264 true (hd_data_start h) kids ->
  filled_with buf (fun _ => 0) kids cs -> name <> codes "Base" ->
  exists f0, forall f, (f0 <= f)%nat -> exists w,
    w_parse (iv_key (aes256 user_key)) bl f (w_open name buf iv existing patch0 cache) 0 0 = (Ok tt, w) /\
    gives_pictures (iv_key (aes256 user_key)) bl f inflate bc7 rayon buf (fun _ => 0) w (PlDir cs).
Proof.
  intros inflate bc7 rayon bl name buf h p iv existing patch0 kids cs cache Hb Hs Hd W Nz Un L Fw Nb.
  destruct (wide_opens bl name buf h p iv existing patch0 kids cs cache) as (f0 & key & Wd); [assumption..|].
  exists f0. intros f Hf. destruct (Wd f Hf) as (w & s & E & F & O). exists w. split; [exact E|].
  eapply world_pictures; [exact F|exact Hs| |apply named_other; exact Nb|exact O]. intros rr <-. split; reflexivity.
Qed.
Print Assumptions C255_wide_pictures.

(** C256: and so does an image file, whatever it is called. *)
Theorem C256_image_file_pictures : forall inflate bc7 rayon bl name buf r iv props,
  bytes buf -> zlen buf < 2 ^ 31 -> laid_image buf (iv_key (aes256 user_key) (region_iv r)) 0 props ->
  not_text name -> Forall (fun e => linkless (snd e)) props -> iv = None \/ iv = Some (region_iv r) ->
  exists w0 f0, w_open_img (iv_key (aes256 user_key)) name buf iv = Ok w0 /\ forall f, (f0 <= f)%nat -> exists w,
    w_parse (iv_key (aes256 user_key)) bl f w0 0 0 = (Ok tt, w) /\
    gives_pictures (iv_key (aes256 user_key)) bl f inflate bc7 rayon buf (iv_key (aes256 user_key) (region_iv r)) w (PlImage props).
Proof.
  intros inflate bc7 rayon bl name buf r iv props Hb Hs L Nt Li Iv. destruct (image_opens bl name buf r iv props Hb Hs L Nt Li Iv) as (w0 & f0 & O & P).
  exists w0, f0. split; [exact O|]. intros f Hf. destruct (P f Hf) as [F W]. destruct (lies_read _ _ _ f F _ _ _ _ W) as (w & E & Ow). exists w. split; [exact E|].
  eapply world_pictures; [exact F|exact Hs| |apply image_other|exact Ow]. intros rr Or. exact Or.
Qed.
Print Assumptions C256_image_file_pictures.

(** Whatever has been asked before, the sounds, raw data and videos found give the stored bytes (a sound with a header of 70 bytes, that is
    not told to be plain data, as a WAV file). *)
Definition gives_data (st : list Z -> nat -> Z) (bl : list Z -> list Z -> Z -> list Z) (f : nat) (buf : list Z) (w : world) (top : place) : Prop :=
  forall past comps v, comps <> [] -> Forall (fun c => ~ In 47 c) comps -> leads top comps (PlProp v) ->
  exists i w' rr o, w_at_path_parsed st bl f (lookups st bl f w past) 0 (joined comps) = (Ok i, w') /\ w_thing w' i = ThProp rr o /\
    match v with
    | PSound off size dur hoff => exists s, o = OSound s /\ forall header data, 0 <= hoff -> at_ buf hoff off header -> at_ buf off (off + size) data ->
        (zlen header = 70 /\ ~ (dur = 1000 /\ length_field buf hoff size) -> snd_buffer rr s = Ok (wav_file (firstn 16 (skipn 52 header)) data)) /\
        (zlen header <> 70 \/ (dur = 1000 /\ length_field buf hoff size) -> snd_buffer rr s = Ok data)
    | PRaw off size _ => exists a n, o = ORaw a n /\ forall data, at_ buf off (off + size) data -> raw_buffer rr a n = Ok data
    | PVideo off size => exists a n, o = OVideo a n /\ forall data, at_ buf off (off + size) data -> raw_buffer rr a n = Ok data
    | _ => True
    end.
Lemma served_data st bl f w (ok : rd -> Prop) name top buf : zlen buf < 2 ^ 31 -> (forall r, ok r -> rd_buf r = buf) ->
  serves st bl f w ok name top -> gives_data st bl f buf w top.
Proof.
  intros Hs Ob Sv past comps v Ne Sl L. destruct (Sv past comps Ne Sl) as [A _]. destruct (A _ L) as (i & w' & E & (rr & o & sub & Or & T & Sh) & _).
  exists i, w', rr, o. split; [exact E|]. split; [exact T|]. pose proof (Ob rr Or) as Eb. destruct v; try exact I.
  - inversion Sh as [| | | | | | | | | | | | |? ? ? ? ty K| |]; subst. eexists. split; [reflexivity|]. intros header data H0 Hh Hd.
    destruct (C36_shown rr _ _ _ _ _ header data Sh H0 Hh Hd Hs) as (B & _ & W). split.
    + intro C. apply W in C. rewrite C in B. exact B.
    + intro C. destruct (snd_type _); [exact B| |exact B]. destruct W as [W _]. specialize (W eq_refl). tauto.
  - inversion Sh; subst. eexists _, _. split; [reflexivity|]. intros data Hd. apply C112_stored; [exact Hd|lia].
  - inversion Sh; subst. eexists _, _. split; [reflexivity|]. intros data Hd. apply C112_stored; [exact Hd|lia].
Qed.

(** C257: classic packages and image files hand out the data stored in them. *)
Theorem C257_package_data : forall bl name buf h p r t iv existing e v ds kids cs cache,
  bytes buf -> zlen buf < 2 ^ 31 -> read_header buf = Ok (h, p) -> hd_ident h = IV1 -> hd_encver h = Some e ->
  0 <= v < 1000000 -> decimal v ds -> folded (digit_hash 0 ds) = e ->
  laid_dir buf (iv_key (aes256 user_key) (region_iv r)) (hd_fstart h) (digit_hash 0 ds) (hd_data_start h) kids ->
  first_name true buf (hd_data_start h) (enc_str (iv_key (aes256 user_key) (region_iv r)) t) ->
  plain_ascii t -> (r = Sea -> (2 <= length t)%nat) ->
  offered (aes256 user_key) (iv_key (aes256 user_key) (region_iv r)) (length t) (region_iv r) iv existing ->
  filled_with buf (iv_key (aes256 user_key) (region_iv r)) kids cs ->
  exists f0, forall f, (f0 <= f)%nat -> exists w,
    w_parse (iv_key (aes256 user_key)) bl f (w_open name buf iv existing v cache) 0 0 = (Ok tt, w) /\
    gives_data (iv_key (aes256 user_key)) bl f buf w (PlDir cs).
Proof.
  intros bl name buf h p r t iv existing e v ds kids cs cache Hb Hs Hd Id He Hv D Fo L Fn T Hr Of Fw.
  destruct (C223_classic_content bl name buf h p r t iv existing e v ds kids cs cache) as (f0 & W); [assumption..|].
  exists f0. intros f Hf. destruct (W f Hf) as (w & E & S). exists w. split; [exact E|].
  eapply served_data; [exact Hs| |exact S]. intros rr <-. reflexivity.
Qed.
Print Assumptions C257_package_data.
Theorem C257_image_file_data : forall bl name buf r iv props,
  bytes buf -> zlen buf < 2 ^ 31 -> laid_image buf (iv_key (aes256 user_key) (region_iv r)) 0 props ->
  not_text name -> Forall (fun e => linkless (snd e)) props -> iv = None \/ iv = Some (region_iv r) ->
  exists w0 f0, w_open_img (iv_key (aes256 user_key)) name buf iv = Ok w0 /\ forall f, (f0 <= f)%nat -> exists w,
    w_parse (iv_key (aes256 user_key)) bl f w0 0 0 = (Ok tt, w) /\ gives_data (iv_key (aes256 user_key)) bl f buf w (PlImage props).
Proof.
  intros bl name buf r iv props Hb Hs L Nt Li Iv. destruct (C242_image_file bl name buf r iv props Hb Hs L Nt Li Iv) as (w0 & f0 & O & P).
  exists w0, f0. split; [exact O|]. intros f Hf. destruct (P f Hf) as (w & E & S & _). exists w. split; [exact E|].
  eapply served_data; [exact Hs| |exact S]. intros rr [Eb _]. exact Eb.
Qed.
Print Assumptions C257_image_file_data.

(** Pictures "c", "l" (linked to "c"), "d" (whose link leads nowhere; kept in sealed blocks), "k" (linked to the number "n");
    raw data, a video and a sound. *)
Definition pic_block (ks : nat -> Z) : list Z :=
  (115 :: enc_str ks (codes "Property") ++ [0; 0]) ++
  [8] ++
  (115 :: enc_str ks (codes "c")) ++
  (9 :: enc_le 4 31) ++
  (115 :: enc_str ks (codes "Canvas")) ++
  [0; 0] ++
  [2; 1; 2; 0; 0; 0] ++
  [0; 0] ++
  (enc_le 4 9) ++
  [0] ++
  [120; 156; 3; 4; 5; 6; 7; 8] ++
  (115 :: enc_str ks (codes "l")) ++
  (9 :: enc_le 4 43) ++
  (115 :: enc_str ks (codes "Canvas")) ++
  [0; 1; 0; 0] ++
  [1] ++
  (115 :: enc_str ks (codes "_inlink")) ++
  [8] ++
  (115 :: enc_str ks (codes "c")) ++
  [1; 1; 2; 0; 0; 0] ++
  [0; 0] ++
  (enc_le 4 5) ++
  [0] ++
  [120; 156; 9; 9] ++
  (115 :: enc_str ks (codes "d")) ++
  (9 :: enc_le 4 52) ++
  (115 :: enc_str ks (codes "Canvas")) ++
  [0; 1; 0; 0] ++
  [1] ++
  (115 :: enc_str ks (codes "_inlink")) ++
  [8] ++
  (115 :: enc_str ks (codes "gone")) ++
  [1; 1; 2; 0; 0; 0] ++
  [0; 0] ++
  (enc_le 4 11) ++
  [0] ++
  (enc_le 4 6 ++ map (fun i => Z.lxor (nth i [1; 2; 30; 40; 50; 60] 0) (ks i)) (seq 0 6)) ++
  (115 :: enc_str ks (codes "n")) ++
  [3; 5] ++
  (115 :: enc_str ks (codes "k")) ++
  (9 :: enc_le 4 43) ++
  (115 :: enc_str ks (codes "Canvas")) ++
  [0; 1; 0; 0] ++
  [1] ++
  (115 :: enc_str ks (codes "_inlink")) ++
  [8] ++
  (115 :: enc_str ks (codes "n")) ++
  [1; 1; 2; 0; 0; 0] ++
  [0; 0] ++
  (enc_le 4 5) ++
  [0] ++
  [120; 156; 1; 1] ++
  (115 :: enc_str ks (codes "r")) ++
  (9 :: enc_le 4 14) ++
  (115 :: enc_str ks (codes "RawData")) ++
  [0; 3] ++
  [201; 202; 203] ++
  (115 :: enc_str ks (codes "v")) ++
  (9 :: enc_le 4 20) ++
  (115 :: enc_str ks (codes "Canvas#Video")) ++
  [0; 0; 0; 2] ++
  [7; 8] ++
  (115 :: enc_str ks (codes "m")) ++
  (9 :: enc_le 4 87) ++
  (115 :: enc_str ks (codes "Sound_DX8")) ++
  [0; 3; 5] ++
  (map Z.of_nat (seq 0 70)) ++
  [1; 2; 3].
Definition pic_props : list (list Z * prop) :=
  [(codes "c", PCanvas 2 1 2 0 0 40056 44 8 []);
   (codes "l", PCanvas 1 1 2 0 0 40056 99 4 [(codes "_inlink", PStr (codes "c"))]);
   (codes "d", PCanvas 1 1 2 0 0 6 153 10 [(codes "_inlink", PStr (codes "gone"))]);
   (codes "n", PInt 5);
   (codes "k", PCanvas 1 1 2 0 0 40056 215 4 [(codes "_inlink", PStr (codes "n"))]);
   (codes "r", PRaw 238 3 []);
   (codes "v", PVideo 267 2);
   (codes "m", PSound 361 3 5 291)].
Definition pic_file : list Z := Eval vm_compute in pic_block (key_of Global).
Lemma pic_laid : laid_image pic_file (key_of Global) 0 pic_props.
Proof.
exists 10, 364. split; [at_tac|]. split; [at_tac|].
apply (list_at _ _ _ 12 13 364); [split; [vm_compute; split; congruence|at_tac]|].
apply (entries_cons _ _ _ 13 16 52 364).
{ apply (block_inline _ _ _ 13 16 _ 115); [right; reflexivity|apply lit_unicode; reflexivity|at_tac|at_tac]. }
{ apply (value_ext _ _ _ 16 52 46 31); [lia|at_tac|reflexivity|].
apply (ext_canvas_plain _ _ _ 21 29 46 52 0); [|lia|lia|at_tac|].
{ apply (block_inline _ _ _ 21 29 _ 115); [right; reflexivity|apply lit_unicode; reflexivity|at_tac|at_tac]. }
{ apply (canvas_at _ 31 32 33 34 36 37 2 1 2 0 0 0 40056 8); try lia; first [split; [lia|at_tac]|at_tac]. }
}
apply (entries_cons _ _ _ 52 55 103 364).
{ apply (block_inline _ _ _ 52 55 _ 115); [right; reflexivity|apply lit_unicode; reflexivity|at_tac|at_tac]. }
{ apply (value_ext _ _ _ 55 103 101 43); [lia|at_tac|reflexivity|].
apply (ext_canvas_kids _ _ _ 60 68 86 101 103); [|at_tac| |].
{ apply (block_inline _ _ _ 60 68 _ 115); [right; reflexivity|apply lit_unicode; reflexivity|at_tac|at_tac]. }
{ apply (list_at _ _ _ 72 73 86); [split; [vm_compute; split; congruence|at_tac]|]. apply (entries_cons _ _ _ 73 82 86 86); [|apply value_str; [at_tac|]|constructor].
{ apply (block_inline _ _ _ 73 82 _ 115); [right; reflexivity|apply lit_unicode; reflexivity|at_tac|at_tac]. }
{ apply (block_inline _ _ _ 83 86 _ 115); [right; reflexivity|apply lit_unicode; reflexivity|at_tac|at_tac]. }
}
{ apply (canvas_at _ 86 87 88 89 91 92 1 1 2 0 0 0 40056 4); try lia; first [split; [lia|at_tac]|at_tac]. }
}
apply (entries_cons _ _ _ 103 106 163 364).
{ apply (block_inline _ _ _ 103 106 _ 115); [right; reflexivity|apply lit_unicode; reflexivity|at_tac|at_tac]. }
{ apply (value_ext _ _ _ 106 163 155 52); [lia|at_tac|reflexivity|].
apply (ext_canvas_kids _ _ _ 111 119 140 155 163); [|at_tac| |].
{ apply (block_inline _ _ _ 111 119 _ 115); [right; reflexivity|apply lit_unicode; reflexivity|at_tac|at_tac]. }
{ apply (list_at _ _ _ 123 124 140); [split; [vm_compute; split; congruence|at_tac]|]. apply (entries_cons _ _ _ 124 133 140 140); [|apply value_str; [at_tac|]|constructor].
{ apply (block_inline _ _ _ 124 133 _ 115); [right; reflexivity|apply lit_unicode; reflexivity|at_tac|at_tac]. }
{ apply (block_inline _ _ _ 134 140 _ 115); [right; reflexivity|apply lit_unicode; reflexivity|at_tac|at_tac]. }
}
{ apply (canvas_at _ 140 141 142 143 145 146 1 1 2 0 0 0 6 10); try lia; first [split; [lia|at_tac]|at_tac]. }
}
apply (entries_cons _ _ _ 163 166 168 364).
{ apply (block_inline _ _ _ 163 166 _ 115); [right; reflexivity|apply lit_unicode; reflexivity|at_tac|at_tac]. }
{ apply (value_int _ _ _ _ _ 3); [left; reflexivity|at_tac|split; [lia|at_tac]]. }
apply (entries_cons _ _ _ 168 171 219 364).
{ apply (block_inline _ _ _ 168 171 _ 115); [right; reflexivity|apply lit_unicode; reflexivity|at_tac|at_tac]. }
{ apply (value_ext _ _ _ 171 219 217 43); [lia|at_tac|reflexivity|].
apply (ext_canvas_kids _ _ _ 176 184 202 217 219); [|at_tac| |].
{ apply (block_inline _ _ _ 176 184 _ 115); [right; reflexivity|apply lit_unicode; reflexivity|at_tac|at_tac]. }
{ apply (list_at _ _ _ 188 189 202); [split; [vm_compute; split; congruence|at_tac]|]. apply (entries_cons _ _ _ 189 198 202 202); [|apply value_str; [at_tac|]|constructor].
{ apply (block_inline _ _ _ 189 198 _ 115); [right; reflexivity|apply lit_unicode; reflexivity|at_tac|at_tac]. }
{ apply (block_inline _ _ _ 199 202 _ 115); [right; reflexivity|apply lit_unicode; reflexivity|at_tac|at_tac]. }
}
{ apply (canvas_at _ 202 203 204 205 207 208 1 1 2 0 0 0 40056 4); try lia; first [split; [lia|at_tac]|at_tac]. }
}
apply (entries_cons _ _ _ 219 222 241 364).
{ apply (block_inline _ _ _ 219 222 _ 115); [right; reflexivity|apply lit_unicode; reflexivity|at_tac|at_tac]. }
{ apply (value_ext _ _ _ 222 241 238 14); [lia|at_tac|reflexivity|].
apply (ext_raw_plain _ _ _ 227 236 238 241 0 3); [|lia|lia|at_tac|lia|split; [lia|at_tac]].
{ apply (block_inline _ _ _ 227 236 _ 115); [right; reflexivity|apply lit_unicode; reflexivity|at_tac|at_tac]. }
}
apply (entries_cons _ _ _ 241 244 269 364).
{ apply (block_inline _ _ _ 241 244 _ 115); [right; reflexivity|apply lit_unicode; reflexivity|at_tac|at_tac]. }
{ apply (value_ext _ _ _ 244 269 267 20); [lia|at_tac|reflexivity|].
apply (ext_video _ _ _ 249 263 267 269 2); [|lia|split; [lia|at_tac]].
{ apply (block_inline _ _ _ 249 263 _ 115); [right; reflexivity|apply lit_unicode; reflexivity|at_tac|at_tac]. }
}
apply (entries_cons _ _ _ 269 272 364 364).
{ apply (block_inline _ _ _ 269 272 _ 115); [right; reflexivity|apply lit_unicode; reflexivity|at_tac|at_tac]. }
{ apply (value_ext _ _ _ 272 364 291 87); [lia|at_tac|reflexivity|].
apply (ext_sound _ _ _ 277 288 290 291 364 3 5); [|lia|lia|split; [lia|at_tac]|split; [lia|at_tac]|lia|vm_compute; discriminate].
{ apply (block_inline _ _ _ 277 288 _ 115); [right; reflexivity|apply lit_unicode; reflexivity|at_tac|at_tac]. }
}
constructor.
Qed.
(** A package of version 83 that holds this image as "Mob.img". *)
Definition pak : list Z := Eval vm_compute in
  let ks := key_of Global in let img := pic_block ks in let n := zlen img in
  PKG1 ++ enc_le 8 (22 + n) ++ enc_le 4 16 ++ [172; 0] ++
  [1] ++ [4] ++ enc_str ks (codes "Mob.img") ++ enc_wzint 4 n ++ [0] ++ stored OPkg1 16 0 1876 34 38 ++ img.
Definition pak_head := mkHeader IV1 (zlen pak - 16) 16 18 (Some 172) 0 0 FNone.
Definition pak_kids : list (list Z * dtree) := [(codes "Mob.img", TImage 38 (zlen pak - 38))].
Definition pak_props : list (list Z * prop) :=
  [(codes "c", PCanvas 2 1 2 0 0 40056 82 8 []);
   (codes "l", PCanvas 1 1 2 0 0 40056 137 4 [(codes "_inlink", PStr (codes "c"))]);
   (codes "d", PCanvas 1 1 2 0 0 6 191 10 [(codes "_inlink", PStr (codes "gone"))]);
   (codes "n", PInt 5);
   (codes "k", PCanvas 1 1 2 0 0 40056 253 4 [(codes "_inlink", PStr (codes "n"))]);
   (codes "r", PRaw 276 3 []);
   (codes "v", PVideo 305 2);
   (codes "m", PSound 399 3 5 329)].
Lemma pak_laid : laid_image pak (key_of Global) 38 pak_props.
Proof.
exists 48, 402. split; [at_tac|]. split; [at_tac|].
apply (list_at _ _ _ 50 51 402); [split; [vm_compute; split; congruence|at_tac]|].
apply (entries_cons _ _ _ 51 54 90 402).
{ apply (block_inline _ _ _ 51 54 _ 115); [right; reflexivity|apply lit_unicode; reflexivity|at_tac|at_tac]. }
{ apply (value_ext _ _ _ 54 90 84 31); [lia|at_tac|reflexivity|].
apply (ext_canvas_plain _ _ _ 59 67 84 90 0); [|lia|lia|at_tac|].
{ apply (block_inline _ _ _ 59 67 _ 115); [right; reflexivity|apply lit_unicode; reflexivity|at_tac|at_tac]. }
{ apply (canvas_at _ 69 70 71 72 74 75 2 1 2 0 0 0 40056 8); try lia; first [split; [lia|at_tac]|at_tac]. }
}
apply (entries_cons _ _ _ 90 93 141 402).
{ apply (block_inline _ _ _ 90 93 _ 115); [right; reflexivity|apply lit_unicode; reflexivity|at_tac|at_tac]. }
{ apply (value_ext _ _ _ 93 141 139 43); [lia|at_tac|reflexivity|].
apply (ext_canvas_kids _ _ _ 98 106 124 139 141); [|at_tac| |].
{ apply (block_inline _ _ _ 98 106 _ 115); [right; reflexivity|apply lit_unicode; reflexivity|at_tac|at_tac]. }
{ apply (list_at _ _ _ 110 111 124); [split; [vm_compute; split; congruence|at_tac]|]. apply (entries_cons _ _ _ 111 120 124 124); [|apply value_str; [at_tac|]|constructor].
{ apply (block_inline _ _ _ 111 120 _ 115); [right; reflexivity|apply lit_unicode; reflexivity|at_tac|at_tac]. }
{ apply (block_inline _ _ _ 121 124 _ 115); [right; reflexivity|apply lit_unicode; reflexivity|at_tac|at_tac]. }
}
{ apply (canvas_at _ 124 125 126 127 129 130 1 1 2 0 0 0 40056 4); try lia; first [split; [lia|at_tac]|at_tac]. }
}
apply (entries_cons _ _ _ 141 144 201 402).
{ apply (block_inline _ _ _ 141 144 _ 115); [right; reflexivity|apply lit_unicode; reflexivity|at_tac|at_tac]. }
{ apply (value_ext _ _ _ 144 201 193 52); [lia|at_tac|reflexivity|].
apply (ext_canvas_kids _ _ _ 149 157 178 193 201); [|at_tac| |].
{ apply (block_inline _ _ _ 149 157 _ 115); [right; reflexivity|apply lit_unicode; reflexivity|at_tac|at_tac]. }
{ apply (list_at _ _ _ 161 162 178); [split; [vm_compute; split; congruence|at_tac]|]. apply (entries_cons _ _ _ 162 171 178 178); [|apply value_str; [at_tac|]|constructor].
{ apply (block_inline _ _ _ 162 171 _ 115); [right; reflexivity|apply lit_unicode; reflexivity|at_tac|at_tac]. }
{ apply (block_inline _ _ _ 172 178 _ 115); [right; reflexivity|apply lit_unicode; reflexivity|at_tac|at_tac]. }
}
{ apply (canvas_at _ 178 179 180 181 183 184 1 1 2 0 0 0 6 10); try lia; first [split; [lia|at_tac]|at_tac]. }
}
apply (entries_cons _ _ _ 201 204 206 402).
{ apply (block_inline _ _ _ 201 204 _ 115); [right; reflexivity|apply lit_unicode; reflexivity|at_tac|at_tac]. }
{ apply (value_int _ _ _ _ _ 3); [left; reflexivity|at_tac|split; [lia|at_tac]]. }
apply (entries_cons _ _ _ 206 209 257 402).
{ apply (block_inline _ _ _ 206 209 _ 115); [right; reflexivity|apply lit_unicode; reflexivity|at_tac|at_tac]. }
{ apply (value_ext _ _ _ 209 257 255 43); [lia|at_tac|reflexivity|].
apply (ext_canvas_kids _ _ _ 214 222 240 255 257); [|at_tac| |].
{ apply (block_inline _ _ _ 214 222 _ 115); [right; reflexivity|apply lit_unicode; reflexivity|at_tac|at_tac]. }
{ apply (list_at _ _ _ 226 227 240); [split; [vm_compute; split; congruence|at_tac]|]. apply (entries_cons _ _ _ 227 236 240 240); [|apply value_str; [at_tac|]|constructor].
{ apply (block_inline _ _ _ 227 236 _ 115); [right; reflexivity|apply lit_unicode; reflexivity|at_tac|at_tac]. }
{ apply (block_inline _ _ _ 237 240 _ 115); [right; reflexivity|apply lit_unicode; reflexivity|at_tac|at_tac]. }
}
{ apply (canvas_at _ 240 241 242 243 245 246 1 1 2 0 0 0 40056 4); try lia; first [split; [lia|at_tac]|at_tac]. }
}
apply (entries_cons _ _ _ 257 260 279 402).
{ apply (block_inline _ _ _ 257 260 _ 115); [right; reflexivity|apply lit_unicode; reflexivity|at_tac|at_tac]. }
{ apply (value_ext _ _ _ 260 279 276 14); [lia|at_tac|reflexivity|].
apply (ext_raw_plain _ _ _ 265 274 276 279 0 3); [|lia|lia|at_tac|lia|split; [lia|at_tac]].
{ apply (block_inline _ _ _ 265 274 _ 115); [right; reflexivity|apply lit_unicode; reflexivity|at_tac|at_tac]. }
}
apply (entries_cons _ _ _ 279 282 307 402).
{ apply (block_inline _ _ _ 279 282 _ 115); [right; reflexivity|apply lit_unicode; reflexivity|at_tac|at_tac]. }
{ apply (value_ext _ _ _ 282 307 305 20); [lia|at_tac|reflexivity|].
apply (ext_video _ _ _ 287 301 305 307 2); [|lia|split; [lia|at_tac]].
{ apply (block_inline _ _ _ 287 301 _ 115); [right; reflexivity|apply lit_unicode; reflexivity|at_tac|at_tac]. }
}
apply (entries_cons _ _ _ 307 310 402 402).
{ apply (block_inline _ _ _ 307 310 _ 115); [right; reflexivity|apply lit_unicode; reflexivity|at_tac|at_tac]. }
{ apply (value_ext _ _ _ 310 402 329 87); [lia|at_tac|reflexivity|].
apply (ext_sound _ _ _ 315 326 328 329 402 3 5); [|lia|lia|split; [lia|at_tac]|split; [lia|at_tac]|lia|vm_compute; discriminate].
{ apply (block_inline _ _ _ 315 326 _ 115); [right; reflexivity|apply lit_unicode; reflexivity|at_tac|at_tac]. }
}
constructor.
Qed.
(** A package with 64-bit hashes 5 and 9 that holds this image as "Mob.img". *)
Definition broad : list Z := Eval vm_compute in
  let h := mkHeader IV2 0 150 150 None 5 9 FRandom64 in
  let img := pic_block (fun _ => 0) in let n := zlen img in
  wide_header 5 9 (36 + n) ++
  enc_wzint 8 (sext 64 (Z.lxor (Z.lxor (Z.lxor 65536 5) (wide_hash h)) 0x550EC4DD02C468EC)) ++
  [4] ++ enc_le 2 (- 7) ++ body_pkg2 (number_key (wide_number h)) (units16 (codes "Mob.img")) ++
  enc_wzint 4 n ++ [0] ++ stored OPkg264 150 5 (wide_hash h) 182 186 ++ img.
Definition broad_head := mkHeader IV2 (36 + zlen broad - 186) 150 150 None 5 9 FRandom64.
Definition broad_props : list (list Z * prop) :=
  [(codes "c", PCanvas 2 1 2 0 0 40056 230 8 []);
   (codes "l", PCanvas 1 1 2 0 0 40056 285 4 [(codes "_inlink", PStr (codes "c"))]);
   (codes "d", PCanvas 1 1 2 0 0 6 339 10 [(codes "_inlink", PStr (codes "gone"))]);
   (codes "n", PInt 5);
   (codes "k", PCanvas 1 1 2 0 0 40056 401 4 [(codes "_inlink", PStr (codes "n"))]);
   (codes "r", PRaw 424 3 []);
   (codes "v", PVideo 453 2);
   (codes "m", PSound 547 3 5 477)].
Lemma broad_laid : laid_image broad (fun _ => 0) 186 broad_props.
Proof.
exists 196, 550. split; [at_tac|]. split; [at_tac|].
apply (list_at _ _ _ 198 199 550); [split; [vm_compute; split; congruence|at_tac]|].
apply (entries_cons _ _ _ 199 202 238 550).
{ apply (block_inline _ _ _ 199 202 _ 115); [right; reflexivity|apply lit_unicode; reflexivity|at_tac|at_tac]. }
{ apply (value_ext _ _ _ 202 238 232 31); [lia|at_tac|reflexivity|].
apply (ext_canvas_plain _ _ _ 207 215 232 238 0); [|lia|lia|at_tac|].
{ apply (block_inline _ _ _ 207 215 _ 115); [right; reflexivity|apply lit_unicode; reflexivity|at_tac|at_tac]. }
{ apply (canvas_at _ 217 218 219 220 222 223 2 1 2 0 0 0 40056 8); try lia; first [split; [lia|at_tac]|at_tac]. }
}
apply (entries_cons _ _ _ 238 241 289 550).
{ apply (block_inline _ _ _ 238 241 _ 115); [right; reflexivity|apply lit_unicode; reflexivity|at_tac|at_tac]. }
{ apply (value_ext _ _ _ 241 289 287 43); [lia|at_tac|reflexivity|].
apply (ext_canvas_kids _ _ _ 246 254 272 287 289); [|at_tac| |].
{ apply (block_inline _ _ _ 246 254 _ 115); [right; reflexivity|apply lit_unicode; reflexivity|at_tac|at_tac]. }
{ apply (list_at _ _ _ 258 259 272); [split; [vm_compute; split; congruence|at_tac]|]. apply (entries_cons _ _ _ 259 268 272 272); [|apply value_str; [at_tac|]|constructor].
{ apply (block_inline _ _ _ 259 268 _ 115); [right; reflexivity|apply lit_unicode; reflexivity|at_tac|at_tac]. }
{ apply (block_inline _ _ _ 269 272 _ 115); [right; reflexivity|apply lit_unicode; reflexivity|at_tac|at_tac]. }
}
{ apply (canvas_at _ 272 273 274 275 277 278 1 1 2 0 0 0 40056 4); try lia; first [split; [lia|at_tac]|at_tac]. }
}
apply (entries_cons _ _ _ 289 292 349 550).
{ apply (block_inline _ _ _ 289 292 _ 115); [right; reflexivity|apply lit_unicode; reflexivity|at_tac|at_tac]. }
{ apply (value_ext _ _ _ 292 349 341 52); [lia|at_tac|reflexivity|].
apply (ext_canvas_kids _ _ _ 297 305 326 341 349); [|at_tac| |].
{ apply (block_inline _ _ _ 297 305 _ 115); [right; reflexivity|apply lit_unicode; reflexivity|at_tac|at_tac]. }
{ apply (list_at _ _ _ 309 310 326); [split; [vm_compute; split; congruence|at_tac]|]. apply (entries_cons _ _ _ 310 319 326 326); [|apply value_str; [at_tac|]|constructor].
{ apply (block_inline _ _ _ 310 319 _ 115); [right; reflexivity|apply lit_unicode; reflexivity|at_tac|at_tac]. }
{ apply (block_inline _ _ _ 320 326 _ 115); [right; reflexivity|apply lit_unicode; reflexivity|at_tac|at_tac]. }
}
{ apply (canvas_at _ 326 327 328 329 331 332 1 1 2 0 0 0 6 10); try lia; first [split; [lia|at_tac]|at_tac]. }
}
apply (entries_cons _ _ _ 349 352 354 550).
{ apply (block_inline _ _ _ 349 352 _ 115); [right; reflexivity|apply lit_unicode; reflexivity|at_tac|at_tac]. }
{ apply (value_int _ _ _ _ _ 3); [left; reflexivity|at_tac|split; [lia|at_tac]]. }
apply (entries_cons _ _ _ 354 357 405 550).
{ apply (block_inline _ _ _ 354 357 _ 115); [right; reflexivity|apply lit_unicode; reflexivity|at_tac|at_tac]. }
{ apply (value_ext _ _ _ 357 405 403 43); [lia|at_tac|reflexivity|].
apply (ext_canvas_kids _ _ _ 362 370 388 403 405); [|at_tac| |].
{ apply (block_inline _ _ _ 362 370 _ 115); [right; reflexivity|apply lit_unicode; reflexivity|at_tac|at_tac]. }
{ apply (list_at _ _ _ 374 375 388); [split; [vm_compute; split; congruence|at_tac]|]. apply (entries_cons _ _ _ 375 384 388 388); [|apply value_str; [at_tac|]|constructor].
{ apply (block_inline _ _ _ 375 384 _ 115); [right; reflexivity|apply lit_unicode; reflexivity|at_tac|at_tac]. }
{ apply (block_inline _ _ _ 385 388 _ 115); [right; reflexivity|apply lit_unicode; reflexivity|at_tac|at_tac]. }
}
{ apply (canvas_at _ 388 389 390 391 393 394 1 1 2 0 0 0 40056 4); try lia; first [split; [lia|at_tac]|at_tac]. }
}
apply (entries_cons _ _ _ 405 408 427 550).
{ apply (block_inline _ _ _ 405 408 _ 115); [right; reflexivity|apply lit_unicode; reflexivity|at_tac|at_tac]. }
{ apply (value_ext _ _ _ 408 427 424 14); [lia|at_tac|reflexivity|].
apply (ext_raw_plain _ _ _ 413 422 424 427 0 3); [|lia|lia|at_tac|lia|split; [lia|at_tac]].
{ apply (block_inline _ _ _ 413 422 _ 115); [right; reflexivity|apply lit_unicode; reflexivity|at_tac|at_tac]. }
}
apply (entries_cons _ _ _ 427 430 455 550).
{ apply (block_inline _ _ _ 427 430 _ 115); [right; reflexivity|apply lit_unicode; reflexivity|at_tac|at_tac]. }
{ apply (value_ext _ _ _ 430 455 453 20); [lia|at_tac|reflexivity|].
apply (ext_video _ _ _ 435 449 453 455 2); [|lia|split; [lia|at_tac]].
{ apply (block_inline _ _ _ 435 449 _ 115); [right; reflexivity|apply lit_unicode; reflexivity|at_tac|at_tac]. }
}
apply (entries_cons _ _ _ 455 458 550 550).
{ apply (block_inline _ _ _ 455 458 _ 115); [right; reflexivity|apply lit_unicode; reflexivity|at_tac|at_tac]. }
{ apply (value_ext _ _ _ 458 550 477 87); [lia|at_tac|reflexivity|].
apply (ext_sound _ _ _ 463 474 476 477 550 3 5); [|lia|lia|split; [lia|at_tac]|split; [lia|at_tac]|lia|vm_compute; discriminate].
{ apply (block_inline _ _ _ 463 474 _ 115); [right; reflexivity|apply lit_unicode; reflexivity|at_tac|at_tac]. }
}
constructor.
Qed.

Ltac named_at k := match goal with |- last_named ?l ?n ?x => exists (firstn k l), (skipn (S k) l); split; [reflexivity|vm_compute; intuition discriminate] end.
Ltac in_place k := eapply leads_on; [apply inside_image; named_at k|constructor].
(** "l" shows what "c" is, "d" itself, and "k" shows no picture. *)
Definition shown_right (props : list (list Z * prop)) : Prop :=
  (exists v, nth_error (map snd props) 0 = Some v /\ portrays props [codes "l"] (Some v)) /\
  (exists v, nth_error (map snd props) 2 = Some v /\ portrays props [codes "d"] (Some v)) /\
  portrays props [codes "k"] None.
Ltac shown_tac := 
  split; [eexists; split; [reflexivity|]|split; [eexists; split; [reflexivity|]|]];
  [eapply (portrays_linked _ _ _ [codes "c"]); [in_place 1%nat|repeat eexists|discriminate|repeat constructor; vm_compute; intuition discriminate|eexists _, _; split; [constructor|split; [named_at 0%nat|left; reflexivity]]|];
     eapply portrays_own; [in_place 0%nat|repeat eexists|];
     intros t (kids & u & B & (pre & post & E & _) & _); inversion B; subst; [destruct pre; discriminate|contradiction]
  |eapply (portrays_dead _ _ _ [codes "gone"]); [in_place 2%nat|repeat eexists|discriminate|repeat constructor; vm_compute; intuition discriminate|eexists _, _; split; [constructor|split; [named_at 0%nat|left; reflexivity]]|];
     apply fails_here; constructor; vm_compute; intuition discriminate
  |eapply (portrays_linked _ _ _ [codes "n"]); [in_place 4%nat|repeat eexists|discriminate|repeat constructor; vm_compute; intuition discriminate|eexists _, _; split; [constructor|split; [named_at 0%nat|left; reflexivity]]|];
     eapply portrays_other; [in_place 3%nat|]; intros (? & ? & ? & ? & ? & ? & ? & ? & ? & E); discriminate E].
(** Both pictures can be had: that of "c" is kept as it is, that of "d" in a sealed block. *)
Definition kept_right (buf : list Z) (key : nat -> Z) (props : list (list Z * prop)) : Prop :=
  (exists v, nth_error (map snd props) 0 = Some v /\ holds_picture as_is false buf key v [120; 156; 3; 4; 5; 6; 7; 8] 2 1 2) /\
  (exists v, nth_error (map snd props) 2 = Some v /\ holds_picture as_is false buf key v [30; 40; 50; 60] 1 1 2).
Ltac kept_tac :=
  split; eexists; (split; [reflexivity|]); do 7 eexists; (split; [reflexivity|]); (split; [reflexivity|]); (split; [lia|]); (split; [lia|]); (split; [lia|]); (split; [lia|]);
  (split; [byte_list|]); (split; [apply (size_four 2); left; reflexivity|]);
  (split; [|unfold in_blocks; split; intros; lia]).
Lemma one_block key b s file : Z.of_nat (length b) < 2 ^ 31 -> xored key 0 b s -> file = enc_le 4 (Z.of_nat (length b)) ++ s ++ [] -> blocks_on_file key [b] file.
Proof. intros L X ->. constructor; [exact L|exact X|constructor]. Qed.
Ltac as_they_are := match goal with |- kept _ ?b _ ?o ?n _ _ _ => exists (firstn (Z.to_nat n) (skipn (Z.to_nat o) b)); split; [at_tac|left; split; [left; reflexivity|vm_compute; reflexivity]] end.
Ltac in_a_block := match goal with |- kept _ ?b _ ?o ?n _ _ _ => exists (firstn (Z.to_nat n) (skipn (Z.to_nat o) b)); split; [at_tac|right];
  split; [left; unfold zlib_start; lia|]; exists [[1; 2; 30; 40; 50; 60]];
  split; [apply (one_block _ _ (skipn 4 (firstn (Z.to_nat n) (skipn (Z.to_nat o) b)))); [cbn; lia| |vm_compute; reflexivity]; split; [vm_compute; reflexivity|];
            intros j d; do 6 (destruct j as [|j]; [intros [= <-]; vm_compute; reflexivity|]); destruct j; discriminate
         |split; [cbn; lia|vm_compute; reflexivity]] end.

(** What is seen at a path: the pixels of the picture and the number of nodes. *)
Definition seen (w : world) (path : list Z) : res (list px) :=
  let st := iv_key (aes256 user_key) in
  match w_at_path_parsed st chacha_block 40 w 0 path with
  | (Ok i, w1) => fst (w_get_image st chacha_block 40 as_is no_bc7 false 20 [] w1 i)
  | _ => Panic
  end.
Definition seen_right (w : world) (at_image : list Z) : Prop :=
  seen w (at_image ++ codes "c") = Ok [[3; 156; 120; 4]; [7; 6; 5; 8]] /\ seen w (at_image ++ codes "l") = Ok [[3; 156; 120; 4]; [7; 6; 5; 8]] /\
  seen w (at_image ++ codes "d") = Ok [[50; 40; 30; 60]] /\ seen w (at_image ++ codes "k") = Err (EOther 70) /\ seen w (at_image ++ codes "n") = Err (EOther 70).

Lemma bytes_check l : forallb (fun b => (0 <=? b) && (b <? 256)) l = true -> bytes l.
Proof. intro H. apply Forall_forall. intros b I. rewrite forallb_forall in H. specialize (H b I). unfold byte. lia. Qed.
Lemma pak_shown : shown_right pak_props.
Proof. shown_tac. Qed.
Lemma broad_shown : shown_right broad_props.
Proof. shown_tac. Qed.
Lemma pic_shown : shown_right pic_props.
Proof. shown_tac. Qed.
Example C254_example :
  (bytes pak /\ read_header pak = Ok (pak_head, 16) /\ decimal 83 [8; 3] /\ folded (digit_hash 0 [8; 3]) = 172 /\
   laid_dir pak (key_of Global) 16 (digit_hash 0 [8; 3]) 18 pak_kids /\
   first_name true pak 18 (enc_str (key_of Global) (codes "Mob.img")) /\ filled_with pak (key_of Global) pak_kids [(codes "Mob.img", CImage pak_props)]) /\
  shown_right pak_props /\ kept_right pak (key_of Global) pak_props /\
  seen_right (snd (w_parse (iv_key (aes256 user_key)) chacha_block 40 (w_open (codes "Mob.wz") pak None None 83 []) 0 0)) (codes "Mob.img/").
Proof.
  split; [|split; [exact pak_shown|split; [kept_tac; [as_they_are|in_a_block]|vm_compute; repeat split]]].
  split; [apply bytes_check; vm_compute; reflexivity|]. split; [vm_compute; reflexivity|]. split; [repeat split; try discriminate; repeat constructor; lia|]. split; [vm_compute; reflexivity|].
  change (digit_hash 0 [8; 3]) with 1876. split; [|split].
  - apply (dir_at _ _ _ _ 18 19 38 1); [lia|split; [lia|at_tac]|].
    apply (ents_image _ _ _ _ 19 28 38 38 0 (codes "Mob.img") 38 (zlen pak - 38) 0x73);
      [apply head_inline; [apply lit_unicode; reflexivity|at_tac|at_tac]| |auto|at_tac|constructor].
    exists 33, 34, 0, (stored_num OPkg1 16 0 1876 34 38). split; [vm_compute; discriminate|]. split; [split; [vm_compute; split; congruence|at_tac]|].
    split; [split; [lia|at_tac]|]. split; [vm_compute; split; congruence|]. split; [at_tac|].
    split; [apply classic_holds; [vm_compute; split; congruence..|vm_compute; reflexivity]|vm_compute; discriminate].
  - exists 19, 28, 1, 4. split; [split; [lia|at_tac]|]. split; [lia|]. split; [at_tac|]. split; [lia|at_tac].
  - apply filled_image; [apply (not_text_img (codes "Mob"))|exact pak_laid|repeat constructor|constructor].
Qed.
Example C255_example :
  (bytes broad /\ read_header broad = Ok (broad_head, 150) /\ unlike_entry broad 150 /\
   laid_dir2 broad (fun _ => 0) (number_key (wide_number broad_head)) true true 150 5 (wide_hash broad_head) OPkg264 true 150
     [(codes "Mob.img", TImage 186 (zlen broad - 186))] /\
   filled_with broad (fun _ => 0) [(codes "Mob.img", TImage 186 (zlen broad - 186))] [(codes "Mob.img", CImage broad_props)]) /\
  shown_right broad_props /\ kept_right broad (fun _ => 0) broad_props /\
  seen_right (snd (w_parse (iv_key (aes256 user_key)) chacha_block 40 (w_open (codes "Mob.wz") broad None None (-1) []) 0 0)) (codes "Mob.img/").
Proof.
  split; [|split; [exact broad_shown|split; [kept_tac; [as_they_are|in_a_block]|vm_compute; repeat split]]].
  split; [apply bytes_check; vm_compute; reflexivity|]. split; [vm_compute; reflexivity|]. split; [|split].
  - exists 108, 15, 128, 33, 220, 43. split; [at_tac|]. lia.
  - pose (h := broad_head).
    apply (dir_wide _ _ _ _ _ _ _ _ _ _ 150 159 182 186 (sext 64 (Z.lxor (Z.lxor (Z.lxor 65536 5) (wide_hash h)) 0x550EC4DD02C468EC)) 0);
      [reflexivity|reflexivity|cbn; lia|lia|vm_compute; split; congruence|vm_compute; reflexivity|at_tac| |].
    + apply (heads_cons _ _ _ _ _ true 159 176 181 182 182 0);
        [at_tac| |vm_compute; discriminate|split; [vm_compute; split; congruence|at_tac]|split; [lia|at_tac]|constructor].
      apply name_keyed_wide; [reflexivity|apply lit_unicode; reflexivity|reflexivity|vm_compute; split; discriminate|at_tac].
    + apply (offs_image _ _ _ _ _ _ _ _ _ _ 182 186 (codes "Mob.img") 186 (zlen broad - 186) (stored_num OPkg264 150 5 (wide_hash h) 182 186) 0x73);
        [vm_compute; discriminate|vm_compute; split; congruence|at_tac|apply pkg2_holds; pk_side|auto|at_tac|constructor].
  - apply filled_image; [apply (not_text_img (codes "Mob"))|exact broad_laid|repeat constructor|constructor].
Qed.
Example C256_example :
  (bytes pic_file /\ laid_image pic_file (key_of Global) 0 pic_props /\ not_text (codes "Base.img") /\ Forall (fun e => linkless (snd e)) pic_props) /\
  shown_right pic_props /\ kept_right pic_file (key_of Global) pic_props /\
  match w_open_img (iv_key (aes256 user_key)) (codes "Base.img") pic_file None with
  | Ok w => seen_right (snd (w_parse (iv_key (aes256 user_key)) chacha_block 40 w 0 0)) []
  | _ => False
  end.
Proof.
  split; [|split; [exact pic_shown|split; [kept_tac; [as_they_are|in_a_block]|vm_compute; repeat split]]].
  split; [apply bytes_check; vm_compute; reflexivity|]. split; [exact pic_laid|]. split; [apply (not_text_img (codes "Base"))|repeat constructor].
Qed.
Definition handed (w : world) (path : list Z) : res (list Z) :=
  match w_at_path_parsed (iv_key (aes256 user_key)) chacha_block 40 w 0 path with
  | (Ok i, w1) => match w_thing w1 i with ThProp r (OSound s) => snd_buffer r s | ThProp r (ORaw a n) | ThProp r (OVideo a n) => raw_buffer r a n | _ => Panic end
  | _ => Panic
  end.
Example C257_example :
  (let w := snd (w_parse (iv_key (aes256 user_key)) chacha_block 40 (w_open (codes "Base") pak None None 83 []) 0 0) in
   handed w (codes "Mob.img/r") = Ok [201; 202; 203] /\ handed w (codes "Mob.img/v") = Ok [7; 8] /\
   handed w (codes "Mob.img/m") = Ok (wav_file (map Z.of_nat (seq 52 16)) [1; 2; 3]) /\ firstn 12 (wav_file (map Z.of_nat (seq 52 16)) [1; 2; 3]) = codes "RIFF" ++ [39; 0; 0; 0] ++ codes "WAVE") /\
  match w_open_img (iv_key (aes256 user_key)) (codes "Base.img") pic_file (Some (region_iv Global)) with
  | Ok w => let w := snd (w_parse (iv_key (aes256 user_key)) chacha_block 40 w 0 0) in handed w (codes "r") = Ok [201; 202; 203] /\ handed w (codes "v") = Ok [7; 8]
  | _ => False
  end.
Proof. vm_compute. repeat split. Qed.
