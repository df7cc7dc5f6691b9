(** Pictures and other data in packages whose images have links: C276, C277. *)
From Coq Require Import ZArith List Bool Lia ZifyBool ZifyNat Permutation.
From Coq Require String Ascii.
From Verif.Model Require Import Base Utf Keys Reader WzStr Header Offset VersionPkg1 VersionPkg2 Directory Image Media Guess File Png Node Ms World WorldPicture.
From Verif.Spec Require Import Wire Stream StrWire HeaderSpec Version Media PropWire PropView DirWire DirView DirWire2 Aes KeyFind PropEnc PathSpec Tree ChaCha Whole Pixel Picture Portrait Linked WholeLinks PortraitLinks.
From Verif.Proofs Require Import OpenL BaseL WireL KeysL AtL DirL HeaderL MediaL EncL ImageL StrictL GuessL FileL NodeL WorldL WalkWL CanvasL PortraitL LinkedL LinkWorldL TourLinksL PortraitLinksL.
From Verif.Props Require Import P_Media P_Header P_Strict P_Version P_Directory P_Node P_Guess P_File P_Canvas P_Whole P_Tour P_Archive P_ImgFile P_Linked P_Detect P_Portrait P_LinkPack P_LinkTour P_LinkEnd.
Import ListNotations. Import String.StringSyntax.
Open Scope Z_scope.

(** Whatever has been looked up or walked through before: at the end of a path that leads into an image and then through links, asking for
    the picture gives that of the canvas which the path stands for, and [NotPngProperty] where it stands for none; nothing changes by that. *)
Definition gives_linked_pictures (st : list Z -> nat -> Z) (bl : list Z -> list Z -> Z -> list Z) (f : nat) (inflate : bool -> list Z -> Z -> option (list Z))
    (bc7 : list Z -> Z -> Z -> option (list Z)) (rayon : bool) (buf : list Z) (key : nat -> Z) (w : world) (cs : list (list Z * content)) : Prop :=
  forall w1 P props Q r, used st bl f w w1 -> Q <> [] -> Forall (fun c => ~ In 47 c) (P ++ Q) -> leads (PlDir cs) P (PlImage props) -> depicts props Q r ->
  exists i w', w_at_path_parsed st bl f w1 0 (joined (P ++ Q)) = (Ok i, w') /\
    match r with
    | None => exists d0, forall d, (d0 <= d)%nat -> w_get_image st bl f inflate bc7 rayon d [] w' i = (Err (EOther 70), w')
    | Some v => forall raw wd h fm, holds_picture inflate rayon buf key v raw wd h fm ->
        exists d0 l, (forall d, (d0 <= d)%nat -> w_get_image st bl f inflate bc7 rayon d [] w' i = (Ok l, w')) /\ Pixel.picture wd h l (pixel_of fm raw wd)
    end.
(** Likewise the sounds, raw data and videos give the stored bytes (as in [gives_data]). *)
Definition gives_linked_data (st : list Z -> nat -> Z) (bl : list Z -> list Z -> Z -> list Z) (f : nat) (buf : list Z) (w : world) (cs : list (list Z * content)) : Prop :=
  forall w1 comps Q v, used st bl f w w1 -> comps <> [] -> Forall (fun c => ~ In 47 c) comps -> gets cs comps Q (PlProp v) ->
  exists i w' rr o, w_at_path_parsed st bl f w1 0 (joined comps) = (Ok i, w') /\ w_thing w' i = ThProp rr o /\
    match v with
    | PSound off size dur hoff => exists s, o = OSound s /\ forall header data, 0 <= hoff -> at_ buf hoff off header -> at_ buf off (off + size) data ->
        (zlen header = 70 /\ ~ (dur = 1000 /\ length_field buf hoff size) -> snd_buffer rr s = Ok (wav_file (firstn 16 (skipn 52 header)) data)) /\
        (zlen header <> 70 \/ (dur = 1000 /\ length_field buf hoff size) -> snd_buffer rr s = Ok data)
    | PRaw off size _ => exists a n, o = ORaw a n /\ forall data, at_ buf off (off + size) data -> raw_buffer rr a n = Ok data
    | PVideo off size => exists a n, o = OVideo a n /\ forall data, at_ buf off (off + size) data -> raw_buffer rr a n = Ok data
    | _ => True
    end.

Section gives.
  Variable st : list Z -> nat -> Z.
  Variable bl : list Z -> list Z -> Z -> list Z.
  Variable ok : rd -> Prop.
  Variable f : nat.
  Hypothesis F : (0 < f)%nat.
  Variable s : shared.
  Variable name : text.
  Variable cs : list (list Z * content).
  Hypothesis T : forall comps, (exists Q z, gets cs comps Q z) \/ lacks cs comps.
  Variable buf : list Z.
  Variable key : nat -> Z.
  Hypothesis Buf : zlen buf < 2 ^ 31.
  Hypothesis Ok_reads : forall r, ok r -> rd_buf r = buf /\ forall j, rd_ks r j = key j.

  Lemma world_linked_pictures inflate bc7 rayon w : name <> [66; 97; 115; 101] -> walkable st bl ok f s name cs w -> gives_linked_pictures st bl f inflate bc7 rayon buf key w cs.
  Proof.
    intros Nb W w0 P props Q r U Nq Sl L De. destruct (used_linked st bl ok f F s name cs T w w0 W U) as [L0 _]. pose proof L0 as (B & A & k & sl & H & Uk).
    rewrite (linked_fold f st bl ok s cs name w0 _ L0), split_join by (first [exact Sl|destruct P; [exact Nq|discriminate]]).
    assert (Cl : clear w0 0) by (eapply clear_top; [exact H|reflexivity|intros [E _]; exact (Nb E)]).
    destruct (dirs_clear f F st bl ok s props P cs w0 0 B A Cl L) as (a & w1 & E1 & B1 & G1 & W1 & C1).
    destruct (image_parse f st bl ok s F w1 a props B1 W1) as (w2 & E2 & B2 & G2 & Go). pose proof (clear_grows f st bl ok w1 w2 a B1 G2 C1) as C2.
    assert (Fo : exists X, follows props [] Q X) by (inversion De as [? Fo|? ? (X & Fo & _)|? ? ? ? (X & Fo & _)|? ? ? (X & Fo & _)|? ? (X & Fo & _)]; subst; eauto). destruct Fo as [X Fo].
    pose proof Go as (r0 & nm & off & size & c & O & Ta & Ha & Ka & _ & _ & R). destruct (proj1 (R Q) X Fo) as (j & z & _ & Pj & _). destruct (passes_fold _ _ _ _ Pj st bl f) as [_ Fq].
    exists j, w2. split.
    - rewrite fold_app, E1. destruct Q as [|n Q]; [congruence|]. cbn [w_fold] in Fq |- *. rewrite E2. unfold w_parse in Fq at 1. rewrite Ha, Ka in Fq. exact Fq.
    - destruct (depicted f F st bl ok inflate bc7 rayon w2 a props Go C2 Q r De j Pj []) as (d0 & x & Sh & G).
      destruct r as [v|]; cbn [shown_as] in Sh; [|subst x; eauto].
      intros raw wd h fm (f1 & f2 & pg & hd & of & sz & kids & -> & -> & Hf & Hw & Hh & Hs & Hb & D & K & M & M3).
      destruct Sh as (rr & Or & ->). destruct (Ok_reads rr Or) as [Eb Ek].
      destruct (extract_picture inflate bc7 rayon rr (Png.mkPng of sz f1 f2 hd wd h) raw (zlen raw)) as (l & El & Pl); cbn [pg_fmt1 pg_fmt2 pg_w pg_h pg_off pg_size pg_header];
        try assumption; try reflexivity.
      + rewrite Eb. lia.
      + rewrite Eb. eapply kept_key; [exact Ek|exact K].
      + exists d0, l. split; [intros d Hd; rewrite (G d Hd), El; reflexivity|exact Pl].
  Qed.
  Lemma world_linked_data w : walkable st bl ok f s name cs w -> gives_linked_data st bl f buf w cs.
  Proof.
    intros W w0 comps Q v U Ne Sl Ge. destruct (used_linked st bl ok f F s name cs T w w0 W U) as [L0 _]. pose proof L0 as (B & A & _).
    rewrite (linked_fold f st bl ok s cs name w0 _ L0), split_join by assumption.
    destruct (proj1 (walk_links f st bl ok s F comps cs w0 0 B A) Q _ Ge) as (i & w' & E & _ & _ & (rr & o & sub & Or & Ti & Sh) & _).
    exists i, w', rr, o. split; [exact E|]. split; [exact Ti|]. destruct (Ok_reads rr Or) as [Eb _]. rewrite <- Eb in Buf |- *. destruct v; try exact I.
    - inversion Sh as [| | | | | | | | | | | | |? ? ? ? ty K| |]; subst. eexists. split; [reflexivity|]. intros header data H0 Hh Hd.
      destruct (C36_shown rr _ _ _ _ _ header data Sh H0 Hh Hd Buf) as (Bu & _ & Ty). split.
      + intro C. apply Ty in C. rewrite C in Bu. exact Bu.
      + intro C. destruct (snd_type _); [exact Bu| |exact Bu]. destruct Ty as [Ty _]. specialize (Ty eq_refl). tauto.
    - inversion Sh; subst. eexists _, _. split; [reflexivity|]. intros data Hd. apply C112_stored; [exact Hd|lia].
    - inversion Sh; subst. eexists _, _. split; [reflexivity|]. intros data Hd. apply C112_stored; [exact Hd|lia].
  Qed.
End gives.

(** C276: so does every package that is not called "Base". *)
Theorem C276_linked_pictures : forall inflate bc7 rayon bl name buf iv existing key patch cs cache,
  bytes buf -> zlen buf < 2 ^ 31 -> package_under buf iv existing key patch cs -> name <> codes "Base" ->
  exists f0, forall f, (f0 <= f)%nat -> exists w,
    w_parse (iv_key (aes256 user_key)) bl f (w_open name buf iv existing patch cache) 0 0 = (Ok tt, w) /\
    gives_linked_pictures (iv_key (aes256 user_key)) bl f inflate bc7 rayon buf key w cs.
Proof.
  intros inflate bc7 rayon bl name buf iv existing key patch cs cache Hb Hs P Nb.
  destruct (package_under_walkable bl name buf iv existing key patch cs cache Hb Hs P) as (T & f0 & W).
  exists f0. intros f Hf. destruct (W f Hf) as (w & ok & s & E & F & K & R). exists w. split; [exact E|]. eapply world_linked_pictures; eassumption.
Qed.
Print Assumptions C276_linked_pictures.

(** C277: every package hands out the data stored in it, whatever it is called. *)
Theorem C277_linked_data : forall bl name buf iv existing key patch cs cache,
  bytes buf -> zlen buf < 2 ^ 31 -> package_under buf iv existing key patch cs ->
  exists f0, forall f, (f0 <= f)%nat -> exists w,
    w_parse (iv_key (aes256 user_key)) bl f (w_open name buf iv existing patch cache) 0 0 = (Ok tt, w) /\
    gives_linked_data (iv_key (aes256 user_key)) bl f buf w cs.
Proof.
  intros bl name buf iv existing key patch cs cache Hb Hs P.
  destruct (package_under_walkable bl name buf iv existing key patch cs cache Hb Hs P) as (T & f0 & W).
  exists f0. intros f Hf. destruct (W f Hf) as (w & ok & s & E & F & K & R). exists w. split; [exact E|]. eapply world_linked_data; eassumption.
Qed.
Print Assumptions C277_linked_data.

(** A picture "c", a link "u" to it, a picture "l" whose inlink leads to "u"; raw data "r" and a link "q" to it. *)
Definition gal_block (ks : nat -> Z) : list Z :=
  (115 :: enc_str ks (codes "Property") ++ [0; 0]) ++
  [5] ++
  (115 :: enc_str ks (codes "c")) ++ (9 :: enc_le 4 31) ++ (115 :: enc_str ks (codes "Canvas")) ++ [0; 0] ++
  [2; 1; 2; 0; 0; 0] ++ [0; 0] ++ (enc_le 4 9) ++ [0] ++ [120; 156; 3; 4; 5; 6; 7; 8] ++
  (115 :: enc_str ks (codes "u")) ++ (9 :: enc_le 4 9) ++ (115 :: enc_str ks (codes "UOL")) ++ [0] ++ (115 :: enc_str ks (codes "c")) ++
  (115 :: enc_str ks (codes "l")) ++ (9 :: enc_le 4 43) ++ (115 :: enc_str ks (codes "Canvas")) ++ [0; 1; 0; 0] ++
  [1] ++ (115 :: enc_str ks (codes "_inlink")) ++ [8] ++ (115 :: enc_str ks (codes "u")) ++
  [1; 1; 2; 0; 0; 0] ++ [0; 0] ++ (enc_le 4 5) ++ [0] ++ [120; 156; 9; 9] ++
  (115 :: enc_str ks (codes "r")) ++ (9 :: enc_le 4 14) ++ (115 :: enc_str ks (codes "RawData")) ++ [0; 3] ++ [201; 202; 203] ++
  (115 :: enc_str ks (codes "q")) ++ (9 :: enc_le 4 9) ++ (115 :: enc_str ks (codes "UOL")) ++ [0] ++ (115 :: enc_str ks (codes "r")).
Definition gal : list Z := Eval vm_compute in
  let ks := key_of Global in let img := gal_block ks in let n := zlen img in
  PKG1 ++ enc_le 8 (22 + n) ++ enc_le 4 16 ++ [172; 0] ++
  [1] ++ [4] ++ enc_str ks (codes "Mob.img") ++ enc_wzint 4 n ++ [0] ++ stored OPkg1 16 0 1876 34 38 ++ img.
Definition gal_img : list Z := Eval vm_compute in gal_block (key_of Global).
(** Its properties, when the image is at [o]. *)
Section gal.
Variable o : Z.
Definition gal_c : prop := PCanvas 2 1 2 0 0 40056 (o + 44) 8 [].
Definition gal_l : prop := PCanvas 1 1 2 0 0 40056 (o + 116) 4 [(codes "_inlink", PStr (codes "u"))].
Definition gal_r : prop := PRaw (o + 139) 3 [].
Definition gal_props : list (list Z * prop) :=
  [(codes "c", gal_c); (codes "u", PUol (codes "c")); (codes "l", gal_l); (codes "r", gal_r); (codes "q", PUol (codes "r"))].
Lemma gal_places P pl : leads (PlImage gal_props) P pl -> In (P, pl)
  [([], PlImage gal_props); ([codes "c"], PlProp gal_c); ([codes "u"], PlProp (PUol (codes "c"))); ([codes "l"], PlProp gal_l);
   ([codes "r"], PlProp gal_r); ([codes "q"], PlProp (PUol (codes "r"))); ([codes "l"; codes "_inlink"], PlProp (PStr (codes "u")))].
Proof.
  intro L. inversion L as [|? n q rest ? I L1]; subst; [left; reflexivity|]. inversion I as [|? ? v La|]; subst. apply last_named_in in La.
  assert (Leaf : forall v rest z, leads (PlProp v) rest z -> below v [] -> rest = [] /\ z = PlProp v).
  { intros u r z Lz B. inversion Lz as [|? ? ? ? ? Iz _]; subst; [auto|]. inversion Iz as [| |? ks ? ? B' La']; subst. rewrite (below_fun _ _ _ B' B) in La'. apply last_named_in in La'. destruct La'. }
  destruct La as [[= <- <-]|[[= <- <-]|[[= <- <-]|[[= <- <-]|[[= <- <-]|[]]]]]].
  3: { inversion L1 as [|? n q rest' ? I2 L2]; subst; [cbn [In]; tauto|]. inversion I2 as [| |? ks ? u B La]; subst.
       assert (B' : below gal_l [(codes "_inlink", PStr (codes "u"))]) by constructor. rewrite (below_fun _ _ _ B B') in La. apply last_named_in in La.
       destruct La as [[= <- <-]|[]]; apply Leaf in L2 as [-> ->]; [|constructor; exact Logic.I]; cbn [In]; tauto. }
  all: apply Leaf in L1 as [-> ->]; [cbn [In]; tauto|constructor; exact Logic.I].
Qed.
Lemma gal_tidy : tidy gal_props.
Proof.
  intros P pl ns L Ls. apply gal_places in L.
  assert (Lf : forall v ks, below v ks -> lists (PlProp v) ns -> ns = map fst ks) by (intros v ks B X; inversion X as [|? ks' B']; subst; rewrite (below_fun _ _ _ B' B); reflexivity).
  cbn [In] in L. repeat (destruct L as [L|L]; [injection L as <- <-|]); [| | | | | | |destruct L].
  4: { apply (Lf _ [(codes "_inlink", PStr (codes "u"))]) in Ls; [|constructor]. subst ns. split; [no_dup|good_names]. }
  1: { inversion Ls; subst. split; [no_dup|good_names]. }
  all: apply (Lf _ []) in Ls; [|constructor; exact Logic.I]; subst ns; split; constructor.
Qed.
Lemma gal_leads k v : In (k, v) gal_props -> leads (PlImage gal_props) [k] (PlProp v).
Proof. intro I. econstructor; [constructor|constructor]. apply nodup_last; [|exact I]. exact (proj1 (gal_tidy [] _ _ (leads_here _) (lists_image _))). Qed.
Lemma gal_route k v : In (k, v) gal_props -> ~ link (PlProp v) -> k <> codes ".." -> route gal_props [] [k] [k].
Proof. intros I N D. eapply route_down; [exact D|exact (gal_leads _ _ I)|exact N|apply route_end]. Qed.
Lemma gal_linked P n us : linked gal_props P n us -> P = [] /\ (n = codes "u" /\ us = [codes "c"] \/ n = codes "q" /\ us = [codes "r"]).
Proof.
  intros (Ne & Pl & L). apply gal_places in L. cbn [In] in L.
  assert (J : forall vs, vs <> [] -> Forall (fun u => ~ In 47 u) vs -> joined us = joined vs -> us = vs) by (intros vs Nv Pv E; apply joined_inj; assumption).
  repeat (destruct L as [L|L]; [injection L as EP E; try discriminate E|]); try contradiction.
  all: assert (P = []) as -> by (destruct P as [|? [|]]; [reflexivity|discriminate EP..]); injection EP as <-; split; [reflexivity|].
  - apply eq_sym, (J [codes "c"]) in E as ->; [auto|discriminate|plain_names].
  - apply eq_sym, (J [codes "r"]) in E as ->; [auto|discriminate|plain_names].
Qed.
Lemma gal_simple : simple_links gal_props.
Proof.
  intros P n us L. apply gal_linked in L as [-> [[-> ->]|[-> ->]]]; left; [exists [codes "c"]; apply (gal_route _ gal_c)|exists [codes "r"]; apply (gal_route _ gal_r)];
    first [apply not_link; discriminate|discriminate|cbn [gal_props In]; auto 10].
Qed.
Lemma gal_comes_c : comes_to gal_props [codes "u"] gal_c.
Proof.
  exists [codes "c"]. split; [|apply gal_leads; cbn [gal_props In]; auto]. eapply (follows_link _ _ _ [codes "c"]); [|apply (gal_route _ gal_c); [left; reflexivity|apply not_link; discriminate|discriminate]|constructor].
  split; [discriminate|]. split; [plain_names|]. apply gal_leads. cbn [gal_props In]. auto.
Qed.
Lemma gal_none T : ~ follows gal_props [codes "c"] [codes "_inlink"] T.
Proof.
  intro X. inversion X as [|? ? ? ? pl L|? ? us ? ? ? L|? ? us L]; subst; [|apply gal_linked in L as [L _]; discriminate L..].
  apply gal_places in L. cbn [In app] in L. repeat (destruct L as [L|L]; [discriminate L|]). exact L.
Qed.
Lemma gal_u : depicts gal_props [codes "u"] (Some gal_c).
Proof.
  eapply depicts_own; [exact gal_comes_c|repeat eexists|]. intros t (v & (T & X & _) & _). cbn [app] in X.
  inversion X as [|? ? ? ? pl L N|? ? us T' ? ? L R X2|]; subst.
  - apply gal_places in L. cbn [In app] in L. repeat (destruct L as [L|L]; [try discriminate L|]); [|destruct L]. injection L as <-. apply N. eexists. reflexivity.
  - apply gal_linked in L as [_ [[_ ->]|[E _]]]; [|discriminate E]. inversion R as [| |? ? ? ? ? ? ? ? R1]; subst. inversion R1; subst. exact (gal_none _ X2).
Qed.
Lemma gal_shows : depicts gal_props [codes "l"] (Some gal_c).
Proof.
  assert (Ll : leads (PlImage gal_props) [codes "l"] (PlProp gal_l)) by (apply gal_leads; cbn [gal_props In]; auto).
  assert (Li : leads (PlImage gal_props) [codes "l"; codes "_inlink"] (PlProp (PStr (codes "u")))).
  { eapply leads_on; [apply inside_image; named_at 2%nat|]. eapply leads_on; [eapply inside_prop; [constructor|named_at 0%nat]|constructor]. }
  eapply (depicts_linked _ _ gal_l [codes "u"]); [|repeat eexists|discriminate|plain_names| |exact gal_u].
  - exists [codes "l"]. split; [|exact Ll]. eapply follows_plain; [exact Ll|apply not_link; discriminate|constructor].
  - exists (PStr (codes "u")). split; [|left; reflexivity]. exists [codes "l"; codes "_inlink"]. split; [|exact Li].
    eapply follows_plain; [exact Ll|apply not_link; discriminate|]. eapply follows_plain; [exact Li|apply not_link; discriminate|constructor].
Qed.
End gal.
Ltac blk a b := apply (block_inline _ _ _ a b _ 115); [right; reflexivity|apply lit_unicode; reflexivity|at_tac|at_tac].
Lemma gal_laid : laid_image gal (key_of Global) 38 (gal_props 38).
Proof.
  exists 48, 197. split; [at_tac|]. split; [at_tac|].
  apply (list_at _ _ _ 50 51 197); [split; [vm_compute; split; congruence|at_tac]|].
  apply (entries_cons _ _ _ 51 54 90 197); [blk 51 54| |].
  { apply (value_ext _ _ _ 54 90 84 31); [lia|at_tac|reflexivity|]. apply (ext_canvas_plain _ _ _ 59 67 84 90 0); [blk 59 67|lia|lia|at_tac|].
    apply (canvas_at _ 69 70 71 72 74 75 2 1 2 0 0 0 40056 8); try lia; first [split; [lia|at_tac]|at_tac]. }
  apply (entries_cons _ _ _ 90 93 107 197); [blk 90 93| |].
  { apply (value_ext _ _ _ 93 107 107 9); [lia|at_tac|reflexivity|]. apply (ext_uol _ _ _ 98 103 107 107); [blk 98 103|blk 104 107]. }
  apply (entries_cons _ _ _ 107 110 158 197); [blk 107 110| |].
  { apply (value_ext _ _ _ 110 158 156 43); [lia|at_tac|reflexivity|]. apply (ext_canvas_kids _ _ _ 115 123 141 156 158); [blk 115 123|at_tac| |].
    - apply (list_at _ _ _ 127 128 141); [split; [vm_compute; split; congruence|at_tac]|].
      apply (entries_cons _ _ _ 128 137 141 141); [blk 128 137|apply value_str; [at_tac|blk 138 141]|constructor].
    - apply (canvas_at _ 141 142 143 144 146 147 1 1 2 0 0 0 40056 4); try lia; first [split; [lia|at_tac]|at_tac]. }
  apply (entries_cons _ _ _ 158 161 180 197); [blk 158 161| |].
  { apply (value_ext _ _ _ 161 180 177 14); [lia|at_tac|reflexivity|]. apply (ext_raw_plain _ _ _ 166 175 177 180 0 3); [blk 166 175|lia|lia|at_tac|lia|split; [lia|at_tac]]. }
  apply (entries_cons _ _ _ 180 183 197 197); [blk 180 183| |constructor].
  apply (value_ext _ _ _ 183 197 197 9); [lia|at_tac|reflexivity|]. apply (ext_uol _ _ _ 188 193 197 197); [blk 188 193|blk 194 197].
Qed.
Lemma gal_img_laid : laid_image gal_img (key_of Global) 0 (gal_props 0).
Proof.
  exists 10, 159. split; [at_tac|]. split; [at_tac|].
  apply (list_at _ _ _ 12 13 159); [split; [vm_compute; split; congruence|at_tac]|].
  apply (entries_cons _ _ _ 13 16 52 159); [blk 13 16| |].
  { apply (value_ext _ _ _ 16 52 46 31); [lia|at_tac|reflexivity|]. apply (ext_canvas_plain _ _ _ 21 29 46 52 0); [blk 21 29|lia|lia|at_tac|].
    apply (canvas_at _ 31 32 33 34 36 37 2 1 2 0 0 0 40056 8); try lia; first [split; [lia|at_tac]|at_tac]. }
  apply (entries_cons _ _ _ 52 55 69 159); [blk 52 55| |].
  { apply (value_ext _ _ _ 55 69 69 9); [lia|at_tac|reflexivity|]. apply (ext_uol _ _ _ 60 65 69 69); [blk 60 65|blk 66 69]. }
  apply (entries_cons _ _ _ 69 72 120 159); [blk 69 72| |].
  { apply (value_ext _ _ _ 72 120 118 43); [lia|at_tac|reflexivity|]. apply (ext_canvas_kids _ _ _ 77 85 103 118 120); [blk 77 85|at_tac| |].
    - apply (list_at _ _ _ 89 90 103); [split; [vm_compute; split; congruence|at_tac]|].
      apply (entries_cons _ _ _ 90 99 103 103); [blk 90 99|apply value_str; [at_tac|blk 100 103]|constructor].
    - apply (canvas_at _ 103 104 105 106 108 109 1 1 2 0 0 0 40056 4); try lia; first [split; [lia|at_tac]|at_tac]. }
  apply (entries_cons _ _ _ 120 123 142 159); [blk 120 123| |].
  { apply (value_ext _ _ _ 123 142 139 14); [lia|at_tac|reflexivity|]. apply (ext_raw_plain _ _ _ 128 137 139 142 0 3); [blk 128 137|lia|lia|at_tac|lia|split; [lia|at_tac]]. }
  apply (entries_cons _ _ _ 142 145 159 159); [blk 142 145| |constructor].
  apply (value_ext _ _ _ 145 159 159 9); [lia|at_tac|reflexivity|]. apply (ext_uol _ _ _ 150 155 159 159); [blk 150 155|blk 156 159].
Qed.
Lemma gal_package : package_under gal None None (key_of Global) 83 [(codes "Mob.img", CImage (gal_props 38))].
Proof.
  eapply package_classic with (r := Global) (t := codes "Mob.img") (h := mkHeader IV1 (zlen gal - 16) 16 18 (Some 172) 0 0 FNone) (kids := [(codes "Mob.img", TImage 38 (zlen gal - 38))]) (ds := [8; 3]) (p := 16);
    [vm_compute; reflexivity|reflexivity|reflexivity|lia|repeat split; try discriminate; repeat constructor; lia|vm_compute; reflexivity| | |vm_compute; repeat constructor; discriminate|discriminate|exact Logic.I|].
  - change (digit_hash 0 [8; 3]) with 1876. apply (DirWire.dir_at _ _ _ _ 18 19 38 1); [lia|split; [lia|at_tac]|].
    apply (ents_image _ _ _ _ 19 28 38 38 0 (codes "Mob.img") 38 (zlen gal - 38) 0x73);
      [apply head_inline; [apply lit_unicode; reflexivity|at_tac|at_tac]|wide_tail 34|auto|at_tac|constructor].
  - exists 19, 28, 1, 4. split; [split; [lia|at_tac]|]. split; [lia|]. split; [at_tac|]. split; [lia|at_tac].
  - apply stocked_image; [apply (not_text_img (codes "Mob"))|exact gal_laid|right; exact (conj (gal_tidy 38) (gal_simple 38))|constructor].
Qed.
Definition gal_world : world := snd (w_parse (iv_key (aes256 user_key)) chacha_block 40 (w_open (codes "Mob.wz") gal None None 83 []) 0 0).
Example C276_example :
  bytes gal /\ package_under gal None None (key_of Global) 83 [(codes "Mob.img", CImage (gal_props 38))] /\
  depicts (gal_props 38) [codes "u"] (Some (gal_c 38)) /\ depicts (gal_props 38) [codes "l"] (Some (gal_c 38)) /\
  holds_picture as_is false gal (key_of Global) (gal_c 38) [120; 156; 3; 4; 5; 6; 7; 8] 2 1 2 /\
  P_Portrait.seen gal_world (codes "Mob.img/u") = Ok [[3; 156; 120; 4]; [7; 6; 5; 8]] /\
  P_Portrait.seen gal_world (codes "Mob.img/l") = Ok [[3; 156; 120; 4]; [7; 6; 5; 8]] /\
  P_Portrait.seen gal_world (codes "Mob.img/q") = Err (EOther 70).
Proof.
  split; [apply bytes_check; vm_compute; reflexivity|]. split; [exact gal_package|]. split; [exact (gal_u 38)|]. split; [exact (gal_shows 38)|]. split; [|vm_compute; repeat split].
  do 7 eexists. split; [reflexivity|]. split; [reflexivity|]. split; [lia|]. split; [lia|]. split; [lia|]. split; [lia|]. split; [byte_list|].
  split; [apply (size_four 2); left; reflexivity|]. split; [as_they_are|unfold in_blocks; split; intros; lia].
Qed.
(** The bytes behind a path. *)
Definition bytes_behind (w : world) (path : list Z) : res (list Z) :=
  match w_at_path_parsed (iv_key (aes256 user_key)) chacha_block 40 w 0 path with
  | (Ok i, w1) => match w_thing w1 i with ThProp rr (ORaw a n) => raw_buffer rr a n | _ => Panic end
  | _ => Panic
  end.
Example C277_example :
  gets [(codes "Mob.img", CImage (gal_props 38))] [codes "Mob.img"; codes "q"] [codes "Mob.img"; codes "r"] (PlProp (gal_r 38)) /\
  at_ gal 177 180 [201; 202; 203] /\ bytes_behind gal_world (codes "Mob.img/q") = Ok [201; 202; 203].
Proof.
  split; [|split; [at_tac|vm_compute; reflexivity]].
  eapply gets_image; [named_at 0%nat| |apply gal_leads; cbn [gal_props In]; auto].
  eapply (follows_link _ _ _ [codes "r"]); [|apply (gal_route 38 _ (gal_r 38)); [|apply not_link; discriminate|discriminate]|constructor]; [|cbn [gal_props In]; auto 10].
  split; [discriminate|]. split; [plain_names|]. apply gal_leads. cbn [gal_props In]. auto 10.
Qed.

(** The same below the image of an image file, which asking for paths does not change. *)
Definition gives_image_pictures (st : list Z -> nat -> Z) (bl : list Z -> list Z -> Z -> list Z) (f : nat) (inflate : bool -> list Z -> Z -> option (list Z))
    (bc7 : list Z -> Z -> Z -> option (list Z)) (rayon : bool) (buf : list Z) (key : nat -> Z) (w : world) (props : list (list Z * prop)) : Prop :=
  forall past Q r, Q <> [] -> Forall (fun c => ~ In 47 c) Q -> depicts props Q r ->
  exists i, w_at_path_parsed st bl f (lookups st bl f w past) 0 (joined Q) = (Ok i, w) /\
    match r with
    | None => exists d0, forall d, (d0 <= d)%nat -> w_get_image st bl f inflate bc7 rayon d [] w i = (Err (EOther 70), w)
    | Some v => forall raw wd h fm, holds_picture inflate rayon buf key v raw wd h fm ->
        exists d0 l, (forall d, (d0 <= d)%nat -> w_get_image st bl f inflate bc7 rayon d [] w i = (Ok l, w)) /\ Pixel.picture wd h l (pixel_of fm raw wd)
    end.
Definition gives_image_data (st : list Z -> nat -> Z) (bl : list Z -> list Z -> Z -> list Z) (f : nat) (buf : list Z) (w : world) (props : list (list Z * prop)) : Prop :=
  forall past comps v, comps <> [] -> Forall (fun c => ~ In 47 c) comps -> comes_to props comps v ->
  exists i rr o, w_at_path_parsed st bl f (lookups st bl f w past) 0 (joined comps) = (Ok i, w) /\ w_thing w i = ThProp rr o /\
    match v with
    | PSound off size dur hoff => exists s, o = OSound s /\ forall header data, 0 <= hoff -> at_ buf hoff off header -> at_ buf off (off + size) data ->
        (zlen header = 70 /\ ~ (dur = 1000 /\ length_field buf hoff size) -> snd_buffer rr s = Ok (wav_file (firstn 16 (skipn 52 header)) data)) /\
        (zlen header <> 70 \/ (dur = 1000 /\ length_field buf hoff size) -> snd_buffer rr s = Ok data)
    | PRaw off size _ => exists a n, o = ORaw a n /\ forall data, at_ buf off (off + size) data -> raw_buffer rr a n = Ok data
    | PVideo off size => exists a n, o = OVideo a n /\ forall data, at_ buf off (off + size) data -> raw_buffer rr a n = Ok data
    | _ => True
    end.

Lemma good_fold f ok w props path st bl : good f ok w 0 props -> w_at_path_parsed st bl f w 0 path = w_fold st bl f w 0 (split_slash path).
Proof.
  intros (r & nm & off & size & c & _ & _ & H & K & _). unfold w_at_path_parsed. destruct (split_slash path) as [|n rest] eqn:E.
  - exfalso. clear - E. destruct path as [|x p]; cbn [split_slash] in E; [discriminate|]. destruct (x =? 47); [discriminate|]. destruct (split_slash p); discriminate.
  - cbn [w_fold]. unfold w_parse. rewrite H, K. reflexivity.
Qed.
Lemma good_lookups f ok w props st bl past : good f ok w 0 props -> lookups st bl f w past = w.
Proof.
  intro G. induction past as [|p past IH]; [reflexivity|]. unfold lookups in *. cbn [fold_left]. replace (snd (w_at_path_parsed st bl f w 0 p)) with w; [exact IH|].
  rewrite (good_fold f ok w props p st bl G). pose proof G as (r & nm & off & size & c & _ & _ & _ & _ & (_ & _ & _ & _ & _ & Nt) & _ & R).
  destruct (neat_total props Nt (split_slash p)) as [[Q Fo]|M].
  - destruct (proj1 (R _) Q Fo) as (j & z & _ & P & _). rewrite (proj2 (passes_fold _ _ _ _ P st bl f)). reflexivity.
  - rewrite (proj2 (passes_fold _ _ _ _ (proj2 (R _) M) st bl f)). reflexivity.
Qed.
Lemma image_file_good bl name buf r iv props : bytes buf -> zlen buf < 2 ^ 31 -> laid_image buf (iv_key (aes256 user_key) (region_iv r)) 0 props ->
  not_text name -> neat props -> iv = None \/ iv = Some (region_iv r) ->
  exists w0 f0, w_open_img (iv_key (aes256 user_key)) name buf iv = Ok w0 /\ forall f, (f0 <= f)%nat -> (0 < f)%nat /\ exists w,
    w_parse (iv_key (aes256 user_key)) bl f w0 0 0 = (Ok tt, w) /\ good f (eq (fresh_reader (iv_key (aes256 user_key)) buf (region_iv r))) w 0 props /\ clear w 0.
Proof.
  intros Hb Hs L Nt Ne Iv. set (st := iv_key (aes256 user_key)) in *. set (rd := fresh_reader st buf (region_iv r)).
  assert (O : image_open st buf iv = Ok (region_iv r)) by (eapply image_opened; eassumption).
  unfold w_open_img. rewrite O. cbn [rmap rbind]. fold rd.
  destruct (image_shows rd name (zlen buf) 0 props) as (f0 & kids & R); [exact Hs| |exact L|exact Nt|].
  { intro j. destruct (region_bytes r). apply iv_key_byte; auto. apply user_key_cipher. }
  eexists _, (S f0). split; [reflexivity|]. intros f Hf. split; [lia|]. destruct (R f ltac:(lia)) as (Sh & us & Im).
  set (w0 := fst (World.fresh (nowhere []) name (ThImage rd name 0 (zlen buf)) None)).
  assert (B : bounded w0). { intros j d. unfold w0, World.fresh, nowhere. cbn [fst w_heap w_next]. unfold Node.put. destruct (Z.eqb_spec j 0) as [->|_]; [intros _; reflexivity|discriminate]. }
  assert (W : waits f st bl (eq rd) w0 0 props).
  { exists name, (KImage false), None, rd, 0, (zlen buf), kids, us. split; [reflexivity|]. split; [reflexivity|]. split; [constructor|]. split; [reflexivity|]. auto. }
  destruct (image_parse f st bl (eq rd) no_shared ltac:(lia) w0 0 props B (or_introl W)) as (w & E & B1 & G & Go). exists w. split; [exact E|]. split; [exact Go|].
  eapply (clear_grows f st bl (eq rd)); [exact B|exact G|]. eapply clear_top; [reflexivity|reflexivity|]. intros (_ & b & K). discriminate K.
Qed.

(** C278: image files give the pictures their paths stand for. *)
Theorem C278_image_file_linked_pictures : forall inflate bc7 rayon bl name buf r iv props,
  bytes buf -> zlen buf < 2 ^ 31 -> laid_image buf (iv_key (aes256 user_key) (region_iv r)) 0 props ->
  not_text name -> neat props -> iv = None \/ iv = Some (region_iv r) ->
  exists w0 f0, w_open_img (iv_key (aes256 user_key)) name buf iv = Ok w0 /\ forall f, (f0 <= f)%nat -> exists w,
    w_parse (iv_key (aes256 user_key)) bl f w0 0 0 = (Ok tt, w) /\
    gives_image_pictures (iv_key (aes256 user_key)) bl f inflate bc7 rayon buf (iv_key (aes256 user_key) (region_iv r)) w props.
Proof.
  intros inflate bc7 rayon bl name buf r iv props Hb Hs L Nt Ne Iv. destruct (image_file_good bl name buf r iv props Hb Hs L Nt Ne Iv) as (w0 & f0 & O & P).
  exists w0, f0. split; [exact O|]. intros f Hf. destruct (P f Hf) as (F & w & E & Go & Cl). exists w. split; [exact E|].
  intros past Q v Nq Sl De. rewrite (good_lookups _ _ _ _ _ _ past Go), (good_fold _ _ _ _ _ _ _ Go), split_join by assumption.
  assert (Fo : exists X, follows props [] Q X) by (inversion De as [? Fo|? ? (X & Fo & _)|? ? ? ? (X & Fo & _)|? ? ? (X & Fo & _)|? ? (X & Fo & _)]; subst; eauto). destruct Fo as [X Fo].
  pose proof Go as (r0 & nm & off & size & c & Or0 & Ta & Ha & Ka & _ & _ & R). destruct (proj1 (R Q) X Fo) as (j & z & _ & Pj & _).
  destruct (passes_fold _ _ _ _ Pj (iv_key (aes256 user_key)) bl f) as [_ Fq]. exists j. split; [exact Fq|].
  destruct (depicted f F (iv_key (aes256 user_key)) bl _ inflate bc7 rayon w 0 props Go Cl Q v De j Pj []) as (d0 & x & Sh & G).
  destruct v as [v|]; cbn [shown_as] in Sh; [|subst x; eauto].
  intros raw wd h fm (f1 & f2 & pg & hd & of & sz & kids & -> & -> & Hf' & Hw & Hh & Hz & Hby & D & K & M & M3).
  destruct Sh as (rr & <- & ->).
  destruct (extract_picture inflate bc7 rayon (fresh_reader (iv_key (aes256 user_key)) buf (region_iv r)) (Png.mkPng of sz f1 f2 hd wd h) raw (zlen raw)) as (l & El & Pl);
    cbn [pg_fmt1 pg_fmt2 pg_w pg_h pg_off pg_size pg_header]; try assumption; try reflexivity.
  - cbn [fresh_reader rd_buf]. lia.
  - exists d0, l. split; [intros d Hd; rewrite (G d Hd), El; reflexivity|exact Pl].
Qed.
Print Assumptions C278_image_file_linked_pictures.

(** C279: and the data. *)
Theorem C279_image_file_linked_data : forall bl name buf r iv props,
  bytes buf -> zlen buf < 2 ^ 31 -> laid_image buf (iv_key (aes256 user_key) (region_iv r)) 0 props ->
  not_text name -> neat props -> iv = None \/ iv = Some (region_iv r) ->
  exists w0 f0, w_open_img (iv_key (aes256 user_key)) name buf iv = Ok w0 /\ forall f, (f0 <= f)%nat -> exists w,
    w_parse (iv_key (aes256 user_key)) bl f w0 0 0 = (Ok tt, w) /\ gives_image_data (iv_key (aes256 user_key)) bl f buf w props.
Proof.
  intros bl name buf r iv props Hb Hs L Nt Ne Iv. destruct (image_file_good bl name buf r iv props Hb Hs L Nt Ne Iv) as (w0 & f0 & O & P).
  exists w0, f0. split; [exact O|]. intros f Hf. destruct (P f Hf) as (F & w & E & Go & Cl). exists w. split; [exact E|].
  intros past Q v Nq Sl Cv. rewrite (good_lookups _ _ _ _ _ _ past Go), (good_fold _ _ _ _ _ _ _ Go), split_join by assumption.
  destruct (come_node f _ w 0 props Go Q v Cv) as (j & rr & o & sub & <- & Pj & Tj & Sh & _).
  destruct (passes_fold _ _ _ _ Pj (iv_key (aes256 user_key)) bl f) as [_ Fq]. eexists j, _, o. split; [exact Fq|]. split; [exact Tj|].
  set (rr := fresh_reader (iv_key (aes256 user_key)) buf (region_iv r)) in *. change buf with (rd_buf rr) in Hs |- *. destruct v; try exact I.
  - inversion Sh as [| | | | | | | | | | | | |? ? ? ? ty K| |]; subst. eexists. split; [reflexivity|]. intros header data H0 Hh Hd.
    destruct (C36_shown rr _ _ _ _ _ header data Sh H0 Hh Hd Hs) as (Bu & _ & Ty). split.
    + intro C. apply Ty in C. rewrite C in Bu. exact Bu.
    + intro C. destruct (snd_type _); [exact Bu| |exact Bu]. destruct Ty as [Ty _]. specialize (Ty eq_refl). tauto.
  - inversion Sh; subst. eexists _, _. split; [reflexivity|]. intros data Hd. apply C112_stored; [exact Hd|lia].
  - inversion Sh; subst. eexists _, _. split; [reflexivity|]. intros data Hd. apply C112_stored; [exact Hd|lia].
Qed.
Print Assumptions C279_image_file_linked_data.

(** [gal_img] as a file. *)
Definition gal_file : res world := w_open_img (iv_key (aes256 user_key)) (codes "Mob.img") gal_img None.
Definition gal_read : world := match gal_file with Ok w => snd (w_parse (iv_key (aes256 user_key)) chacha_block 40 w 0 0) | _ => nowhere [] end.
Example C278_example :
  bytes gal_img /\ laid_image gal_img (key_of Global) 0 (gal_props 0) /\ not_text (codes "Mob.img") /\ neat (gal_props 0) /\
  depicts (gal_props 0) [codes "l"] (Some (gal_c 0)) /\
  holds_picture as_is false gal_img (key_of Global) (gal_c 0) [120; 156; 3; 4; 5; 6; 7; 8] 2 1 2 /\
  P_Portrait.seen gal_read (codes "l") = Ok [[3; 156; 120; 4]; [7; 6; 5; 8]] /\ P_Portrait.seen gal_read (codes "q") = Err (EOther 70).
Proof.
  split; [apply bytes_check; vm_compute; reflexivity|]. split; [exact gal_img_laid|]. split; [apply (not_text_img (codes "Mob"))|]. split; [right; exact (conj (gal_tidy 0) (gal_simple 0))|].
  split; [exact (gal_shows 0)|]. split; [|vm_compute; repeat split].
  do 7 eexists. split; [reflexivity|]. split; [reflexivity|]. split; [lia|]. split; [lia|]. split; [lia|]. split; [lia|]. split; [byte_list|].
  split; [apply (size_four 2); left; reflexivity|]. split; [as_they_are|unfold in_blocks; split; intros; lia].
Qed.
Example C279_example :
  comes_to (gal_props 0) [codes "q"] (gal_r 0) /\ at_ gal_img 139 142 [201; 202; 203] /\ bytes_behind gal_read (codes "q") = Ok [201; 202; 203].
Proof.
  split; [|split; [at_tac|vm_compute; reflexivity]]. exists [codes "r"]. split; [|apply gal_leads; cbn [gal_props In]; auto].
  eapply (follows_link _ _ _ [codes "r"]); [|apply (gal_route 0 _ (gal_r 0)); [|apply not_link; discriminate|discriminate]|constructor]; [|cbn [gal_props In]; auto 10].
  split; [discriminate|]. split; [plain_names|]. apply gal_leads. cbn [gal_props In]. auto 10.
Qed.
