(** C136-C148: finding the string key of a file. *)
From Coq Require Import ZArith List Bool Lia ZifyBool ZifyNat.
From Coq Require String Ascii.
From Verif.Model Require Import Base Utf Keys Reader WzStr Header Directory Image Media Guess.
From Verif.Spec Require Import Wire Stream StrWire HeaderSpec Media PropWire DirWire Aes KeyFind.
From Verif.Proofs Require Import BaseL WireL KeysL StringL ReaderL StrWireL AtL MediaL StrictL ImageL GuessL.
From Verif.Props Require Import P_Media P_Header P_Strict.
Import ListNotations. Import String.StringSyntax.
Open Scope Z_scope.

Definition classic (h : header) : bool := match hd_ident h with IV1 => true | _ => false end.

Lemma header_kind buf h p : bytes buf -> read_header buf = Ok (h, p) -> hd_ident h = IV1 \/ hd_ident h = IV2.
Proof.
  intros B E. destruct (C16_header_sound buf h p B E) as [_ S]. destruct (hd_ident h), (hd_flags h); auto; contradiction.
Qed.
Lemma header_was buf h p : read_header buf = Ok (h, p) -> header_of buf = Ok h.
Proof. intro E. unfold header_of. rewrite E. reflexivity. Qed.
Lemma ascii_form t : plain_ascii t -> asc t = true.
Proof. intros [_ F]. apply forallb_forall. rewrite Forall_forall in F. intros x I. specialize (F x I). lia. Qed.

(** C136: a key is taken for the one the names of a package are written under exactly if it has the top bits of the
    right one, as far as the (ASCII) first name goes; otherwise there is an error. *)
Theorem C136_key_accepted : forall aes buf h p ks t iv,
  bytes buf -> zlen buf < 2 ^ 31 -> block_cipher aes -> (forall j, byte (ks j)) -> length iv = 4%nat -> bytes iv ->
  read_header buf = Ok (h, p) -> first_name (classic h) buf (hd_data_start h) (enc_str ks t) -> plain_ascii t ->
  (alike ks (iv_key aes iv) (length t) -> verify_decr (iv_key aes) buf (DEcb iv) = Ok tt) /\
  (~ alike ks (iv_key aes iv) (length t) -> exists e, verify_decr (iv_key aes) buf (DEcb iv) = Err e).
Proof.
  intros aes buf h p ks t iv Hb Hs Ha Hk Li Bi Hd Fn T. pose proof (ascii_form t T) as E. destruct T as [Tn Ta].
  pose proof (header_was _ _ _ Hd) as Hh.
  destruct (first_meta_ok (iv_key aes) buf h Hs Hh ks t Tn (header_kind _ _ _ Hb Hd) Fn) as (o & q & O & M).
  rewrite zlen_body, E in M. unfold body in O. rewrite E in O. unfold verify_decr. rewrite M. cbn [rbind].
  apply (verify_ascii (iv_key aes) buf h Hs Hh ks t o q iv); auto. intro j. apply iv_key_byte; auto.
Qed.
Print Assumptions C136_key_accepted.

(** C137: with no key given, the first of the three standard keys with the right top bits is taken. *)
Theorem C137_first_fitting : forall aes buf h p ks t pre r post,
  bytes buf -> zlen buf < 2 ^ 31 -> block_cipher aes -> (forall j, byte (ks j)) ->
  read_header buf = Ok (h, p) -> first_name (classic h) buf (hd_data_start h) (enc_str ks t) -> plain_ascii t ->
  [Open_; Global; Sea] = pre ++ r :: post ->
  Forall (fun r' => ~ alike ks (iv_key aes (region_iv r')) (length t)) pre ->
  alike ks (iv_key aes (region_iv r)) (length t) ->
  guess_decr (iv_key aes) buf = Ok (Some (DEcb (region_iv r))).
Proof.
  intros aes buf h p ks t pre r post Hb Hs Ha Hk Hd Fn T El N A. pose proof (ascii_form t T) as E. destruct T as [Tn Ta].
  pose proof (header_was _ _ _ Hd) as Hh.
  destruct (first_meta_ok (iv_key aes) buf h Hs Hh ks t Tn (header_kind _ _ _ Hb Hd) Fn) as (o & q & O & M).
  rewrite zlen_body, E in M. unfold body in O. rewrite E in O.
  assert (V : forall r, (alike ks (iv_key aes (region_iv r)) (length t) ->
                verify_with_meta (iv_key aes) buf (DEcb (region_iv r)) (mkMeta o (zlen t) SAscii) = Ok tt) /\
              (~ alike ks (iv_key aes (region_iv r)) (length t) ->
                exists e, verify_with_meta (iv_key aes) buf (DEcb (region_iv r)) (mkMeta o (zlen t) SAscii) = Err e)).
  { intro r'. destruct (region_bytes r') as [L B]. apply (verify_ascii (iv_key aes) buf h Hs Hh ks t o q); auto.
    intro j. apply iv_key_byte; auto. }
  unfold guess_decr. rewrite M. cbn [try_all sm_type].
  change (map decr_of_version [MBMS; MGMS; MEMS]) with (map (fun r => DEcb (region_iv r)) [Open_; Global; Sea]). rewrite El.
  clear El. induction N as [|x l X N IH]; cbn [app map first_verified].
  - rewrite (proj1 (V r) A). reflexivity.
  - destruct (proj2 (V x) X) as [e ->]. exact IH.
Qed.
Print Assumptions C137_first_fitting.

(** C138: with the actual block cipher key this finds the key of every package whose first name is ASCII, for Sea
    packages if the name has two characters or more. *)
Theorem C138_right_key_found : forall buf h p r t,
  bytes buf -> zlen buf < 2 ^ 31 -> read_header buf = Ok (h, p) ->
  first_name (classic h) buf (hd_data_start h) (enc_str (iv_key (aes256 user_key) (region_iv r)) t) ->
  plain_ascii t -> (r = Sea -> (2 <= length t)%nat) ->
  guess_decr (iv_key (aes256 user_key)) buf = Ok (Some (DEcb (region_iv r))).
Proof.
  intros buf h p r t Hb Hs Hd Fn T L.
  assert (L1 : (1 <= length t)%nat) by (destruct T as [T _]; destruct t; [congruence|cbn; lia]).
  set (k := fun r => iv_key (aes256 user_key) (region_iv r)).
  assert (D : forall r r' i, (i < length t)%nat -> (k r i / 128 =? k r' i / 128) = false -> ~ alike (k r) (k r') (length t)).
  { intros r1 r2 i Hi X A. specialize (A i Hi). lia. }
  assert (Go : forall pre post, [Open_; Global; Sea] = pre ++ r :: post -> Forall (fun r' => ~ alike (k r) (k r') (length t)) pre ->
    guess_decr (iv_key (aes256 user_key)) buf = Ok (Some (DEcb (region_iv r)))).
  { intros pre post El F. apply (C137_first_fitting (aes256 user_key) buf h p (k r) t pre r post Hb Hs user_key_cipher); auto; [|intros i _; reflexivity].
    intro j. destruct (region_bytes r). apply iv_key_byte; auto. apply user_key_cipher. }
  destruct r.
  - apply (Go [] [Global; Sea] eq_refl). constructor.
  - apply (Go [Open_] [Sea] eq_refl). constructor; [|constructor]. apply (D Global Open_ 0%nat L1). vm_compute. reflexivity.
  - specialize (L eq_refl). apply (Go [Open_; Global] [] eq_refl). constructor; [|constructor; [|constructor]].
    + apply (D Sea Open_ 0%nat L1). vm_compute. reflexivity.
    + apply (D Sea Global 1%nat L). vm_compute. reflexivity.
Qed.
Print Assumptions C138_right_key_found.

(** A small package with one image: header, version field, count, type, name, size, checksum, stored offset. *)
Definition small (ks : nat -> Z) (name : list Z) : list Z :=
  PKG1 ++ enc_le 8 40 ++ enc_le 4 16 ++ [125; 0] ++ [1; 4] ++ enc_str ks name ++ [9; 0; 1; 2; 3; 4; 115; 0; 0].
Definition key_of (r : region) := iv_key (aes256 user_key) (region_iv r).
Example C138_example :
  guess_decr (iv_key (aes256 user_key)) (small (key_of Sea) (codes "Mob.img")) = Ok (Some (DEcb [185; 125; 99; 233])) /\
  guess_decr (iv_key (aes256 user_key)) (small (key_of Global) (codes "a")) = Ok (Some (DEcb [77; 35; 199; 43])) /\
  guess_decr (iv_key (aes256 user_key)) (small (key_of Open_) (codes "Mob.img")) = Ok (Some (DEcb [0; 0; 0; 0])) /\
  verify_decr (iv_key (aes256 user_key)) (small (key_of Sea) (codes "Mob.img")) (DEcb [185; 125; 99; 233]) = Ok tt /\
  verify_decr (iv_key (aes256 user_key)) (small (key_of Sea) (codes "Mob.img")) (DEcb [1; 2; 3; 4]) = Err EUtf8.
Proof. vm_compute. repeat split. Qed.

Ltac byte_list := apply Forall_forall; let x := fresh in let I := fresh in intros x I; unfold byte; cbv in I; repeat (destruct I as [<-|I]; [lia|]); contradiction.
Ltac stands b i j := exists (firstn i b), (skipn j b); split; [vm_compute; reflexivity|split; reflexivity].

(** C139: a Sea package whose first name has one character is taken for a Global one (C138 without the condition
    on the length is false). *)
Definition short_sea := Eval vm_compute in small (key_of Sea) (codes "a").
Theorem C139_short_sea_name_refuted : exists buf h p t,
  bytes buf /\ zlen buf < 2 ^ 31 /\ read_header buf = Ok (h, p) /\
  first_name (classic h) buf (hd_data_start h) (enc_str (iv_key (aes256 user_key) (region_iv Sea)) t) /\ plain_ascii t /\
  guess_decr (iv_key (aes256 user_key)) buf = Ok (Some (DEcb (region_iv Global))).
Proof.
  exists short_sea, (mkHeader IV1 40 16 18 (Some 125) 0 0 FNone), 16, (codes "a").
  split; [byte_list|]. split; [reflexivity|]. split; [vm_compute; reflexivity|]. split.
  - exists 19, 22, 1, 4. split; [|split; [|split; [|split]]].
    + split; [lia|]. stands short_sea 18%nat 19%nat.
    + lia.
    + stands short_sea 19%nat 20%nat.
    + now right.
    + stands short_sea 20%nat 22%nat.
  - split; [split; [discriminate|repeat constructor; vm_compute; congruence]|]. vm_compute. reflexivity.
Qed.
Print Assumptions C139_short_sea_name_refuted.

(** C140: a first name that is not ASCII text is read rightly under the right key, which [verify_iv_from_wz_file] takes;
    the check made when a package is opened refuses that key. *)
Theorem C140_foreign_name : forall aes buf h p iv t,
  bytes buf -> zlen buf < 2 ^ 31 -> block_cipher aes -> length iv = 4%nat -> bytes iv ->
  read_header buf = Ok (h, p) -> first_name (classic h) buf (hd_data_start h) (enc_str (iv_key aes iv) t) ->
  unicode t -> Exists (fun c => 128 <= c) t ->
  verify_iv_file (iv_key aes) buf iv = Ok tt /\ verify_decr (iv_key aes) buf (DEcb iv) = Err EDecrypt.
Proof.
  intros aes buf h p iv t Hb Hs Ha Li Bi Hd Fn U Ex.
  assert (E : asc t = false).
  { destruct (asc t) eqn:E; [|reflexivity]. unfold asc in E. rewrite forallb_forall in E. apply Exists_exists in Ex.
    destruct Ex as (c & I & C). specialize (E c I). lia. }
  assert (Tn : t <> []) by (intros ->; inversion Ex).
  pose proof (header_was _ _ _ Hd) as Hh.
  destruct (first_meta_ok (iv_key aes) buf h Hs Hh (iv_key aes iv) t Tn (header_kind _ _ _ Hb Hd) Fn) as (o & q & O & M).
  rewrite E in M. unfold body in O, M. rewrite E in O, M.
  assert (K : forall j, byte (iv_key aes iv j)) by (intro j; apply iv_key_byte; auto).
  pose proof (at_len _ _ _ _ O) as Lq. subst q.
  destruct (C135_guarded (reader_of (iv_key aes) buf (DEcb iv)) SUnicode o (zlen (body_unicode (iv_key aes iv) (units16 t))) _ O
              ltac:(cbn [reader_of rd_buf]; pows; lia) (at_bytes _ _ _ _ Hb O) K K) as [G _].
  { intros _. unfold zlen. rewrite body_unicode_length, Nat2Z.inj_mul, Z.even_mul. reflexivity. }
  specialize (G t). destruct G as [_ G]. specialize (G (conj U eq_refl)).
  unfold verify_iv_file, verify_decr, verify_with_meta. rewrite M, Hh. cbn [rbind sm_type sm_off sm_len]. rewrite G. cbn [rbind].
  split; [reflexivity|]. change (is_ascii t) with (asc t). rewrite E. reflexivity.
Qed.
Print Assumptions C140_foreign_name.

Example C140_example :
  verify_decr (iv_key (aes256 user_key)) (small (key_of Global) [54620; 44397]) (DEcb (region_iv Global)) = Err EDecrypt /\
  verify_iv_file (iv_key (aes256 user_key)) (small (key_of Global) [54620; 44397]) (region_iv Global) = Ok tt.
Proof. vm_compute. split; reflexivity. Qed.

(** C141: it is not true that the right key is always found: with a first name that is not ASCII text none is. *)
Definition foreign := Eval vm_compute in small (key_of Global) [54620; 44397].
Theorem C141_key_found_refuted : exists buf h p r t,
  bytes buf /\ zlen buf < 2 ^ 31 /\ read_header buf = Ok (h, p) /\
  first_name (classic h) buf (hd_data_start h) (enc_str (iv_key (aes256 user_key) (region_iv r)) t) /\ unicode t /\ (2 <= length t)%nat /\
  guess_decr (iv_key (aes256 user_key)) buf = Ok None.
Proof.
  exists foreign, (mkHeader IV1 40 16 18 (Some 125) 0 0 FNone), 16, Global, [54620; 44397].
  split; [byte_list|]. split; [reflexivity|]. split; [vm_compute; reflexivity|]. split.
  - exists 19, 25, 1, 4. split; [|split; [|split; [|split]]].
    + split; [lia|]. stands foreign 18%nat 19%nat.
    + lia.
    + stands foreign 19%nat 20%nat.
    + now right.
    + stands foreign 20%nat 25%nat.
  - split; [repeat constructor; lia|]. split; [cbn; lia|]. vm_compute. reflexivity.
Qed.
Print Assumptions C141_key_found_refuted.

(** C142: an image is accepted under an IV exactly if it says "Property" after its first byte under that key; there is
    always an answer. *)
Theorem C142_image_accepted : forall st buf iv,
  bytes buf -> zlen buf < 2 ^ 31 -> (forall j, byte (st iv j)) ->
  (verify_img st buf iv = Ok true <-> exists q l, says_property (st iv) l /\ at_ buf 1 q l) /\
  (verify_img st buf iv = Ok true \/ verify_img st buf iv = Ok false).
Proof.
  intros st buf iv Hb Hs K. set (r := mkRd buf (st iv) (st iv)). pose proof (property_iff r Hb Hs K) as P.
  change (rd_ks r) with (st iv) in P. change (rd_buf r) with buf in P. rewrite <- P. clear P.
  unfold verify_img. fold r. pose proof (good_read_string r 1) as G.
  destruct (fst (read_wz_string r 1)) as [t|e| |]; try contradiction.
  - change (txt "Property") with (codes "Property"). pose proof (text_eqb_eq t (codes "Property")) as E.
    destruct (text_eqb t (codes "Property")); split; auto.
    + split; intros _; [|reflexivity]. f_equal. apply E. reflexivity.
    + split; intro X; [discriminate X|]. injection X as X. apply E in X. discriminate X.
  - split; [|right; reflexivity]. split; discriminate.
Qed.
Print Assumptions C142_image_accepted.

(** An image: kind, the word "Property", an empty list. *)
Definition image_file (ks : nat -> Z) : list Z := 115 :: enc_str ks (codes "Property") ++ [0; 0; 0; 0; 0].
Example C142_example :
  verify_img (iv_key (aes256 user_key)) (image_file (key_of Sea)) (region_iv Sea) = Ok true /\
  verify_img (iv_key (aes256 user_key)) (image_file (key_of Sea)) (region_iv Open_) = Ok false /\
  verify_img (fun _ _ => 0) (115 :: 127 :: enc_le 4 (2 ^ 31 + 8) ++ body_unicode (fun _ => 0) (codes "Property")) [] = Ok true.
Proof. vm_compute. repeat split. Qed.

(** C143: without an IV an image file is opened exactly if it starts like a property image under one of the three standard
    keys, and that key is taken; with an IV exactly if it fits that one. *)
Theorem C143_image_opened : forall buf iv b,
  bytes (b :: buf) -> zlen (b :: buf) < 2 ^ 31 ->
  let st := iv_key (aes256 user_key) in
  (image_open st (b :: buf) None = Ok iv <->
     b = 115 /\ exists r q l, iv = region_iv r /\ says_property (st iv) l /\ at_ (b :: buf) 1 q l) /\
  (forall r iv', image_open st (b :: buf) (Some (region_iv r)) = Ok iv' <->
     iv' = region_iv r /\ exists q l, says_property (st iv') l /\ at_ (b :: buf) 1 q l).
Proof.
  intros buf iv b Hb Hs st.
  assert (V : forall r, (verify_img st (b :: buf) (region_iv r) = Ok true <-> exists q l, says_property (st (region_iv r)) l /\ at_ (b :: buf) 1 q l) /\
    (verify_img st (b :: buf) (region_iv r) = Ok true \/ verify_img st (b :: buf) (region_iv r) = Ok false)).
  { intro r. apply C142_image_accepted; auto. intro j. destruct (region_bytes r). apply iv_key_byte; auto. apply user_key_cipher. }
  assert (D : forall r r' q q' l l', says_property (st (region_iv r)) l -> says_property (st (region_iv r')) l' ->
    at_ (b :: buf) 1 q l -> at_ (b :: buf) 1 q' l' -> r = r').
  { intros r r' q q' l l' S S' A A'. pose proof (says_start _ _ _ _ _ _ _ S S' A A') as E.
    assert (N : (st (region_iv r) 0%nat =? st (region_iv r') 0%nat) = true) by (rewrite E; apply Z.eqb_refl). clear E.
    destruct r, r'; try reflexivity; vm_compute in N; discriminate N. }
  split.
  - unfold image_open, guess_img. change 0x73 with 115. destruct (Z.eqb_spec b 115) as [E|E]; cbn [negb rbind].
    2: { split; [discriminate|]. intros [X _]. congruence. }
    change (map iv_of_version [MGMS; MEMS; MBMS]) with (map region_iv [Global; Sea; Open_]).
    assert (L : forall rs, (forall r, iv = region_iv r -> In r rs \/ verify_img st (b :: buf) iv = Ok false) ->
      (rbind (first_img_iv st (b :: buf) (map region_iv rs)) (fun o => match o with Some iv => Ok iv | None => Err (EOther 40) end) = Ok iv <->
       exists r, iv = region_iv r /\ verify_img st (b :: buf) iv = Ok true)).
    { induction rs as [|x rs IH]; intro C; cbn [map first_img_iv].
      - split; [discriminate|]. intros (r & Er & X). destruct (C r Er) as [[]|Y]. congruence.
      - destruct (V x) as [Vx [T|F]]; [rewrite T|rewrite F]; cbn [rbind].
        + split.
          * intro X. injection X as <-. exists x. auto.
          * intros (r & -> & X). f_equal. f_equal. apply V in X. apply V in T. destruct X as (q & l & S & A), T as (q' & l' & S' & A').
            apply (D x r q' q l' l); assumption.
        + apply IH. intros r ->. destruct (C r eq_refl) as [[->|I]|Y]; [right; exact F|left; exact I|right; exact Y]. }
    rewrite L; [|intros r _; left; destruct r; cbn; auto]. split.
    + intros (r & -> & X). split; [exact E|]. apply V in X. destruct X as (q & l & S & A). exists r, q, l. auto.
    + intros (_ & r & q & l & -> & S & A). exists r. split; [reflexivity|]. apply V. eauto.
  - intros r iv'. unfold image_open. destruct (V r) as [Vr [T|F]]; [rewrite T|rewrite F]; cbn [rbind].
    + split.
      * intro X. injection X as <-. split; [reflexivity|]. apply V, T.
      * intros [-> _]. reflexivity.
    + split; [discriminate|]. intros (-> & X). apply V in X. congruence.
Qed.
Print Assumptions C143_image_opened.

Example C143_example :
  image_open (iv_key (aes256 user_key)) (image_file (key_of Sea)) None = Ok (region_iv Sea) /\
  image_open (iv_key (aes256 user_key)) (image_file (key_of Global)) None = Ok (region_iv Global) /\
  image_open (iv_key (aes256 user_key)) (image_file (key_of Open_)) None = Ok (region_iv Open_) /\
  image_open (iv_key (aes256 user_key)) (image_file (key_of Sea)) (Some (region_iv Global)) = Err EWrongVersion.
Proof. vm_compute. repeat split. Qed.

(** C144: looking for the key never panics, whatever the file holds (an image file must hold something); guessing never
    fails, it finds a key or none. *)
Theorem C144_no_panic : forall st buf d iv b o,
  (exists x, guess_decr st buf = Ok x) /\ (exists x, guess_iv_file st buf = Ok x) /\ (exists x, guess_img st (b :: buf) = Ok x) /\
  (verify_decr st buf d = Ok tt \/ exists e, verify_decr st buf d = Err e) /\
  (verify_iv_file st buf iv = Ok tt \/ exists e, verify_iv_file st buf iv = Err e) /\
  ((exists x, image_open st (b :: buf) o = Ok x) \/ (exists e, image_open st (b :: buf) o = Err e)).
Proof.
  intros st buf d iv b o.
  assert (G : exists x, guess_img st (b :: buf) = Ok x).
  { unfold guess_img. destruct (negb _); [eexists; reflexivity|]. apply first_img_good. }
  split; [|split; [|split; [exact G|split; [|split]]]].
  - assert (F : forall m ds, good_meta m -> exists x, try_all st buf m ds = Ok x).
    { intros m ds M. pose proof (try_all_good st buf m ds M) as T. destruct (try_all st buf m ds) eqn:E; try contradiction; [eexists; reflexivity|].
      exfalso. clear T. destruct M as [M _]. destruct m as [m|e'| |]; try contradiction; try discriminate E. cbn [try_all] in E.
      assert (V : forall ds, first_verified st buf m ds <> Err e).
      { clear E ds. induction ds as [|y l IH]; cbn [first_verified]; [discriminate|]. destruct (verify_with_meta st buf y m); try discriminate. exact IH. }
      destruct (sm_type m); try exact (V _ E). discriminate E. }
    unfold guess_decr. destruct (F (first_meta buf) (map decr_of_version [MBMS; MGMS; MEMS]) (first_meta_good buf)) as [x ->]. cbn [rbind].
    destruct x; [eexists; reflexivity|]. apply F, first_pkg2_good.
  - unfold guess_iv_file. induction (map iv_of_version _) as [|y l IH]; [eexists; reflexivity|]. cbn [first_file_iv].
    pose proof (verify_iv_good st buf y) as V. destruct (verify_iv_file st buf y); try contradiction; [eexists; reflexivity|exact IH].
  - pose proof (verify_good st buf d) as V. destruct (verify_decr st buf d) as [[]|e| |]; try contradiction; [now left|right; eauto].
  - pose proof (verify_iv_good st buf iv) as V. destruct (verify_iv_file st buf iv) as [[]|e| |]; try contradiction; [now left|right; eauto].
  - unfold image_open. destruct o as [iv'|].
    + destruct (verify_img_good st (b :: buf) iv') as [[] ->]; cbn [rbind]; [left|right]; eexists; reflexivity.
    + destruct G as [[x|] ->]; cbn [rbind]; [left|right]; eexists; reflexivity.
Qed.
Print Assumptions C144_no_panic.

Example C144_example :
  guess_decr (fun _ _ => 7) [80; 75; 71; 49; 1] = Ok None /\ verify_decr (fun _ _ => 7) [] pkg2_default = Err ERead /\
  image_open (fun _ _ => 7) [115; 200] None = Err (EOther 40).
Proof. vm_compute. repeat split. Qed.

(** C145: opening an image file of no bytes without an IV panics. *)
Theorem C145_empty_image_refuted : exists buf, forall st, image_open st buf None = Panic.
Proof. exists []. reflexivity. Qed.
Print Assumptions C145_empty_image_refuted.

(** C146: images that are scripts or texts, which are read well inside a package, cannot be opened as files, with any
    IV or without. *)
Definition script_file : list Z := 1 :: 5 :: codes "a = 1".
Definition text_file : list Z := codes "#Property" ++ codes "a = 1".
Theorem C146_other_images_refuted : exists buf1 buf2,
  (forall ks, image_children 9 (mkRd buf1 ks ks) (codes "a.lua") 0 (zlen buf1) = Ok ([(codes "Script", Node (OLua 2 5) [])], [])) /\
  (forall ks, image_children 9 (mkRd buf2 ks ks) (codes "a.img") 0 (zlen buf2) = Ok ([(codes "text.txt", Node (ORaw 9 5) [])], [])) /\
  forall st buf, buf = buf1 \/ buf = buf2 ->
    image_open st buf None = Err (EOther 40) /\ forall iv, image_open st buf (Some iv) = Err EWrongVersion.
Proof.
  exists script_file, text_file. split; [intro; vm_compute; reflexivity|]. split; [intro; vm_compute; reflexivity|].
  intros st buf [-> | ->]; (split; [|intro]; vm_compute; reflexivity).
Qed.
Print Assumptions C146_other_images_refuted.

(** C147: the fixed key of package-2 names (KMST 1198) is found if the first name is ASCII text of 8 to 127 characters. *)
Theorem C147_package2_key_found : forall buf h p t,
  bytes buf -> zlen buf < 2 ^ 31 -> read_header buf = Ok (h, p) -> hd_ident h = IV2 ->
  first_name false buf (hd_data_start h) (enc_pkg2_name (number_key 0xDEADBEEF) t) -> plain_ascii t -> 8 <= zlen t <= 127 ->
  guess_decr (iv_key (aes256 user_key)) buf = Ok (Some (DPkg2 (pkg2_keys 0xDEADBEEF))).
Proof.
  intros buf h p t Hb Hs Hd Id (a & q & n & ty & I & _ & A & T & B) [Tn Ta] L. pose proof (header_was _ _ _ Hd) as Hh.
  assert (U16 : units16 t = t) by (apply ascii_unicode, Ta).
  unfold enc_pkg2_name in B. rewrite U16 in B. fold (zlen t) in B. set (ks := number_key 0xDEADBEEF) in *.
  apply at_cons in B. destruct B as [B0 B]. pose proof (at_len _ _ _ _ B) as Lq.
  assert (Lb : zlen (body_pkg2 ks t) = 2 * zlen t) by (unfold zlen; rewrite body_pkg2_length; lia).
  rewrite Lb in Lq. subst q. set (o := a + 1 + 1) in *.
  pose proof (at_range _ _ _ _ B) as (R1 & _ & R2).
  assert (K8 : forall r j, byte (iv_key (aes256 user_key) (region_iv r) j)).
  { intros r j. destruct (region_bytes r). apply iv_key_byte; auto. apply user_key_cipher. }
  (* the name taken for ASCII *)
  assert (I8 : read_i8 (plain_rd buf) (a + 1) = (Ok (- zlen t), a + 2)).
  { replace (a + 2) with (a + 1 + 1) by lia. apply (at_i8 (plain_rd buf) Hs (a + 1) _ (- zlen t) ltac:(lia)).
    replace (- zlen t mod 256) with (256 - zlen t); [exact B0|]. apply (Z.mod_unique _ _ (-1)); lia. }
  assert (Wt : wrap 64 (a + 2 + zlen t) = a + 2 + zlen t) by (apply wrap_small; pows; lia).
  assert (M : first_meta buf = Ok (mkMeta o (zlen t) SAscii)).
  { apply (first_meta_gen (iv_key (aes256 user_key)) buf h Hs Hh a (o + zlen t) n ty); auto; [congruence|].
    unfold read_wz_string_meta. rewrite (bind_ok _ _ _ _ _ I8). unfold string_type.
    replace (- zlen t =? 0) with false by lia. replace (0 <? - zlen t) with false by lia. replace (- zlen t =? -128) with false by lia.
    rewrite Z.opp_involutive. unfold bind, get_pos, skip, ret. rewrite Wt. unfold o. replace (a + 1 + 1) with (a + 2) by lia. reflexivity. }
  assert (Bh : exists l, at_ buf o (o + zlen l) l /\ zlen l = zlen t /\ nth_error l 0 = Some (Z.lxor (nth 0 t 0) 239) /\ nth_error l 7 = Some 0).
  { rewrite <- (firstn_skipn (length t) (body_pkg2 ks t)) in B. apply at_split in B. destruct B as [B _]. eexists. split; [exact B|].
    split; [unfold zlen; rewrite firstn_length, body_pkg2_length; lia|]. unfold zlen in L. clear - L Ta.
    assert (N3 : 0 <= nth 3 t 0 < 128 /\ 0 <= nth 0 t 0 < 128) by (rewrite Forall_forall in Ta; split; apply Ta, nth_In; lia).
    destruct t as [|c0 [|c1 [|c2 [|c3 [|c4 [|c5 [|c6 [|c7 t]]]]]]]]; try (cbn in L; lia). cbn [nth] in N3.
    unfold body_pkg2. cbn [length seq flat_map app firstn nth_error nth].
    rewrite (Z.div_small c3 256), (Z.mod_small c0 256) by lia. split; [f_equal; f_equal; vm_compute; reflexivity|vm_compute; reflexivity]. }
  destruct Bh as (l & Bl & Ll & N0 & N7).
  assert (C0 : 0 <= nth 0 t 0 < 128) by (rewrite Forall_forall in Ta; apply Ta, nth_In; unfold zlen in L; lia).
  assert (V : forall r, exists e, verify_with_meta (iv_key (aes256 user_key)) buf (DEcb (region_iv r)) (mkMeta o (zlen t) SAscii) = Err e).
  { intro r. rewrite <- Ll.
    assert (G : forall i x, nth_error l i = Some x -> 128 <= resolve_ascii_char (Z.lxor x (iv_key (aes256 user_key) (region_iv r) i)) i ->
      exists e, verify_with_meta (iv_key (aes256 user_key)) buf (DEcb (region_iv r)) (mkMeta o (zlen l) SAscii) = Err e).
    { intros i x N Big. apply (verify_bad _ buf h _ o _ l i x Hs Hh Bl (at_bytes _ _ _ _ Hb Bl) (K8 r) N Big). }
    assert (Hi : forall c k, 0 <= c < 128 -> byte k -> k / 128 = 1 -> 128 <= Z.lxor c k).
    { intros c k C K E. pose proof (cross_high c 0 k C ltac:(unfold byte; lia) K) as X. rewrite Z.lxor_0_l in X.
      pose proof (lxor_byte c k ltac:(unfold byte; lia) K) as Y. unfold byte in Y. change (0 / 128) with 0 in X.
      destruct (Z_lt_le_dec (Z.lxor c k) 128); [|assumption]. assert (0 = k / 128) by (apply X; lia). lia. }
    assert (H0 : forall k, iv_key (aes256 user_key) (region_iv r) 0 = k -> byte (Z.lxor (Z.lxor 239 k) 170) -> Z.lxor (Z.lxor 239 k) 170 / 128 = 1 ->
      128 <= resolve_ascii_char (Z.lxor (Z.lxor (nth 0 t 0) 239) (iv_key (aes256 user_key) (region_iv r) 0)) 0).
    { intros k E Kb Kh. unfold resolve_ascii_char. rewrite E. change (wrap 8 (wrap 8 (Z.of_nat 0) + 0xAA)) with 170.
      rewrite !Z.lxor_assoc. rewrite <- (Z.lxor_assoc 239). apply Hi; assumption. }
    destruct r.
    - apply (G 7%nat 0 N7). vm_compute. congruence.
    - apply (G 0%nat _ N0). apply (H0 150); [vm_compute; reflexivity|unfold byte; vm_compute; intuition congruence|reflexivity].
    - apply (G 0%nat _ N0). apply (H0 171); [vm_compute; reflexivity|unfold byte; vm_compute; intuition congruence|reflexivity]. }
  assert (First : try_all (iv_key (aes256 user_key)) buf (first_meta buf) (map decr_of_version [MBMS; MGMS; MEMS]) = Ok None).
  { rewrite M. change (map decr_of_version [MBMS; MGMS; MEMS]) with (map (fun r => DEcb (region_iv r)) [Open_; Global; Sea]).
    cbn [try_all sm_type]. induction [Open_; Global; Sea] as [|x rs IH]; [reflexivity|]. cbn [map first_verified].
    destruct (V x) as [e ->]. exact IH. }
  unfold guess_decr. rewrite First. cbn [rbind]. clear First V.
  (* the name read as it is meant *)
  assert (M2 : first_pkg2_meta buf = Ok (mkMeta o (2 * zlen t) SPkg2Dir)).
  { unfold first_pkg2_meta. rewrite Hh. cbn [rbind]. rewrite Id.
    rewrite (bind_ok _ _ _ _ _ (at_wzint (plain_rd buf) Hs _ _ _ I)).
    destruct (at_u8 (plain_rd buf) Hs _ _ ty ltac:(lia) A) as [U _]. rewrite (bind_ok _ _ _ _ _ U).
    replace (ty =? 128) with false by lia. unfold read_pkg2_dir_meta. rewrite (bind_ok _ _ _ _ _ I8).
    replace (0 <=? - zlen t) with false by lia. rewrite Z.opp_involutive, (sext_small 8), (wrap_small 64 (zlen t)), (wrap_small 64 (zlen t * 2)), (wrap_small 32) by (pows; lia).
    unfold bind, get_pos, skip, ret. cbn [fst]. unfold o. f_equal. f_equal; lia. }
  rewrite M2. cbn [try_all sm_type map decr_of_version first_verified key_of_version].
  set (d := DPkg2 (pkg2_keys 0xDEADBEEF)).
  assert (Kd : forall j, rd_pks (reader_of (iv_key (aes256 user_key)) buf d) j = ks j).
  { intro j. cbn [reader_of rd_pks d]. apply number_key_eq. split; [discriminate|reflexivity]. }
  assert (Kb : forall j, byte (ks j)) by (intro j; unfold ks, number_key, byte; apply Z.mod_pos_bound; lia).
  destruct (C135_guarded (reader_of (iv_key (aes256 user_key)) buf d) SPkg2Dir o (2 * zlen t) _ B
              ltac:(change (zlen buf < 2 ^ 63); pows; lia) (at_bytes _ _ _ _ Hb B)) as [G _].
  { apply (K8 Open_). }
  { intro j. rewrite Kd. apply Kb. }
  { intros _. rewrite Z.even_mul. reflexivity. }
  specialize (G t). destruct G as [_ G].
  unfold verify_with_meta. rewrite Hh. cbn [rbind sm_type sm_off sm_len]. rewrite G.
  - cbn [rbind]. rewrite (ascii_form t (conj Tn Ta) : is_ascii t = true). reflexivity.
  - split; [apply ascii_unicode, Ta|]. rewrite U16. unfold body_pkg2. apply flat_map_ext. intro i. rewrite !Kd. reflexivity.
Qed.
Print Assumptions C147_package2_key_found.

(** A small package-2 package: header with two hashes, count, type, name and some more. *)
Definition small2 (name : list Z) : list Z :=
  PKG2 ++ enc_le 8 60 ++ enc_le 4 16 ++ enc_le 4 77 ++ enc_le 4 99 ++ [1; 4] ++ enc_pkg2_name (number_key 0xDEADBEEF) name ++ [9; 0; 1; 2; 3; 4; 115; 0; 0].
Example C147_example :
  guess_decr (iv_key (aes256 user_key)) (small2 (codes "Mob00000.img")) = Ok (Some (DPkg2 [239; 190; 190; 173; 173; 222; 222; 0])).
Proof. vm_compute. reflexivity. Qed.

(** C148: shorter names are taken for names that are not enciphered at all (C147 for all ASCII names is false). *)
Definition short2 := Eval vm_compute in small2 (codes "Mob.img").
Theorem C148_short_package2_name_refuted : exists buf h p t,
  bytes buf /\ zlen buf < 2 ^ 31 /\ read_header buf = Ok (h, p) /\ hd_ident h = IV2 /\
  first_name false buf (hd_data_start h) (enc_pkg2_name (number_key 0xDEADBEEF) t) /\ plain_ascii t /\ zlen t = 7 /\
  guess_decr (iv_key (aes256 user_key)) buf = Ok (Some (DEcb (region_iv Open_))).
Proof.
  exists short2, (mkHeader IV2 60 16 24 None 77 99 FNone), 16, (codes "Mob.img").
  split; [byte_list|]. split; [reflexivity|]. split; [vm_compute; reflexivity|]. split; [reflexivity|]. split.
  - exists 25, 41, 1, 4. split; [|split; [|split; [|split]]].
    + split; [lia|]. stands short2 24%nat 25%nat.
    + discriminate.
    + stands short2 25%nat 26%nat.
    + now right.
    + stands short2 26%nat 41%nat.
  - split; [split; [discriminate|repeat constructor; vm_compute; congruence]|]. split; [reflexivity|]. vm_compute. reflexivity.
Qed.
Print Assumptions C148_short_package2_name_refuted.
