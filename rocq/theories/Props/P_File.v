(** C149-C161: package files from their bytes to their trees. *)
From Coq Require Import ZArith List Bool Sorted Lia ZifyBool ZifyNat.
From Coq Require String Ascii.
From Verif.Model Require Import Base Utf Keys Reader WzStr Header Offset VersionPkg1 VersionPkg2 Directory Image Media Guess File.
From Verif.Spec Require Import Wire Stream StrWire HeaderSpec Version Media PropWire DirWire DirView DirWire2 Aes KeyFind.
From Verif.Proofs Require Import OpenL BaseL WireL KeysL StringL ReaderL StrWireL HeaderL AtL DirL MediaL StrictL VersionL Pkg1L ImageL GuessL FileL EncL.
From Verif.Props Require Import P_Media P_Header P_Strict P_Version P_Directory P_Guess.
Import ListNotations. Import String.StringSyntax.
Open Scope Z_scope.

(** What the caller may offer for a package written under the key [ks], with a first name of [n] characters: nothing,
    the right IV, or one that does not fit. *)
Definition offered (aes : list Z -> list Z) (ks : nat -> Z) (n : nat) (right : list Z) (iv : option (list Z)) (existing : option decr) : Prop :=
  match existing, iv with
  | None, None => True
  | None, Some x | Some (DEcb x), _ =>
    length x = 4%nat /\ bytes x /\ (x = right \/ ~ alike ks (iv_key aes x) n)
  | Some (DPkg2 _), _ => False
  end.

Lemma opened buf h p r t iv existing : bytes buf -> zlen buf < 2 ^ 31 -> read_header buf = Ok (h, p) ->
  first_name (classic h) buf (hd_data_start h) (enc_str (iv_key (aes256 user_key) (region_iv r)) t) ->
  plain_ascii t -> (r = Sea -> (2 <= length t)%nat) ->
  offered (aes256 user_key) (iv_key (aes256 user_key) (region_iv r)) (length t) (region_iv r) iv existing ->
  open_file (iv_key (aes256 user_key)) buf iv existing = Ok (true, DEcb (region_iv r)).
Proof.
  intros Hb Hs Hd Fn T Hr Of. pose proof (C138_right_key_found buf h p r t Hb Hs Hd Fn T Hr) as G.
  assert (K : forall j, byte (iv_key (aes256 user_key) (region_iv r) j)).
  { intro j. destruct (region_bytes r). apply iv_key_byte; auto. apply user_key_cipher. }
  assert (V : forall x, length x = 4%nat /\ bytes x /\ (x = region_iv r \/ ~ alike (iv_key (aes256 user_key) (region_iv r)) (iv_key (aes256 user_key) x) (length t)) ->
    rbind (match verify_decr (iv_key (aes256 user_key)) buf (DEcb x) with
           | Ok _ => Ok (Some (DEcb x)) | Err _ => guess_decr (iv_key (aes256 user_key)) buf | Panic => Panic | OutOfFuel => OutOfFuel end)
      (fun o => Ok (match o with Some d => (true, d) | None => (false, pkg2_default) end)) = Ok (true, DEcb (region_iv r))).
  { intros x (L & B & E).
    destruct (C136_key_accepted (aes256 user_key) buf h p _ t x Hb Hs user_key_cipher K L B Hd Fn T) as [A N].
    destruct E as [-> | E].
    - rewrite A by (intros i _; reflexivity). reflexivity.
    - destruct (N E) as [e ->]. rewrite G. reflexivity. }
  unfold open_file, open_decr. unfold offered in Of. destruct existing as [[x|x]|]; [apply V, Of|contradiction|].
  destruct iv as [x|]; [apply V, Of|]. cbn [option_map]. rewrite G. reflexivity.
Qed.

Lemma header_fstart buf h p : bytes buf -> read_header buf = Ok (h, p) ->
  u32 (hd_fstart h) /\ (hd_ident h = IV1 -> is_pkg2_64 h = false) /\ (is_pkg2_64 h = true -> hd_ident h = IV2) /\ u64 (hd_hash1 h) /\ u64 (hd_hash2 h) /\ buf <> [].
Proof.
  intros Hb Hd. destruct (C16_header_sound buf h p Hb Hd) as [_ S]. unfold is_pkg2_64, u32, u64.
  assert (Nb : buf <> []) by (intros ->; discriminate Hd).
  assert (Z0 : hd_ident h = IV1 -> hd_hash1 h = 0 /\ hd_hash2 h = 0).
  { clear S. intro Id. unfold read_header in Hd. destruct (get_ident buf) as [[]|e| |]; try discriminate Hd.
    - destruct (read_u64_at buf 4); try discriminate Hd. destruct (read_u32_at buf 12); try discriminate Hd. injection Hd as <- _. split; reflexivity.
    - destruct (read_u64_at buf 4); try discriminate Hd. destruct (read_u32_at buf 12) as [v'| | |]; try discriminate Hd. cbn [rbind] in Hd.
      destruct (read_u32_at buf v'); try discriminate Hd. destruct (read_u32_at buf (v' + 4)); try discriminate Hd. injection Hd as <- _. discriminate Id.
    - assert (X : forall size f fl, read_random_header buf size f fl = Ok (h, p) -> hd_ident h = IV2).
      { intros size f fl E. unfold read_random_header in E. destruct (_ <? _); [discriminate|]. destruct (f buf) as [[[x y] z]| | |]; try discriminate E.
        cbn [rbind] in E. destruct (_ =? _); [|discriminate]. injection E as <- _. reflexivity. }
      destruct (read_random_header buf 150 read_kmst1202 FRandom64) as [y| | |] eqn:E; try discriminate Hd.
      + injection Hd as ->. apply X in E. congruence.
      + apply X in Hd. congruence. }
  assert (W : forall n v, 0 <= v < 2 ^ (8 * Z.of_nat n) -> (n <= 8)%nat -> 0 <= v < 2 ^ 64).
  { intros n v V N. split; [lia|]. eapply Z.lt_le_trans; [apply V|]. apply Z.pow_le_mono_r; lia. }
  destruct (hd_ident h), (hd_flags h); try contradiction.
  - destruct (Z0 eq_refl) as [-> ->]. destruct S as (_ & _ & S & _). destruct S as [S _]. repeat split; auto; try lia; try discriminate.
  - destruct S as (_ & _ & S1 & S2 & S3 & _). destruct S1 as [S1 _], S2 as [S2 _], S3 as [S3 _].
    apply (W 4%nat) in S2; [|lia]. apply (W 4%nat) in S3; [|lia]. repeat split; auto; try lia.
  - destruct S as (S2 & S3 & _ & _ & S1 & _). destruct S2 as [S2 _], S3 as [S3 _]. apply (W 4%nat) in S2; [|lia]. apply (W 4%nat) in S3; [|lia].
    rewrite S1. repeat split; auto; try lia; try discriminate.
  - destruct S as (S2 & S3 & _ & _ & S1 & _). destruct S2 as [S2 _], S3 as [S3 _]. apply (W 8%nat) in S2; [|lia]. apply (W 8%nat) in S3; [|lia].
    rewrite S1. repeat split; auto; try lia; try discriminate.
Qed.

(** C149: a classic package under one of the three standard keys, whose first entry has an ASCII name standing in its place
    (of two characters or more under the Sea key), is opened and read back in full with its version given, whether no
    IV is given, the right one, or one that does not fit. *)
Theorem C149_classic_package : forall buf h p r t iv existing patch0 e v ds kids cache,
  bytes buf -> zlen buf < 2 ^ 31 -> read_header buf = Ok (h, p) -> hd_ident h = IV1 -> hd_encver h = Some e ->
  0 <= v < 1000000 -> decimal v ds -> folded (digit_hash 0 ds) = e ->
  laid_dir buf (iv_key (aes256 user_key) (region_iv r)) (hd_fstart h) (digit_hash 0 ds) (hd_data_start h) kids ->
  first_name true buf (hd_data_start h) (enc_str (iv_key (aes256 user_key) (region_iv r)) t) ->
  plain_ascii t -> (r = Sea -> (2 <= length t)%nat) ->
  offered (aes256 user_key) (iv_key (aes256 user_key) (region_iv r)) (length t) (region_iv r) iv existing ->
  exists f0 kids', shows_trees kids' kids /\ forall f, (f0 <= f)%nat ->
    parse_file (iv_key (aes256 user_key)) f buf iv existing patch0 (Some v) cache
    = Ok (mkFile (inl v) (digit_hash 0 ds) kids' (DEcb (region_iv r)) cache).
Proof.
  intros buf h p r t iv existing patch0 e v ds kids cache Hb Hs Hd Id He Hv D F L Fn T Hr Of.
  destruct (header_fstart buf h p Hb Hd) as (Hf & Hw & _ & _ & _ & Nb). specialize (Hw Id).
  assert (Fn' : first_name (classic h) buf (hd_data_start h) (enc_str (iv_key (aes256 user_key) (region_iv r)) t)) by (unfold classic; rewrite Id; exact Fn).
  pose proof (opened buf h p r t iv existing Hb Hs Hd Fn' T Hr Of) as O.
  assert (K : forall j, byte (iv_key (aes256 user_key) (region_iv r) j)).
  { intro j. destruct (region_bytes r). apply iv_key_byte; auto. apply user_key_cipher. }
  assert (Nz : zlen buf <> 0) by (destruct buf; [congruence|rewrite zlen_cons; pose proof (zlen_nonneg buf); lia]).
  destruct (C22_open_with_version (reader_of (iv_key (aes256 user_key)) buf (DEcb (region_iv r))) h false e v ds (zlen buf) kids Hs K Id Hw Hf Nz He Hv D F L)
    as (f0 & kids' & Sh & P).
  exists f0, kids'. split; [exact Sh|]. intros f Hfu. unfold parse_file. rewrite O. cbn [rbind]. rewrite (header_was _ _ _ Hd). cbn [rbind].
  rewrite Id. cbn [is_pkg2]. rewrite (P f Hfu). reflexivity.
Qed.
Print Assumptions C149_classic_package.

(** C150: with no version given (neither on opening nor on parsing) such a package is never refused; if the version found
    is the right one, the tree is the right one, and the key is right in any case. *)
Theorem C150_classic_detection : forall buf h p r t iv existing v ds kids cache,
  bytes buf -> zlen buf < 2 ^ 31 -> read_header buf = Ok (h, p) -> hd_ident h = IV1 ->
  1 <= v <= 2000 -> decimal v ds -> hd_encver h = Some (folded (digit_hash 0 ds)) ->
  laid_dir buf (iv_key (aes256 user_key) (region_iv r)) (hd_fstart h) (digit_hash 0 ds) (hd_data_start h) kids ->
  first_name true buf (hd_data_start h) (enc_str (iv_key (aes256 user_key) (region_iv r)) t) ->
  plain_ascii t -> (r = Sea -> (2 <= length t)%nat) ->
  offered (aes256 user_key) (iv_key (aes256 user_key) (region_iv r)) (length t) (region_iv r) iv existing ->
  exists f0, forall f, (f0 <= f)%nat ->
    match parse_file (iv_key (aes256 user_key)) f buf iv existing (-1) None cache with
    | Ok x => pf_key x = DEcb (region_iv r) /\ exists v', pf_version x = inl v' /\ v' <= v /\ (v' = v -> shows_trees (pf_kids x) kids)
    | Err _ => False
    | Panic | OutOfFuel => True
    end.
Proof.
  intros buf h p r t iv existing v ds kids cache Hb Hs Hd Id Hv D He L Fn T Hr Of.
  destruct (header_fstart buf h p Hb Hd) as (Hf & Hw & _ & _ & _ & Nb). specialize (Hw Id).
  assert (Fn' : first_name (classic h) buf (hd_data_start h) (enc_str (iv_key (aes256 user_key) (region_iv r)) t)) by (unfold classic; rewrite Id; exact Fn).
  pose proof (opened buf h p r t iv existing Hb Hs Hd Fn' T Hr Of) as O.
  assert (K : forall j, byte (iv_key (aes256 user_key) (region_iv r) j)).
  { intro j. destruct (region_bytes r). apply iv_key_byte; auto. apply user_key_cipher. }
  assert (Nz : zlen buf <> 0) by (destruct buf; [congruence|rewrite zlen_cons; pose proof (zlen_nonneg buf); lia]).
  destruct (C67_detection_accepts (reader_of (iv_key (aes256 user_key)) buf (DEcb (region_iv r))) h false v ds (zlen buf) kids Hs K Id Hw Hf Nz Hv D He L)
    as (f0 & P).
  exists f0. intros f Hfu. specialize (P f Hfu). unfold parse_file. rewrite O. cbn [rbind]. rewrite (header_was _ _ _ Hd). cbn [rbind].
  rewrite Id. cbn [is_pkg2].
  destruct (parse_pkg1 f _ h false (zlen buf) (-1)) as [[[v' hash'] l]|e| |]; cbn [rmap rbind]; auto.
  split; [reflexivity|]. exists v'. split; [reflexivity|exact P].
Qed.
Print Assumptions C150_classic_detection.

(** A package of version 83 with one image, name under a key. *)
Definition package83 (ks : nat -> Z) (name : list Z) : list Z :=
  let n := zlen (enc_str ks name) in
  PKG1 ++ enc_le 8 (n + 9) ++ enc_le 4 16 ++ [172; 0] ++ [1; 4] ++ enc_str ks name ++ [1; 0] ++ stored OPkg1 16 0 1876 (22 + n) (26 + n) ++ [115].
Example C149_example :
  parse_file (iv_key (aes256 user_key)) 3 (package83 (key_of Global) (codes "Mob.img")) None None (-1) (Some 83) [] =
    Ok (mkFile (inl 83) 1876 [(codes "Mob.img", NImage 34 1)] (DEcb [77; 35; 199; 43]) []).
Proof. vm_compute. reflexivity. Qed.
Example C150_example :
  parse_file (iv_key (aes256 user_key)) 3 (package83 (key_of Global) (codes "Mob.img")) (Some (region_iv Sea)) None (-1) None [] =
    Ok (mkFile (inl 83) 1876 [(codes "Mob.img", NImage 34 1)] (DEcb [77; 35; 199; 43]) []).
Proof. vm_compute. reflexivity. Qed.

(** A version-83 package whose only entry stands elsewhere. *)
Definition referred83 (ks : nat -> Z) (name : list Z) : list Z :=
  let n := zlen (enc_str ks name) in
  PKG1 ++ enc_le 8 (n + 14) ++ enc_le 4 16 ++ [172; 0] ++ [1; 2] ++ enc_le 4 15 ++ [1; 0] ++ stored OPkg1 16 0 1876 26 30 ++ [115; 4] ++ enc_str ks name.

(** C151: full statement: a package opened with the right IV and version is read back.  False: a first name that is not
    ASCII text makes the right IV be dismissed without notice, and the names come out wrong. *)
Definition foreign83 := Eval vm_compute in package83 (key_of Global) [54620; 44397].
Theorem C151_right_iv_refuted : exists buf h p r kids x,
  bytes buf /\ read_header buf = Ok (h, p) /\ hd_ident h = IV1 /\ hd_encver h = Some (folded 1876) /\ decimal 83 [8; 3] /\ digit_hash 0 [8; 3] = 1876 /\
  laid_dir buf (iv_key (aes256 user_key) (region_iv r)) (hd_fstart h) 1876 (hd_data_start h) kids /\
  parse_file (iv_key (aes256 user_key)) 3 buf (Some (region_iv r)) None (-1) (Some 83) [] = Ok x /\
  pf_key x <> DEcb (region_iv r) /\ ~ shows_trees (pf_kids x) kids.
Proof.
  exists foreign83, (mkHeader IV1 14 16 18 (Some 172) 0 0 FNone), 16, Global, [([54620; 44397], TImage 31 1)],
    (mkFile (inl 83) 1876 [([31690; 2386], NImage 31 1)] pkg2_default []).
  split; [byte_list|]. split; [vm_compute; reflexivity|]. split; [reflexivity|]. split; [reflexivity|].
  split; [repeat split; try discriminate; repeat constructor; lia|]. split; [reflexivity|]. split; [|split; [vm_compute; reflexivity|]].
  - apply (dir_at _ _ _ _ 18 19 31 1); [lia|split; [lia|at_tac]|].
    apply (ents_image _ _ _ _ 19 25 31 31 0 [54620; 44397] 31 1 0x73).
    + apply head_inline; [repeat constructor; lia|at_tac|at_tac].
    + exists 26, 27, 0, (stored_num OPkg1 16 0 1876 27 31).
      split; [lia|]. split; [split; [lia|at_tac]|]. split; [split; [lia|at_tac]|]. split; [vm_compute; split; congruence|].
      split; [at_tac|]. split; [|vm_compute; discriminate]. apply classic_holds; [vm_compute; split; congruence..|vm_compute; reflexivity].
    + auto.
    + at_tac.
    + constructor.
  - split; [discriminate|]. intro S. inversion S.
Qed.
Print Assumptions C151_right_iv_refuted.

(** C152: the same happens with ASCII names when the first entry stands elsewhere: the check looks for it two bytes off. *)
Definition far83 := Eval vm_compute in referred83 (key_of Global) (codes "Mob.img").
Theorem C152_entry_elsewhere_refuted : exists buf h p r t kids x,
  bytes buf /\ read_header buf = Ok (h, p) /\ hd_ident h = IV1 /\ hd_encver h = Some (folded 1876) /\ decimal 83 [8; 3] /\ digit_hash 0 [8; 3] = 1876 /\
  laid_dir buf (iv_key (aes256 user_key) (region_iv r)) (hd_fstart h) 1876 (hd_data_start h) [(t, kids)] /\ plain_ascii t /\ (2 <= length t)%nat /\
  parse_file (iv_key (aes256 user_key)) 3 buf (Some (region_iv r)) None (-1) (Some 83) [] = Ok x /\
  pf_key x <> DEcb (region_iv r) /\ ~ shows_trees (pf_kids x) [(t, kids)].
Proof.
  exists far83, (mkHeader IV1 22 16 18 (Some 172) 0 0 FNone), 16, Global, (codes "Mob.img"), (TImage 30 1),
    (mkFile (inl 83) 1876 [([65533; 65533; 93; 65533; 33; 65533; 65533], NImage 30 1)] pkg2_default []).
  split; [byte_list|]. split; [vm_compute; reflexivity|]. split; [reflexivity|]. split; [reflexivity|].
  split; [repeat split; try discriminate; repeat constructor; lia|]. split; [reflexivity|]. split.
  - apply (dir_at _ _ _ _ 18 19 30 1); [lia|split; [lia|at_tac]|].
    apply (ents_image _ _ _ _ 19 24 30 30 0 (codes "Mob.img") 30 1 0x73).
    + apply (head_ref _ _ _ _ _ _ _ 15 40); [repeat constructor; cbv; intuition congruence|lia|at_tac|at_tac|at_tac].
    + exists 25, 26, 0, (stored_num OPkg1 16 0 1876 26 30).
      split; [lia|]. split; [split; [lia|at_tac]|]. split; [split; [lia|at_tac]|]. split; [vm_compute; split; congruence|].
      split; [at_tac|]. split; [|vm_compute; discriminate]. apply classic_holds; [vm_compute; split; congruence..|vm_compute; reflexivity].
    + auto.
    + at_tac.
    + constructor.
  - split; [split; [discriminate|repeat constructor; cbv; intuition congruence]|]. split; [vm_compute; lia|].
    split; [vm_compute; reflexivity|]. split; [discriminate|]. intro S. inversion S.
Qed.
Print Assumptions C152_entry_elsewhere_refuted.

Definition prof_dec (x y : prof * Z) : {x = y} + {x <> y}.
Proof. repeat decide equality. Defined.
(** The hash of a package with 64-bit counts and the number its name key is made of. *)
Definition wide_hash (h : header) : Z := Z.lxor (Z.lxor (hd_hash1 h) (hd_hash2 h)) 0xABCDEF0123456789.
Definition wide_number (h : header) : Z := Z.lxor (Z.lxor (hd_hash1 h) (wide_hash h)) 0x66B57FEE317FD3DF.

(** C153: a package with 64-bit counts is opened and read back in full, whatever IV or decryptor is offered and whatever
    the cache holds, unless its hash is 0 or its count looks like an entry; its profile is added to the cache once. *)
Theorem C153_wide_package : forall buf h p iv existing patch0 patch kids cache,
  bytes buf -> zlen buf < 2 ^ 31 -> read_header buf = Ok (h, p) -> is_pkg2_64 h = true -> wide_hash h <> 0 ->
  unlike_entry buf (hd_data_start h) ->
  laid_dir2 buf (fun _ => 0) (number_key (wide_number h)) true true (hd_fstart h) (hd_hash1 h) (wide_hash h) OPkg264 true (hd_data_start h) kids ->
  exists f0 kids' key cache', shows_trees kids' kids /\ (forall i, nth (i mod 8) key 0 = number_key (wide_number h) i) /\
    cache' = (if in_dec prof_dec (P1202, wide_hash h) cache then cache else cache ++ [(P1202, wide_hash h)]) /\
    forall f, (f0 <= f)%nat ->
      parse_file (iv_key (aes256 user_key)) f buf iv existing patch0 patch cache
      = Ok (mkFile (inr P1202) (wide_hash h) kids' (DPkg2 key) cache').
Proof.
  intros buf h p iv existing patch0 patch kids cache Hb Hs Hd W Nz Un L.
  destruct (header_fstart buf h p Hb Hd) as (Hf & _ & Hi & H1 & H2 & Nb). specialize (Hi W).
  pose proof (header_was _ _ _ Hd) as Hh. pose proof (unlike_open (iv_key (aes256 user_key)) buf h Hs Hb Hh Hi iv existing Un) as O.
  set (hash := wide_hash h) in *. set (st := iv_key (aes256 user_key)) in *. set (num := wide_number h) in *.
  assert (Uh : u64 hash).
  { apply (lxor_range 64); [lia| |lia]. apply (lxor_range 64); [lia|exact H1|exact H2]. }
  assert (Un' : u64 num).
  { apply (lxor_range 64); [lia| |lia]. apply (lxor_range 64); [lia|exact H1|exact Uh]. }
  assert (K : profile_key h P1202 hash = DPkg2 (pkg2_keys num)) by reflexivity.
  set (r := reader_of st buf (DPkg2 (pkg2_keys num))).
  assert (Kb : forall j, byte (rd_pks r j)).
  { intro j. cbn [r reader_of rd_pks]. rewrite number_key_eq by exact Un'. unfold number_key, byte. apply Z.mod_pos_bound. lia. }
  assert (L' : laid_dir2 (rd_buf r) (rd_ks r) (rd_pks r) (is_pkg2_64 h) true (hd_fstart h) (hd_hash1 h) hash OPkg264 true (hd_data_start h) kids).
  { rewrite W. cbn [r reader_of rd_buf rd_ks rd_pks]. eapply laid_dir2_ext; [|exact L]. intro j. symmetry. apply number_key_eq, Un'. }
  assert (Nz' : zlen buf <> 0) by (destruct buf; [congruence|rewrite zlen_cons; pose proof (zlen_nonneg buf); lia]).
  destruct (C70_pkg2_roundtrip r h true hash OPkg264 (hd_data_start h) (zlen buf) kids Hs ltac:(intro; unfold byte; cbn; lia) Kb Hi Hf H1 Uh Nz' L')
    as (f0 & kids' & d' & Sh & P).
  exists f0, kids', (pkg2_keys num), (if in_dec prof_dec (P1202, hash) cache then cache else cache ++ [(P1202, hash)]).
  split; [exact Sh|]. split; [intro i; apply number_key_eq, Un'|]. split; [reflexivity|]. intros f Hfu. specialize (P f Hfu).
  unfold parse_file. rewrite O. cbn [rbind]. rewrite Hh. cbn [rbind]. rewrite Hi. unfold parse_pkg2. rewrite W. fold st.
  assert (G : forall k t, try_pairs st buf h f false ((P1202, hash) :: t) (k, dir_new (hd_data_start h) (zlen buf))
    = Ok (Some (P1202, hash, kids', DPkg2 (pkg2_keys num)), (DPkg2 (pkg2_keys num), d'))).
  { intros k t. cbn [try_pairs prof_64]. unfold reset_dir. cbn [dir_new di_off di_size di_parsed].
    change (mkDir (hd_data_start h) (zlen buf) false Init []) with (dir_new (hd_data_start h) (zlen buf)).
    rewrite (profile_good st buf h f P1202 hash k (hd_data_start h) (zlen buf) kids' d' Nz Nz' P). rewrite K. reflexivity. }
  pose proof (fun x => cached_wide h cache x W) as C. fold (wide_hash h) in C. change (Z.lxor (Z.lxor (hd_hash1 h) (hd_hash2 h)) VERIFY_KEY_V6) with hash in C.
  destruct (in_dec prof_dec (P1202, hash) cache) as [I|I].
  - destruct (cached h cache) as [|x t]; [exfalso; apply (proj2 (C (P1202, hash))); auto|].
    destruct (proj1 (C x) (or_introl eq_refl)) as [_ ->]. rewrite G. reflexivity.
  - destruct (cached h cache) as [|x t]; [|exfalso; destruct (proj1 (C x) (or_introl eq_refl)) as [J ->]; contradiction].
    cbn [try_pairs rbind]. rewrite (candidates_wide h W). change (Z.lxor (Z.lxor (hd_hash1 h) (hd_hash2 h)) VERIFY_KEY_V6) with hash.
    rewrite G. reflexivity.
Qed.
Print Assumptions C153_wide_package.

(** A header of 150 bytes with two hashes and the length of what follows. *)
Definition wide_header (h1 h2 len : Z) : list Z :=
  let places := combine [72; 36; 15; 49; 70; 71; 99; 103; 142; 140; 147; 14; 100; 123; 46; 77; 18; 9; 2; 149]%nat
                  (enc_le 8 h1 ++ enc_le 8 h2 ++ enc_le 4 len) in
  map (fun i => match find (fun x => Nat.eqb (fst x) i) places with Some x => snd x | None => 0 end) (seq 0 150).
(** A package with 64-bit counts and one image. *)
Definition wide_package (h1 h2 : Z) (name : list Z) : list Z :=
  let h := mkHeader IV2 0 150 150 None h1 h2 FRandom64 in
  let l := zlen (units16 name) in
  wide_header h1 h2 (19 + 2 * l) ++
  enc_wzint 8 (sext 64 (Z.lxor (Z.lxor (Z.lxor 65536 h1) (wide_hash h)) 0x550EC4DD02C468EC)) ++
  [4] ++ enc_le 2 (- l) ++ body_pkg2 (number_key (wide_number h)) (units16 name) ++
  [1; 0] ++ stored OPkg264 150 h1 (wide_hash h) (164 + 2 * l) (168 + 2 * l) ++ [115].
Definition wide_good := Eval vm_compute in wide_package 5 9 (codes "Mob.img").
Definition wide_bad := Eval vm_compute in wide_package 5 3611723898552329 (codes "Mob.img").
Definition wide_zero := Eval vm_compute in wide_package 0x800000000005 (Z.lxor 0x800000000005 0xABCDEF0123456789) (codes "Mob.img").

Ltac wide_laid h1 h2 :=
  let h := constr:(mkHeader IV2 33 150 150 None h1 h2 FRandom64) in
  apply (dir_wide _ _ _ _ _ _ _ _ _ _ 150 159 178 182 (sext 64 (Z.lxor (Z.lxor (Z.lxor 65536 h1) (wide_hash h)) 0x550EC4DD02C468EC)) 0);
    [reflexivity|reflexivity|cbn; lia|lia|vm_compute; split; congruence|vm_compute; reflexivity|at_tac| |];
  [apply (heads_cons _ _ _ _ _ true 159 176 177 178 178 0); [at_tac| |cbn; lia|split; [cbn; lia|at_tac]|split; [lia|at_tac]|constructor];
   apply name_keyed_wide; [reflexivity|apply lit_unicode; reflexivity|reflexivity|vm_compute; split; discriminate|at_tac]
  |apply (offs_image _ _ _ _ _ _ _ _ _ _ 178 182 (codes "Mob.img") 182 1 (stored_num OPkg264 150 h1 (wide_hash h) 178 182) 0x73);
    [vm_compute; discriminate|vm_compute; split; congruence|at_tac|apply pkg2_holds; pk_side|auto|at_tac|constructor]].

Example C153_example :
  (let h := mkHeader IV2 33 150 150 None 5 9 FRandom64 in
   read_header wide_good = Ok (h, 150) /\ unlike_entry wide_good 150 /\
   laid_dir2 wide_good (fun _ => 0) (number_key (wide_number h)) true true 150 5 (wide_hash h) OPkg264 true 150 [(codes "Mob.img", TImage 182 1)]) /\
  parse_file (iv_key (aes256 user_key)) 3 wide_good (Some (region_iv Sea)) None (-1) None [(P1201, 7)] =
    Ok (mkFile (inr P1202) 12379813738877118341 [(codes "Mob.img", NImage 182 1)] (DPkg2 [95; 180; 180; 58; 58; 18; 18; 239])
         [(P1201, 7); (P1202, 12379813738877118341)]).
Proof.
  split; [|vm_compute; reflexivity]. cbv zeta. split; [vm_compute; reflexivity|]. split.
  - exists 108, 15, 128, 33, 220, 43. split; [at_tac|]. lia.
  - wide_laid 5 9.
Qed.

(** C154: C153 without the condition on the count is false: if the count looks like an entry, a key is guessed from it,
    and the package is refused. *)
Theorem C154_unlucky_count_refuted : exists buf h p kids,
  bytes buf /\ zlen buf < 2 ^ 31 /\ read_header buf = Ok (h, p) /\ is_pkg2_64 h = true /\ wide_hash h <> 0 /\
  laid_dir2 buf (fun _ => 0) (number_key (wide_number h)) true true (hd_fstart h) (hd_hash1 h) (wide_hash h) OPkg264 true (hd_data_start h) kids /\
  parse_file (iv_key (aes256 user_key)) 3 buf None None (-1) None [] = Err EGameHash.
Proof.
  exists wide_bad, (mkHeader IV2 33 150 150 None 5 3611723898552329 FRandom64), 150, [(codes "Mob.img", TImage 182 1)].
  split; [byte_list|]. split; [reflexivity|]. split; [vm_compute; reflexivity|]. split; [reflexivity|]. split; [discriminate|].
  split; [|vm_compute; reflexivity]. wide_laid 5 3611723898552329.
Qed.
Print Assumptions C154_unlucky_count_refuted.

(** C155: C153 without the condition on the hash is false: a package whose hash is 0 is refused. *)
Theorem C155_zero_hash_refuted : exists buf h p kids,
  bytes buf /\ zlen buf < 2 ^ 31 /\ read_header buf = Ok (h, p) /\ is_pkg2_64 h = true /\ unlike_entry buf (hd_data_start h) /\
  laid_dir2 buf (fun _ => 0) (number_key (wide_number h)) true true (hd_fstart h) (hd_hash1 h) (wide_hash h) OPkg264 true (hd_data_start h) kids /\
  parse_file (iv_key (aes256 user_key)) 3 buf None None (-1) None [] = Err EGameHash.
Proof.
  exists wide_zero, (mkHeader IV2 33 150 150 None 0x800000000005 12379673001388763020 FRandom64), 150, [(codes "Mob.img", TImage 182 1)].
  split; [byte_list|]. split; [reflexivity|]. split; [vm_compute; reflexivity|]. split; [reflexivity|]. split.
  { exists 233, 104, 197, 2, 221, 68. split; [at_tac|]. lia. }
  split; [|vm_compute; reflexivity]. wide_laid 0x800000000005 12379673001388763020.
Qed.
Print Assumptions C155_zero_hash_refuted.

(** The offset scheme each generation of the client writes with. *)
Definition client_offsets (q : prof) : offv :=
  match q with
  | P1196 => OPkg2V1
  | P1197 | P1198 => OPkg2V2
  | P1199 | P1200 | P1201 => OPkg2V3
  | P1202 => OPkg264
  end.
Lemma client_offsets_eq q : prof_offset q = client_offsets q.
Proof. destruct q; reflexivity. Qed.

(** The hashes the search of each generation can find among those that fit the header (C11, C14, C56). *)
Definition findable (q : prof) (h1 v : Z) : Prop :=
  match q with
  | P1196 => 0 <= v < 2 ^ 32
  | P1197 => 0 <= v < 2 ^ 32 /\ (v mod 32 <> 0 \/ v = 0)
  | P1198 => 0 <= v < 2 ^ 32 /\ (v mod 16 + h1 mod 16 <> 0 \/ v = 0)
  | P1199 | P1200 | P1201 => 0 <= v < 2 ^ 32 - 1
  | P1202 => 0 <= v < 2 ^ 64
  end.
Lemma findable_found q h1 h2 v : u64 h1 -> u64 h2 -> profile_eq q h1 h2 v -> findable q h1 v -> In v (prof_hashes q h1 h2).
Proof.
  intros H1 H2 E F. pose proof (u32_wrap h1) as W1. pose proof (u32_wrap h2) as W2.
  assert (S1 : forall x, 0 <= x < 2 ^ 32 -> x mod 2 ^ 32 = x) by (intros; apply Z.mod_small; assumption).
  unfold profile_eq in E. change (h1 mod 2 ^ 32) with (wrap 32 h1) in E. change (h2 mod 2 ^ 32) with (wrap 32 h2) in E.
  destruct q; cbn [findable prof_hashes] in *.
  - destruct (C11_v6_unique h1 h2 H1 H2) as (c & -> & _ & _ & X). left. symmetry. apply X, E.
  - rewrite S1 in E by lia. destruct (C14_brute_force_exact _ _ v W1 W2) as (X & _). exact (proj2 X (conj F E)).
  - rewrite S1 in E by lia. destruct (C14_brute_force_exact _ _ v W1 W2) as (_ & X & _). exact (proj2 X (conj F E)).
  - rewrite S1 in E by lia. destruct (C14_brute_force_exact _ _ v W1 W2) as (X & _). exact (proj2 X (conj F E)).
  - destruct F as [F G]. rewrite S1 in E by lia. destruct (C56_bit_search_exact _ _ v W1 W2 F) as [_ X]. apply (proj2 X). split; [exact E|].
    replace (wrap 32 h1 mod 16) with (h1 mod 16); [exact G|]. unfold wrap. apply Znumtheory.Zmod_div_mod; [lia|reflexivity|]. exists (2 ^ 28). reflexivity.
  - destruct F as [F G]. rewrite S1 in E by lia. destruct (C56_bit_search_exact _ _ v W1 W2 F) as [X _]. apply (proj2 X). split; [exact E|exact G].
  - rewrite S1 in E by lia. destruct (C11_v1_unique _ _ W1 W2) as (c & -> & _ & _ & X). left. symmetry. apply X, E.
Qed.

(** The generations from the newest to the oldest. *)
Definition age (q : prof) : nat :=
  match q with P1202 => 0 | P1201 => 1 | P1200 => 2 | P1199 => 3 | P1198 => 4 | P1197 => 5 | P1196 => 6 end.

Lemma aged_app (l1 l2 : list (prof * Z)) : StronglySorted (fun x y => age (fst x) <= age (fst y))%nat l1 ->
  StronglySorted (fun x y => age (fst x) <= age (fst y))%nat l2 ->
  (forall x y, In x l1 -> In y l2 -> (age (fst x) <= age (fst y))%nat) ->
  StronglySorted (fun x y => age (fst x) <= age (fst y))%nat (l1 ++ l2).
Proof.
  intros S1 S2 X. induction S1 as [|a t S1 IH F]; [exact S2|]. cbn [app]. constructor.
  - apply IH. intros x y I J. apply X; [now right|exact J].
  - apply Forall_app. split; [exact F|]. apply Forall_forall. intros y J. apply X; [now left|exact J].
Qed.

Lemma candidates_aged h : StronglySorted (fun x y => age (fst x) <= age (fst y))%nat (candidates h).
Proof.
  unfold candidates. set (f := fun p => map (fun x => (p, x)) (prof_hashes p (hd_hash1 h) (hd_hash2 h))).
  assert (F : forall p x, In x (f p) -> fst x = p) by (intros p x I; apply in_map_iff in I as (w & <- & _); reflexivity).
  assert (G : forall ps, StronglySorted (fun p q => age p <= age q)%nat ps -> StronglySorted (fun x y => age (fst x) <= age (fst y))%nat (flat_map f ps)).
  { induction 1 as [|p t _ IH A]; [constructor|]. cbn [flat_map]. apply aged_app; [|exact IH|].
    - assert (Z : Forall (fun x => fst x = p) (f p)) by (apply Forall_forall, F).
      induction Z as [|x l E Z IZ]; constructor; [exact IZ|]. eapply Forall_impl; [|exact Z]. intros y Ey. cbn beta in *. rewrite E, Ey. lia.
    - intros x y I J. apply in_flat_map in J as (q & Iq & J). rewrite (F _ _ I), (F _ _ J). rewrite Forall_forall in A. apply A, Iq. }
  apply G. destruct (is_pkg2_64 h); cbv; repeat constructor.
Qed.

Lemma candidates_order h pre post q v q' v' : candidates h = pre ++ (q, v) :: post -> In (q', v') (candidates h) ->
  (age q' < age q)%nat -> In (q', v') pre.
Proof.
  intros E I A. pose proof (candidates_aged h) as S1. rewrite E in I, S1. clear E.
  apply in_app_or in I as [I|[I|I]]; [exact I|injection I as -> _; lia|].
  exfalso. induction pre as [|x t IH].
  - inversion S1 as [|? ? _ F]; subst. rewrite Forall_forall in F. specialize (F _ I). cbn [fst] in F. lia.
  - inversion S1; subst. auto.
Qed.

(** The number a name key is made of in packages with 32-bit counts. *)
Definition narrow_number (h : header) (hash : Z) : Z :=
  mix32 (Z.lxor (mix32 (Z.lxor (Z.lxor (hd_hash1 h mod 2 ^ 32) hash) 0x6D4C3B2A)) 0x4F4CB34A).

Lemma narrow_opens : forall st buf h p iv existing patch0 patch verified k q hash kids cache,
  zlen buf < 2 ^ 31 -> read_header buf = Ok (h, p) -> bytes buf -> hd_ident h = IV2 -> is_pkg2_64 h = false ->
  open_file st buf iv existing = Ok (verified, k) -> (verified = false -> k = pkg2_default) ->
  prof_64 q = false -> hash <> 0 -> u64 hash ->
  In (q, hash) cache /\ profile_eq q (hd_hash1 h) (hd_hash2 h) hash \/ In hash (prof_hashes q (hd_hash1 h) (hd_hash2 h)) ->
  let kk := used h verified k q hash in let r := reader_of st buf kk in
  (forall j, byte (rd_ks r j)) -> (forall j, byte (rd_pks r j)) ->
  laid_dir2 buf (rd_ks r) (rd_pks r) false (is_pkg2 kk) (hd_fstart h) (hd_hash1 h) hash (prof_offset q) true (hd_data_start h) kids ->
  exists f0, forall f, (f0 <= f)%nat ->
    match parse_file st f buf iv existing patch0 patch cache with
    | Ok x => exists q', pf_version x = inr q' /\ profile_eq q' (hd_hash1 h) (hd_hash2 h) (pf_hash x) /\
        (verified = true -> pf_key x = k) /\
        (prof_offset q' = prof_offset q -> pf_hash x = hash -> shows_trees (pf_kids x) kids /\ pf_key x = kk) /\
        (cached h cache = [] -> age q' <= age q)%nat
    | Err _ => False
    | Panic | OutOfFuel => True
    end.
Proof.
  intros st buf h p iv existing patch0 patch verified k q hash kids cache Hs Hd Hb Hi W O Kd Q64 Nz Uh Src kk r K1 K2 L.
  destruct (header_fstart buf h p Hb Hd) as (Hf & _ & _ & H1 & H2 & Nb).
  pose proof (header_was _ _ _ Hd) as Hh.
  assert (Nz' : zlen buf <> 0) by (destruct buf; [congruence|rewrite zlen_cons; pose proof (zlen_nonneg buf); lia]).
  assert (L' : laid_dir2 (rd_buf r) (rd_ks r) (rd_pks r) (is_pkg2_64 h) (is_pkg2 kk) (hd_fstart h) (hd_hash1 h) hash (prof_offset q) true (hd_data_start h) kids).
  { rewrite W. replace (rd_buf r) with buf by (unfold r; destruct kk; reflexivity). exact L. }
  assert (Hs' : zlen (rd_buf r) < 2 ^ 31) by (replace (rd_buf r) with buf by (unfold r; destruct kk; reflexivity); exact Hs).
  destruct (C70_pkg2_roundtrip r h (is_pkg2 kk) hash (prof_offset q) (hd_data_start h) (zlen buf) kids Hs' K1 K2 Hi Hf H1 Uh Nz' L')
    as (f0 & kids' & d' & Sh & P).
  exists f0. intros f Hfu. specialize (P f Hfu). destruct (resolve_has_prepared _ _ _ _ _ _ _ _ _ _ Nz' P) as (es & R & Pr).
  destruct (resolve_prepared _ _ _ _ _ _ (dir_new (hd_data_start h) (zlen buf)) kids' d' _ Nz' Pr P) as (P1 & _ & _).
  set (d0 := mkDir (hd_data_start h) (zlen buf) false EntryCreated es) in *.
  unfold parse_file. rewrite O. cbn [rbind]. rewrite Hh. cbn [rbind]. rewrite Hi. unfold parse_pkg2. rewrite W.
  assert (Sk : is_pkg2 k = is_pkg2 kk) by (unfold kk, used; destruct verified; [reflexivity|rewrite (Kd eq_refl); reflexivity]).
  assert (Start : prepare (reader_of st buf k) h (is_pkg2 k) OPkg1 0 f (dir_new (hd_data_start h) (zlen buf)) = (Ok tt, d0)).
  { unfold prepare. cbn [dir_new di_status di_off di_size di_parsed].
    rewrite (entries_same st buf h k kk OPkg1 0 (prof_offset q) hash f _ W Sk). fold r. rewrite R. reflexivity. }
  rewrite Start.
  assert (Fc : Forall (fun x => prof_64 (fst x) = false) (cached h cache)).
  { apply Forall_forall. intros [x y] I. unfold cached in I. apply filter_In in I as [_ I]. rewrite W in I. cbn [fst snd] in *. destruct (prof_64 x); [discriminate|reflexivity]. }
  assert (Fd : Forall (fun x => prof_64 (fst x) = false) (candidates h)).
  { apply Forall_forall. intros [x y] I. unfold candidates in I. apply in_flat_map in I as (z & Iz & I). apply filter_In in Iz as [_ Iz].
    apply in_map_iff in I as (w & E & _). injection E as -> _. rewrite W in Iz. cbn [fst]. destruct (prof_64 x); [discriminate|reflexivity]. }
  assert (Ec : forall x y, In (x, y) (cached h cache) -> profile_eq x (hd_hash1 h) (hd_hash2 h) y).
  { intros x y I. unfold cached in I. apply filter_In in I as [_ I]. cbn [fst snd] in I. apply C50_cached_hash_check. destruct (prof_verify _ _ _ _); [reflexivity|]. rewrite andb_false_r in I. discriminate I. }
  assert (Ed : forall x y, In (x, y) (candidates h) -> profile_eq x (hd_hash1 h) (hd_hash2 h) y).
  { intros x y I. unfold candidates in I. apply in_flat_map in I as (z & Iz & I). apply in_map_iff in I as (w & E & I). injection E as -> ->.
    apply C50_cached_hash_check, C50_generated_accepted; assumption. }
  assert (Good : forall q' l k', prof_64 q' = false -> prof_offset q' = prof_offset q -> k' = used h verified k' q' hash -> (verified = true -> k' = k) ->
    fst (resolve_children (reader_of st buf k') h (is_pkg2 k') (prof_offset q') hash f d0) = Ok l -> shows_trees l kids /\ k' = kk).
  { intros q' l k' P64 Oq Ek Vk Rk. assert (k' = kk).
    { unfold kk, used in *. destruct verified; [auto|]. rewrite Ek. unfold profile_key. rewrite P64, Q64. reflexivity. }
    subst k'. fold r in Rk. rewrite Oq, P1 in Rk. cbn [fst] in Rk. injection Rk as <-. auto. }
  assert (Win : forall k1, (verified = true -> k1 = k) -> fst (try_profile st buf h f verified q hash (k1, d0)) = Ok kids').
  { intros k1 V1. apply profile_ok; auto. replace (used h verified k1 q hash) with kk by (unfold kk, used; destruct verified; [symmetry; auto|reflexivity]).
    fold r. fold d0. rewrite P1. reflexivity. }
  pose proof (pairs_result st buf h f (hd_data_start h) (zlen buf) es verified (cached h cache) k Fc) as X. fold d0 in X.
  destruct (try_pairs st buf h f verified (cached h cache) (k, d0)) as [[[[[[q' h'] l] k']|] s]| | |]; try exact X; cbn [rbind].
  - destruct X as (I & V & E & Rk). cbn [rmap rbind pf_version pf_hash pf_kids pf_key]. exists q'. split; [reflexivity|]. split; [apply Ec, I|].
    split; [exact V|]. split; [|intro Nc; rewrite Nc in I; destruct I].
    intros Oq ->. apply (Good q' l k'); auto. rewrite Forall_forall in Fc. apply (Fc _ I).
  - destruct s as [k' d1]. destruct X as (-> & V & Fail).
    pose proof (pairs_result st buf h f (hd_data_start h) (zlen buf) es verified (candidates h) k' Fd) as Y. fold d0 in Y.
    destruct (try_pairs st buf h f verified (candidates h) (k', d0)) as [[[[[[q' h'] l] k2]|] s]| | |] eqn:TP; try exact Y; cbn [rbind].
    + destruct Y as (I & V2 & E & Rk). cbn [rmap rbind pf_version pf_hash pf_kids pf_key fst]. exists q'. split; [reflexivity|]. split; [apply Ed, I|].
      assert (Vk : verified = true -> k2 = k) by (intro Z; rewrite <- (V Z); auto).
      split; [exact Vk|]. split; [intros Oq ->; apply (Good q' l k2); auto; rewrite Forall_forall in Fd; apply (Fd _ I)|].
      intro Nc. destruct (Nat.le_gt_cases (age q') (age q)) as [A|A]; [exact A|exfalso]. destruct Src as [[J E']|J].
      { assert (J' : In (q, hash) (cached h cache)).
        { unfold cached. apply filter_In. split; [exact J|]. cbn [fst snd]. rewrite Q64, W. apply C50_cached_hash_check in E'. rewrite E'. reflexivity. }
        rewrite Nc in J'. destruct J'. }
      destruct (pairs_first _ _ _ _ _ _ _ _ _ _ _ _ _ _ _ Fd TP) as (pre & post & Ep & Fp).
      destruct (Fp q hash) as (k1 & e & V1 & T); [|fold d0 in T; rewrite Win in T; [discriminate T|intro Z; rewrite (V1 Z); auto]].
      eapply candidates_order; [exact Ep| |exact A].
      unfold candidates. apply in_flat_map. exists q. split; [|apply in_map, J]. apply filter_In. split; [destruct q; cbn; tauto|]. rewrite Q64, W. reflexivity.
    + destruct s as [k2 d2]. destruct Y as (_ & _ & Fail2). destruct Src as [[I E]|I].
      * destruct (Fail q hash) as (k1 & e & V1 & T).
        { unfold cached. apply filter_In. split; [exact I|]. cbn [fst snd]. rewrite Q64, W. apply C50_cached_hash_check in E. rewrite E. reflexivity. }
        rewrite (Win k1 V1) in T. discriminate T.
      * destruct (Fail2 q hash) as (k1 & e & V1 & T).
        { unfold candidates. apply in_flat_map. exists q. split; [|apply in_map, I]. apply filter_In. split; [destruct q; cbn; tauto|]. rewrite Q64, W. reflexivity. }
        rewrite Win in T; [discriminate T|]. intro Z. rewrite (V1 Z). auto.
Qed.

Lemma source buf h p q hash (cache : list (prof * Z)) : bytes buf -> read_header buf = Ok (h, p) -> profile_eq q (hd_hash1 h) (hd_hash2 h) hash ->
  In (q, hash) cache \/ findable q (hd_hash1 h) hash ->
  In (q, hash) cache /\ profile_eq q (hd_hash1 h) (hd_hash2 h) hash \/ In hash (prof_hashes q (hd_hash1 h) (hd_hash2 h)).
Proof.
  intros Hb Hd E [I|F]; [auto|right]. destruct (header_fstart buf h p Hb Hd) as (_ & _ & _ & H1 & H2 & _). apply findable_found; assumption.
Qed.

(** C156: a package with 32-bit counts for which no key is recognised is never refused if its hash is cached or can be found by
    searching; the
    hash taken fits the header, and if it is the right one (under the right offset scheme), the tree is the right one,
    read under the name key made of the hashes. *)
Theorem C156_narrow_package : forall buf h p iv existing patch0 patch q hash kids cache,
  bytes buf -> zlen buf < 2 ^ 31 -> read_header buf = Ok (h, p) -> hd_ident h = IV2 -> is_pkg2_64 h = false ->
  open_file (iv_key (aes256 user_key)) buf iv existing = Ok (false, pkg2_default) ->
  prof_64 q = false -> 0 < hash < 2 ^ 32 ->
  profile_eq q (hd_hash1 h) (hd_hash2 h) hash -> In (q, hash) cache \/ findable q (hd_hash1 h) hash ->
  laid_dir2 buf (fun _ => 0) (number_key (narrow_number h hash)) false true (hd_fstart h) (hd_hash1 h) hash (client_offsets q) true (hd_data_start h) kids ->
  exists f0, forall f, (f0 <= f)%nat ->
    match parse_file (iv_key (aes256 user_key)) f buf iv existing patch0 patch cache with
    | Ok x => exists q', pf_version x = inr q' /\ profile_eq q' (hd_hash1 h) (hd_hash2 h) (pf_hash x) /\
        (client_offsets q' = client_offsets q -> pf_hash x = hash -> shows_trees (pf_kids x) kids /\
          exists key, pf_key x = DPkg2 key /\ forall i, nth (i mod 8) key 0 = number_key (narrow_number h hash) i)
    | Err _ => False
    | Panic | OutOfFuel => True
    end.
Proof.
  intros buf h p iv existing patch0 patch q hash kids cache Hb Hs Hd Hi W O Q64 Hh Eh0 Src0 L. pose proof (source buf h p q hash cache Hb Hd Eh0 Src0) as Src. rewrite <- client_offsets_eq in L.
  assert (U : u32 (narrow_number h hash)).
  { unfold narrow_number. rewrite <- !mix_spec. apply mix_u32. apply (lxor_range 32); [lia| |lia]. apply mix_u32.
    apply (lxor_range 32); [lia| |lia]. apply (lxor_range 32); [lia|apply u32_mod|lia]. }
  assert (U' : 0 <= narrow_number h hash < 2 ^ 64) by (unfold u32 in U; pows; lia).
  assert (K : used h false pkg2_default q hash = DPkg2 (pkg2_keys (narrow_number h hash))).
  { unfold used, profile_key. rewrite Q64. unfold kmst1199_key, narrow_number. rewrite !mix_spec. rewrite (wrap_small 32 hash) by lia. reflexivity. }
  assert (E : forall i, nth (i mod 8) (pkg2_keys (narrow_number h hash)) 0 = number_key (narrow_number h hash) i) by (intro; apply number_key_eq, U').
  destruct (narrow_opens (iv_key (aes256 user_key)) buf h p iv existing patch0 patch false pkg2_default q hash kids cache Hs Hd Hb Hi W O
    (fun _ => eq_refl) Q64 ltac:(lia) ltac:(unfold u64; pows; lia) Src) as (f0 & X).
  - rewrite K. intro j. cbn [reader_of rd_ks]. unfold byte. cbn. lia.
  - rewrite K. intro j. cbn [reader_of rd_pks]. rewrite E. unfold number_key, byte. apply Z.mod_pos_bound. lia.
  - rewrite K. cbn [reader_of rd_ks rd_pks is_pkg2]. eapply laid_dir2_ext; [|exact L]. intro j. symmetry. apply E.
  - exists f0. intros f Hfu. specialize (X f Hfu). destruct (parse_file _ f buf iv existing patch0 patch cache) as [x| | |]; try exact X.
    destruct X as (q' & V & Eq & _ & G & _). exists q'. split; [exact V|]. split; [exact Eq|]. rewrite <- !client_offsets_eq. intros Oq Eh. destruct (G Oq Eh) as [S1 S2].
    split; [exact S1|]. exists (pkg2_keys (narrow_number h hash)). rewrite S2, K. auto.
Qed.
Print Assumptions C156_narrow_package.

(** C157: the same with the fixed key of package-2 names, found on opening (C147). *)
Theorem C157_fixed_key_package : forall buf h p t patch0 patch q hash kids cache,
  bytes buf -> zlen buf < 2 ^ 31 -> read_header buf = Ok (h, p) -> hd_ident h = IV2 -> is_pkg2_64 h = false ->
  first_name false buf (hd_data_start h) (enc_pkg2_name (number_key 0xDEADBEEF) t) -> plain_ascii t -> 8 <= zlen t <= 127 ->
  prof_64 q = false -> 0 < hash < 2 ^ 32 ->
  profile_eq q (hd_hash1 h) (hd_hash2 h) hash -> In (q, hash) cache \/ findable q (hd_hash1 h) hash ->
  laid_dir2 buf (fun _ => 0) (number_key 0xDEADBEEF) false true (hd_fstart h) (hd_hash1 h) hash (client_offsets q) true (hd_data_start h) kids ->
  exists f0, forall f, (f0 <= f)%nat ->
    match parse_file (iv_key (aes256 user_key)) f buf None None patch0 patch cache with
    | Ok x => exists q', pf_version x = inr q' /\ profile_eq q' (hd_hash1 h) (hd_hash2 h) (pf_hash x) /\
        pf_key x = DPkg2 (pkg2_keys 0xDEADBEEF) /\
        (client_offsets q' = client_offsets q -> pf_hash x = hash -> shows_trees (pf_kids x) kids)
    | Err _ => False
    | Panic | OutOfFuel => True
    end.
Proof.
  intros buf h p t patch0 patch q hash kids cache Hb Hs Hd Hi W Fn T Lt Q64 Hh Eh0 Src0 L. pose proof (source buf h p q hash cache Hb Hd Eh0 Src0) as Src. rewrite <- client_offsets_eq in L.
  pose proof (C147_package2_key_found buf h p t Hb Hs Hd Hi Fn T Lt) as G.
  assert (O : open_file (iv_key (aes256 user_key)) buf None None = Ok (true, DPkg2 (pkg2_keys 0xDEADBEEF))).
  { unfold open_file, open_decr. cbn [option_map]. rewrite G. reflexivity. }
  assert (E : forall i, nth (i mod 8) (pkg2_keys 0xDEADBEEF) 0 = number_key 0xDEADBEEF i) by (intro; apply number_key_eq; lia).
  destruct (narrow_opens (iv_key (aes256 user_key)) buf h p None None patch0 patch true _ q hash kids cache Hs Hd Hb Hi W O
    ltac:(discriminate) Q64 ltac:(lia) ltac:(unfold u64; pows; lia) Src) as (f0 & X).
  - intro j. cbn. unfold byte. lia.
  - intro j. cbn [used reader_of rd_pks]. rewrite E. unfold number_key, byte. apply Z.mod_pos_bound. lia.
  - cbn [used reader_of rd_ks rd_pks is_pkg2]. eapply laid_dir2_ext; [|exact L]. intro j. symmetry. apply E.
  - exists f0. intros f Hfu. specialize (X f Hfu). destruct (parse_file _ f buf None None patch0 patch cache) as [x| | |]; try exact X.
    destruct X as (q' & V & Eq & Kx & G' & _). exists q'. split; [exact V|]. split; [exact Eq|]. split; [auto|]. rewrite <- !client_offsets_eq. intros Oq Eh. apply (G' Oq Eh).
Qed.
Print Assumptions C157_fixed_key_package.

(** A package with 32-bit counts, first offset scheme, hash 12345 and one image. *)
Definition narrow_package (pks : nat -> Z) (name : list Z) : list Z :=
  let n := zlen (enc_pkg2_name pks name) in
  PKG2 ++ enc_le 8 (n + 9) ++ enc_le 4 16 ++ enc_le 4 0xDEADBEEF ++ enc_le 4 (Z.lxor (rotl32 0xDEADBEEF 7) 12345) ++
  [9; 4] ++ enc_pkg2_name pks name ++ [1; 0; 9] ++ stored OPkg2V1 16 0xDEADBEEF 12345 (29 + n) (33 + n) ++ [115].
Definition narrow_head (n : Z) := mkHeader IV2 (n + 9) 16 24 None 0xDEADBEEF (Z.lxor (rotl32 0xDEADBEEF 7) 12345) FNone.
Definition narrow_free := Eval vm_compute in narrow_package (number_key (narrow_number (narrow_head 0) 12345)) (codes "Mob00000.img").
Definition narrow_fixed := Eval vm_compute in narrow_package (number_key 0xDEADBEEF) (codes "Mob00000.img").
Ltac narrow_laid :=
  apply (dir_narrow _ _ _ _ _ _ _ _ _ _ 24 25 53 54 58 9);
    [reflexivity|discriminate|lia|split; [lia|at_tac]| |split; [lia|at_tac]|];
  [apply (heads_cons _ _ _ _ _ true 25 51 52 53 53 0); [at_tac| |cbn; lia|split; [cbn; lia|at_tac]|split; [lia|at_tac]|constructor];
   apply name_keyed; [reflexivity|apply lit_unicode; reflexivity|reflexivity|vm_compute; split; discriminate|at_tac]
  |apply (offs_image _ _ _ _ _ _ _ _ _ _ 54 58 (codes "Mob00000.img") 58 1 (stored_num OPkg2V1 16 0xDEADBEEF 12345 54 58) 0x73);
    [vm_compute; discriminate|vm_compute; split; congruence|at_tac|apply pkg2_holds; pk_side|auto|at_tac|constructor]].
Example C156_example :
  read_header narrow_free = Ok (narrow_head 25, 16) /\ profile_eq P1196 0xDEADBEEF (hd_hash2 (narrow_head 25)) 12345 /\
  open_file (iv_key (aes256 user_key)) narrow_free None None = Ok (false, pkg2_default) /\
  laid_dir2 narrow_free (fun _ => 0) (number_key (narrow_number (narrow_head 25) 12345)) false true 16 0xDEADBEEF 12345 OPkg2V1 true 24
    [(codes "Mob00000.img", TImage 58 1)] /\
  parse_file (iv_key (aes256 user_key)) 3 narrow_free None None (-1) None [(P1196, 12345)] =
    Ok (mkFile (inr P1196) 12345 [(codes "Mob00000.img", NImage 58 1)] (profile_key (narrow_head 25) P1196 12345) [(P1196, 12345)]).
Proof.
  split; [vm_compute; reflexivity|]. split; [apply C50_cached_hash_check; vm_compute; reflexivity|]. split; [vm_compute; reflexivity|].
  split; [|vm_compute; reflexivity]. narrow_laid.
Qed.
Example C157_example :
  read_header narrow_fixed = Ok (narrow_head 25, 16) /\
  laid_dir2 narrow_fixed (fun _ => 0) (number_key 0xDEADBEEF) false true 16 0xDEADBEEF 12345 OPkg2V1 true 24
    [(codes "Mob00000.img", TImage 58 1)] /\
  parse_file (iv_key (aes256 user_key)) 3 narrow_fixed None None (-1) None [(P1196, 12345)] =
    Ok (mkFile (inr P1196) 12345 [(codes "Mob00000.img", NImage 58 1)] (DPkg2 (pkg2_keys 0xDEADBEEF)) [(P1196, 12345)]).
Proof.
  split; [vm_compute; reflexivity|]. split; [|vm_compute; reflexivity]. narrow_laid.
Qed.

(** C158: C157 without the condition on the length of the first name is false: with a short one the names are taken for
    names that are not enciphered (C148), and the package is refused. *)
Definition narrow_short := Eval vm_compute in narrow_package (number_key 0xDEADBEEF) (codes "Mob.img").
Theorem C158_short_fixed_key_refuted : exists buf h p t q hash kids cache,
  bytes buf /\ zlen buf < 2 ^ 31 /\ read_header buf = Ok (h, p) /\ hd_ident h = IV2 /\ is_pkg2_64 h = false /\
  first_name false buf (hd_data_start h) (enc_pkg2_name (number_key 0xDEADBEEF) t) /\ plain_ascii t /\
  prof_64 q = false /\ 0 < hash < 2 ^ 32 /\ In (q, hash) cache /\ profile_eq q (hd_hash1 h) (hd_hash2 h) hash /\
  laid_dir2 buf (fun _ => 0) (number_key 0xDEADBEEF) false true (hd_fstart h) (hd_hash1 h) hash (client_offsets q) true (hd_data_start h) kids /\
  exists e, parse_file (iv_key (aes256 user_key)) 3 buf None None (-1) None cache = Err e.
Proof.
  exists narrow_short, (narrow_head 15), 16, (codes "Mob.img"), P1196, 12345, [(codes "Mob.img", TImage 48 1)], [(P1196, 12345)].
  split; [byte_list|]. split; [reflexivity|]. split; [vm_compute; reflexivity|]. split; [reflexivity|]. split; [reflexivity|]. split.
  { exists 25, 41, 9, 4. split; [split; [lia|at_tac]|]. split; [discriminate|]. split; [at_tac|]. split; [now right|at_tac]. }
  split; [split; [discriminate|repeat constructor; cbv; intuition congruence]|]. split; [reflexivity|]. split; [lia|]. split; [now left|].
  split; [apply C50_cached_hash_check; vm_compute; reflexivity|]. split; [|eexists; vm_compute; reflexivity].
  apply (dir_narrow _ _ _ _ _ _ _ _ _ _ 24 25 43 44 48 9);
    [reflexivity|discriminate|lia|split; [lia|at_tac]| |split; [lia|at_tac]|].
  - apply (heads_cons _ _ _ _ _ true 25 41 42 43 43 0); [at_tac| |cbn; lia|split; [cbn; lia|at_tac]|split; [lia|at_tac]|constructor].
    apply name_keyed; [reflexivity|apply lit_unicode; reflexivity|reflexivity|vm_compute; split; discriminate|at_tac].
  - apply (offs_image _ _ _ _ _ _ _ _ _ _ 44 48 (codes "Mob.img") 48 1 (stored_num OPkg2V1 16 0xDEADBEEF 12345 44 48) 0x73);
      [vm_compute; discriminate|vm_compute; split; congruence|at_tac|apply pkg2_holds; pk_side|auto|at_tac|constructor].
Qed.
Print Assumptions C158_short_fixed_key_refuted.

Lemma chunks_same ks ks' i : forall l, match chunks_u16 (xor_ks ks i l) with Ok _ => true | _ => false end = match chunks_u16 (xor_ks ks' i l) with Ok _ => true | _ => false end.
Proof.
  intro l. revert i. assert (G : forall n l i, (length l <= n)%nat ->
    match chunks_u16 (xor_ks ks i l) with Ok _ => true | _ => false end = match chunks_u16 (xor_ks ks' i l) with Ok _ => true | _ => false end).
  { induction n as [|n IH]; intros [|a [|b t]] i Le; try reflexivity; cbn in Le; try lia.
    cbn [xor_ks chunks_u16]. specialize (IH t (S (S i)) ltac:(lia)).
    destruct (chunks_u16 (xor_ks ks (S (S i)) t)), (chunks_u16 (xor_ks ks' (S (S i)) t)); try discriminate IH; reflexivity. }
  intro i. apply (G (length l)). lia.
Qed.

(** C159: full statement: a profile whose name key does not fit the package is refused.  False: the check of the first name
    gives the same answer for all keys. *)
Theorem C159_name_check_key_blind : forall st buf k k' d,
  verify_string (reader_of st buf k) d = verify_string (reader_of st buf k') d.
Proof.
  intros st buf k k' d. unfold verify_string. destruct (di_status d); try reflexivity. destruct (di_entries d) as [|e t]; [reflexivity|].
  unfold get_string. destruct (en_name e) as [off len ty]. cbn [sm_type sm_off sm_len].
  assert (B : forall k, rd_buf (reader_of st buf k) = buf) by (intros []; reflexivity).
  destruct ty; cbn [resolve_meta]; try reflexivity;
    unfold resolve_unicode_raw, resolve_ascii_raw, resolve_pkg2_dir_raw, get_decrypt_slice, get_pkg2_decrypt_slice; rewrite !B;
    (destruct (slice buf off (wrap 64 (off + len))) as [l|]; [|reflexivity]); cbn [rbind rmap]; try reflexivity.
  all: pose proof (chunks_same (rd_ks (reader_of st buf k)) (rd_ks (reader_of st buf k')) 0 l);
    pose proof (chunks_same (rd_pks (reader_of st buf k)) (rd_pks (reader_of st buf k')) 0 l).
  all: repeat match goal with |- context [chunks_u16 ?x] => destruct (chunks_u16 x) end; cbn [rmap rbind] in *; congruence || reflexivity.
Qed.
Print Assumptions C159_name_check_key_blind.

Theorem C159_wrong_name_key_refuted : exists buf d k k' t,
  get_string (reader_of (iv_key (aes256 user_key)) buf k) (en_name (hd (mkEnt meta_empty DUnknown 0 0 0) (di_entries d))) = Ok t /\
  get_string (reader_of (iv_key (aes256 user_key)) buf k') (en_name (hd (mkEnt meta_empty DUnknown 0 0 0) (di_entries d))) <> Ok t /\
  prepare (reader_of (iv_key (aes256 user_key)) buf k') (narrow_head 25) true OPkg2V1 12345 3 (dir_new 24 59) = (Ok tt, d) /\
  verify_string (reader_of (iv_key (aes256 user_key)) buf k') d = true.
Proof.
  exists narrow_free, (mkDir 24 59 false EntryCreated [mkEnt (mkMeta 27 24 SPkg2Dir) DImage 1 54 (stored_num OPkg2V1 16 0xDEADBEEF 12345 54 58)]),
    (profile_key (narrow_head 25) P1196 12345), (profile_key (narrow_head 25) P1196 12346), (codes "Mob00000.img").
  split; [vm_compute; reflexivity|]. split; [vm_compute; discriminate|]. split; vm_compute; reflexivity.
Qed.
Print Assumptions C159_wrong_name_key_refuted.

Lemma open_always st buf iv existing : exists o, open_file st buf iv existing = Ok o.
Proof.
  destruct (C144_no_panic st buf pkg2_default [] 0 None) as ([x G] & _). unfold open_file, open_decr.
  assert (X : exists o, rbind (guess_decr st buf) (fun o => Ok match o with Some d => (true, d) | None => (false, pkg2_default) end) = Ok o)
    by (rewrite G; cbn [rbind]; eauto).
  destruct (match existing with Some d => Some d | None => option_map DEcb iv end) as [d|]; [|exact X].
  destruct (C144_no_panic st buf d [] 0 None) as (_ & _ & _ & [-> | [e ->]] & _); [cbn [rbind]; eauto|exact X].
Qed.

Lemma pairs_sound st buf h fuel vf : forall ps s q hash l k s',
  try_pairs st buf h fuel vf ps s = Ok (Some (q, hash, l, k), s') ->
  In (q, hash) ps /\ hash <> 0 /\ Forall (fun n => sane buf (snd n)) l.
Proof.
  assert (B : forall k, rd_buf (reader_of st buf k) = buf) by (intros []; reflexivity).
  induction ps as [|[q1 hash1] t IH]; intros [k0 d0] q hash l k s' H; [discriminate|]. cbn [try_pairs] in H.
  destruct (try_profile st buf h fuel vf q1 hash1 _) as [[l1| | |] [k1 d1]] eqn:T; try discriminate.
  - injection H as -> -> -> -> <-. split; [left; reflexivity|]. unfold try_profile in T.
    assert (D : forall kk dd y s, (let (x, d') := try_decode (reader_of st buf kk) h (is_pkg2 kk) (client_offsets q) hash fuel false dd in (x, (kk, d'))) = (Ok y, s) ->
      hash <> 0 /\ Forall (fun n => sane buf (snd n)) y).
    { intros kk dd y s E. destruct (try_decode (reader_of st buf kk) h (is_pkg2 kk) (client_offsets q) hash fuel false dd) as [x d'] eqn:E'. injection E as Ex _. subst x. apply try_decode_ok in E' as [Nz R].
      split; [exact Nz|]. apply resolve_sane in R. rewrite B in R. exact R. }
    destruct vf; [exact (D _ _ _ _ T)|]. destruct (prepare _ _ _ _ _ _ _) as [[[]| | |] d2]; try discriminate.
    destruct (verify_string _ _); [exact (D _ _ _ _ T)|discriminate].
  - destruct (IH _ _ _ _ _ _ H) as (I & R). split; [right; exact I|exact R].
Qed.

(** C160: a file without a known header is refused with an error, whatever it holds and whatever is offered. *)
Theorem C160_no_header : forall st buf e fuel iv existing patch0 patch cache,
  read_header buf = Err e -> parse_file st fuel buf iv existing patch0 patch cache = Err EPkgVersion.
Proof.
  intros st buf e fuel iv existing patch0 patch cache Hd. destruct (open_always st buf iv existing) as [[v k] O].
  unfold parse_file. rewrite O. cbn [rbind]. unfold header_of. rewrite Hd. reflexivity.
Qed.
Print Assumptions C160_no_header.
Example C160_example : read_header (repeat 7 100) = Err EHeader /\
  parse_file (fun _ _ => 0) 3 (repeat 7 100) None None (-1) (Some 83) [(P1196, 5)] = Err EPkgVersion.
Proof. vm_compute. split; reflexivity. Qed.

(** C161: whatever the content of the file and whatever is offered: if it is opened, the hash fits the header (and the
    version, of a classic package; a profile of the same width, of a newer one), and every image in the tree starts
    with an image header byte and ends (modulo 2^64) inside the file.  The profile is in the cache afterwards. *)
Theorem C161_accepted_file : forall st fuel buf h p iv existing patch0 patch cache x,
  bytes buf -> read_header buf = Ok (h, p) ->
  (let v := match patch with Some v => v | None => patch0 end in v = -1 \/ 0 <= v < 1000000) ->
  parse_file st fuel buf iv existing patch0 patch cache = Ok x ->
  match hd_ident h, pf_version x with
  | IV1, inl v => pf_cache x = cache /\ exists ds, decimal v ds /\ pf_hash x = digit_hash 0 ds /\
      let e := match hd_encver h with Some e => e | None => 770 end in folded (pf_hash x) = e \/ v = e
  | IV2, inr q => pf_hash x <> 0 /\ prof_64 q = is_pkg2_64 h /\ profile_eq q (hd_hash1 h) (hd_hash2 h) (pf_hash x) /\
      In (q, pf_hash x) (pf_cache x) /\ (pf_cache x = cache \/ pf_cache x = cache ++ [(q, pf_hash x)])
  | _, _ => False
  end /\
  Forall (fun n => sane buf (snd n)) (pf_kids x).
Proof.
  intros st fuel buf h p iv existing patch0 patch cache x Hb Hd Hv H.
  destruct (header_fstart buf h p Hb Hd) as (Hf & _ & _ & H1 & H2 & Nb).
  assert (B : forall k, rd_buf (reader_of st buf k) = buf) by (intros []; reflexivity).
  unfold parse_file in H. destruct (open_file st buf iv existing) as [[vf k]| | |]; try discriminate H. cbn [rbind] in H.
  rewrite (header_was _ _ _ Hd) in H. cbn [rbind] in H. destruct (hd_ident h) eqn:Id; [| |discriminate H].
  - match type of H with rmap _ ?y = _ => destruct y as [[[v hash] l]| | |] eqn:P; try discriminate H end. cbn [rmap rbind] in H. injection H as <-.
    cbn [pf_hash pf_version pf_kids pf_cache].
    assert (Henc : forall e, hd_encver h = Some e -> 0 <= e < 65536).
    { intros e He. destruct (C16_header_sound buf h p Hb Hd) as [_ St]. rewrite Id in St. destruct (hd_flags h); try contradiction.
      destruct St as (_ & _ & _ & St). rewrite He in St. destruct St as ([St _] & Le & _). lia. }
    destruct (C69_accepted_tree _ _ _ _ _ _ _ _ _ Hv Henc P) as (_ & D & St). rewrite B in St. auto.
  - match type of H with rmap _ ?y = _ => destruct y as [[[[[q hash] l] k1] c]| | |] eqn:P; try discriminate H end. cbn [rmap rbind] in H. injection H as <-.
    cbn [pf_hash pf_version pf_kids pf_cache]. unfold parse_pkg2 in P.
    match type of P with match ?y with _ => _ end = _ => destruct y as [[[]| | |] d1]; try discriminate P end.
    destruct (try_pairs st buf h fuel vf (cached h cache) (k, d1)) as [[[[[[q1 hash1] l1] k2]|] s]| | |] eqn:T; try discriminate P; cbn [rbind] in P.
    + injection P as -> -> -> -> <-. apply pairs_sound in T as (I & Nz & St). unfold cached in I. apply filter_In in I as [I C].
      apply andb_true_iff in C as [C1 C2]. cbn [fst snd] in *. apply eqb_prop in C1. apply C50_cached_hash_check in C2. auto 10.
    + destruct (try_pairs st buf h fuel vf (candidates h) s) as [[[[[[q1 hash1] l1] k2]|] s']| | |] eqn:T'; try discriminate P; cbn [rbind] in P.
      injection P as -> -> -> -> <-. apply pairs_sound in T' as (I & Nz & St). unfold candidates in I. apply in_flat_map in I as (q1 & I1 & I2).
      apply filter_In in I1 as [_ C]. apply eqb_prop in C. apply in_map_iff in I2 as (y & E & I2). injection E as -> ->.
      split; [|exact St]. repeat split; auto.
      * apply C50_cached_hash_check, C50_generated_accepted; auto.
      * apply in_or_app. right. left. reflexivity.
Qed.
Print Assumptions C161_accepted_file.
Definition sane83 := Eval vm_compute in package83 (key_of Global) (codes "Mob.img").
Example C161_example :
  (exists ds, decimal 83 ds /\ 1876 = digit_hash 0 ds /\ folded 1876 = 172) /\
  sane sane83 (NImage 34 1) /\ profile_eq P1202 5 9 12379813738877118341 /\ sane wide_good (NImage 182 1).
Proof.
  split; [exists [8; 3]; split; [|split; vm_compute; reflexivity]|split; [|split; [apply C50_cached_hash_check; vm_compute; reflexivity|]]].
  - repeat split; try discriminate; repeat constructor; lia.
  - apply (sane_image sane83 34 1 115 (firstn 34 sane83) (skipn 35 sane83)); try reflexivity; try (left; reflexivity); vm_compute; discriminate.
  - apply (sane_image wide_good 182 1 115 (firstn 182 wide_good) (skipn 183 wide_good)); try reflexivity; try (left; reflexivity); vm_compute; discriminate.
Qed.
