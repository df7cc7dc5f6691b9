(** C245-C250: packages opened without knowing their version, down to the values at the end of a path. *)
From Coq Require Import ZArith List Bool Lia ZifyBool ZifyNat.
From Coq Require String Ascii.
From Verif.Model Require Import Base Utf Keys Reader WzStr Header Offset VersionPkg1 VersionPkg2 Directory Image Media Guess File Node Ms World.
From Verif.Spec Require Import Wire Stream StrWire HeaderSpec Version Media PropWire PropView DirWire DirView DirWire2 Aes KeyFind PropEnc PathSpec Tree ChaCha Whole.
From Verif.Proofs Require Import OpenL BaseL WireL KeysL AtL DirL HeaderL MediaL Pkg1L EncL ImageL StrictL VersionL GuessL FileL NodeL WorldL.
From Verif.Props Require Import P_Media P_Header P_Strict P_Version P_Directory P_Node P_Guess P_File P_Whole P_Tour.
Import ListNotations. Import String.StringSyntax.
Open Scope Z_scope.

(** All that can be done with an opened file: it can be asked for paths and walked, in any order and as often as one likes, and it always
    gives what is there; nodes found by lookups stay as long as nothing but lookups is done. *)
Definition usable_file (st : list Z -> nat -> Z) (bl : list Z -> list Z -> Z -> list Z) (f : nat) (w : world) (ok : rd -> Prop) (name : text) (top : place) : Prop :=
  steady st bl f w /\ tours st bl f w ok name top /\ forall w1, used st bl f w w1 -> serves st bl f w1 ok name top.

Lemma world_usable st bl ok f s name cs w : (0 < f)%nat -> opened_world st bl ok f s name (PlDir cs) w -> usable_file st bl f w ok name (PlDir cs).
Proof.
  intros F O. split; [eapply world_steady; eassumption|]. split; [eapply world_tours; eassumption|].
  intros w1 U. eapply world_still_serves; eassumption.
Qed.

Scheme dc_rec' := Minimality for dc Sort Prop with dcl_rec' := Minimality for dcl Sort Prop.
Lemma dcl_shared f ok s s' : sh_rd s = sh_rd s' -> forall kids cs, dcl f ok s kids cs -> dcl f ok s' kids cs.
Proof.
  intro E. apply (dcl_rec' f ok s (fun name n c => dc f ok s' name n c) (fun kids cs => dcl f ok s' kids cs)).
  - rewrite E. intros. econstructor; eassumption.
  - intros. constructor; assumption.
  - constructor.
  - intros. constructor; assumption.
Qed.

(** [file_opens] where it is not known beforehand what parsing comes to. *)
Lemma file_opens_each st bl name buf iv existing patch cache h key kids cs :
  zlen buf < 2 ^ 31 -> header_of buf = Ok h -> (forall j, byte (rd_ks (reader_of st buf key) j)) ->
  filled_with buf (rd_ks (reader_of st buf key)) kids cs ->
  exists f0, forall f x, (f0 <= f)%nat -> parse_file st f buf iv existing patch None cache = Ok x -> pf_key x = key -> shows_trees (pf_kids x) kids ->
    exists w, w_parse st bl f (w_open name buf iv existing patch cache) 0 0 = (Ok tt, w) /\
      usable_file st bl f w (eq (reader_of st buf key)) name (PlDir cs).
Proof.
  intros Hs Hh Hk Fw. set (s0 := mkShared (reader_of st buf key) h true OPkg1 0).
  assert (Bf : rd_buf (reader_of st buf key) = buf) by (destruct key; reflexivity).
  destruct (filled_reads (eq (reader_of st buf key)) s0 kids cs) as (f2 & R); [reflexivity|cbn [s0 sh_rd]; rewrite Bf; exact Hs|exact Hk|cbn [s0 sh_rd]; rewrite Bf; exact Fw|].
  exists (Nat.max f2 1). intros f x Hf Pf Ek Sh. subst key.
  pose proof (R f ltac:(lia) _ Sh (file_settled _ _ _ _ _ _ _ _ _ Pf)) as D. apply (dcl_shared _ _ s0 (shared_of st buf h x) eq_refl) in D.
  destruct (file_read st bl _ f name buf iv existing patch cache h x cs Hh Pf D) as (w & l & E & B & H & N & L).
  exists w. split; [exact E|]. apply (world_usable st bl _ f (shared_of st buf h x)); [lia|]. split; [exact B|]. split.
  - exists name, (KFile true), None, l. split; [exact H|]. split; [exact N|]. split; [left; left; reflexivity|exact L].
  - eexists _, _. split; [exact H|reflexivity].
Qed.

Lemma region_key_bytes r : forall j, byte (iv_key (aes256 user_key) (region_iv r) j).
Proof. intro j. destruct (region_bytes r). apply iv_key_byte; auto. apply user_key_cipher. Qed.

(** The package level: what parsing comes to, whatever the fuel. *)
Lemma classic_parse buf h p r t iv existing patch kids kids' v hash cache f :
  bytes buf -> zlen buf < 2 ^ 31 -> read_header buf = Ok (h, p) -> hd_ident h = IV1 ->
  first_name true buf (hd_data_start h) (enc_str (iv_key (aes256 user_key) (region_iv r)) t) ->
  plain_ascii t -> (r = Sea -> (2 <= length t)%nat) ->
  offered (aes256 user_key) (iv_key (aes256 user_key) (region_iv r)) (length t) (region_iv r) iv existing ->
  shows_trees kids' kids ->
  parse_pkg1 f (reader_of (iv_key (aes256 user_key)) buf (DEcb (region_iv r))) h false (zlen buf) patch = Ok (v, hash, kids') ->
  parse_file (iv_key (aes256 user_key)) f buf iv existing patch None cache = Ok (mkFile (inl v) hash kids' (DEcb (region_iv r)) cache).
Proof.
  intros Hb Hs Hd Id Fn T Hr Of Sh P.
  assert (Fn' : first_name (classic h) buf (hd_data_start h) (enc_str (iv_key (aes256 user_key) (region_iv r)) t)) by (unfold classic; rewrite Id; exact Fn).
  pose proof (opened buf h p r t iv existing Hb Hs Hd Fn' T Hr Of) as O.
  unfold parse_file. rewrite O. cbn [rbind]. rewrite (header_was _ _ _ Hd). cbn [rbind]. rewrite Id. cbn [is_pkg2]. rewrite P. reflexivity.
Qed.
Lemma buf_not_empty buf h p : bytes buf -> read_header buf = Ok (h, p) -> zlen buf <> 0.
Proof.
  intros Hb Hd. destruct (header_fstart buf h p Hb Hd) as (_ & _ & _ & _ & _ & Nb).
  destruct buf; [congruence|rewrite zlen_cons; pose proof (zlen_nonneg buf); lia].
Qed.

(** C245: a package without a version field whose offsets are made with version 770 is read back in full, whether no version is given or 770. *)
Theorem C245_unversioned_package : forall buf h p r t iv existing patch kids cache,
  bytes buf -> zlen buf < 2 ^ 31 -> read_header buf = Ok (h, p) -> hd_ident h = IV1 -> hd_encver h = None ->
  patch = -1 \/ patch = 770 ->
  laid_dir buf (iv_key (aes256 user_key) (region_iv r)) (hd_fstart h) (digit_hash 0 [7; 7; 0]) (hd_data_start h) kids ->
  first_name true buf (hd_data_start h) (enc_str (iv_key (aes256 user_key) (region_iv r)) t) ->
  plain_ascii t -> (r = Sea -> (2 <= length t)%nat) ->
  offered (aes256 user_key) (iv_key (aes256 user_key) (region_iv r)) (length t) (region_iv r) iv existing ->
  exists f0 kids', shows_trees kids' kids /\ forall f, (f0 <= f)%nat ->
    parse_file (iv_key (aes256 user_key)) f buf iv existing patch None cache
    = Ok (mkFile (inl 770) (digit_hash 0 [7; 7; 0]) kids' (DEcb (region_iv r)) cache).
Proof.
  intros buf h p r t iv existing patch kids cache Hb Hs Hd Id He Hp L Fn T Hr Of.
  destruct (header_fstart buf h p Hb Hd) as (Hf & Hw & _). specialize (Hw Id).
  pose proof (buf_not_empty buf h p Hb Hd) as Nz. set (rd := reader_of (iv_key (aes256 user_key)) buf (DEcb (region_iv r))).
  destruct (C22_directory_roundtrip rd h false (digit_hash 0 [7; 7; 0]) (hd_data_start h) (zlen buf) kids Hs (region_key_bytes r) Id Hw Hf) as (f0 & kids' & d' & Sh & X);
    [vm_compute; split; congruence|exact Nz|exact L|].
  exists f0, kids'. split; [exact Sh|]. intros f Hfu. eapply classic_parse; try eassumption. fold rd.
  assert (Y : try_decode rd h false OPkg1 (digit_hash 0 [7; 7; 0]) f false (dir_new (hd_data_start h) (zlen buf)) = (Ok kids', d')).
  { rewrite try_decode_eq by (reflexivity || (vm_compute; congruence)). apply X, Hfu. }
  unfold parse_pkg1. rewrite He. destruct Hp as [-> | ->]; cbv iota zeta.
  - change (-1 =? -1) with true. cbv iota.
    change (version_scan V64 V64 (V64 + 10)) with ((770, digit_hash 0 [7; 7; 0]) :: version_items 10 V64 771 780). cbn [try_versions].
    change (true && (770 =? 113)) with false. rewrite Y. reflexivity.
  - change (770 =? -1) with false. cbv iota. change (check_version V64 770) with (digit_hash 0 [7; 7; 0]). change (true && (V64 =? 113)) with false. rewrite Y. reflexivity.
Qed.
Print Assumptions C245_unversioned_package.

(** A package without a version field. *)
Definition full770 : list Z := Eval vm_compute in
  let ks := key_of Global in let img := ser_image ks small_props in let n := zlen img in
  PKG1 ++ enc_le 8 (16 + n) ++ enc_le 4 16 ++
  [1] ++ [4] ++ enc_str ks (codes "Mob.img") ++ [n; 0] ++ stored OPkg1 16 0 (digit_hash 0 [7; 7; 0]) 28 32 ++ img.
Definition head770 := mkHeader IV1 (zlen full770 - 16) 16 16 None 0 0 FNone.
Definition kids770 : list (list Z * dtree) := [(codes "Mob.img", TImage 32 (zlen full770 - 32))].
Example C245_example :
  bytes full770 /\ read_header full770 = Ok (head770, 16) /\
  laid_dir full770 (iv_key (aes256 user_key) (region_iv Global)) 16 (digit_hash 0 [7; 7; 0]) 16 kids770 /\
  first_name true full770 16 (enc_str (iv_key (aes256 user_key) (region_iv Global)) (codes "Mob.img")) /\
  filled_with full770 (iv_key (aes256 user_key) (region_iv Global)) kids770 [(codes "Mob.img", CImage small_props)] /\
  parse_file (iv_key (aes256 user_key)) 5 full770 None None (-1) None [] =
    Ok (mkFile (inl 770) 59185 [(codes "Mob.img", NImage 32 (zlen full770 - 32))] (DEcb [77; 35; 199; 43]) []) /\
  parse_file (iv_key (aes256 user_key)) 5 full770 None None 771 None [] = Err EGameHash.
Proof.
  split; [byte_list|]. split; [vm_compute; reflexivity|]. change (digit_hash 0 [7; 7; 0]) with 59185. split; [|split; [|split]].
  - apply (dir_at _ _ _ _ 16 17 32 1); [lia|split; [lia|at_tac]|].
    apply (ents_image _ _ _ _ 17 26 32 32 0 (codes "Mob.img") 32 (zlen full770 - 32) 0x73);
      [apply head_inline; [apply lit_unicode; reflexivity|at_tac|at_tac]|classic_tail 28|auto|at_tac|constructor].
  - exists 17, 26, 1, 4. split; [split; [lia|at_tac]|]. split; [lia|]. split; [at_tac|]. split; [lia|at_tac].
  - apply filled_image; [apply (not_text_img (codes "Mob"))| |repeat constructor|constructor].
    apply (serialised_image _ _ _ (zlen full770)); [vm_compute; reflexivity|exact small_good|at_tac].
  - vm_compute. repeat split.
Qed.

(** C246: ... and it serves its whole content. *)
Theorem C246_unversioned_content : forall bl name buf h p r t iv existing patch kids cs cache,
  bytes buf -> zlen buf < 2 ^ 31 -> read_header buf = Ok (h, p) -> hd_ident h = IV1 -> hd_encver h = None ->
  patch = -1 \/ patch = 770 ->
  laid_dir buf (iv_key (aes256 user_key) (region_iv r)) (hd_fstart h) (digit_hash 0 [7; 7; 0]) (hd_data_start h) kids ->
  first_name true buf (hd_data_start h) (enc_str (iv_key (aes256 user_key) (region_iv r)) t) ->
  plain_ascii t -> (r = Sea -> (2 <= length t)%nat) ->
  offered (aes256 user_key) (iv_key (aes256 user_key) (region_iv r)) (length t) (region_iv r) iv existing ->
  filled_with buf (iv_key (aes256 user_key) (region_iv r)) kids cs ->
  exists f0, forall f, (f0 <= f)%nat -> exists w,
    w_parse (iv_key (aes256 user_key)) bl f (w_open name buf iv existing patch cache) 0 0 = (Ok tt, w) /\
    usable_file (iv_key (aes256 user_key)) bl f w (eq (reader_of (iv_key (aes256 user_key)) buf (DEcb (region_iv r)))) name (PlDir cs).
Proof.
  intros bl name buf h p r t iv existing patch kids cs cache Hb Hs Hd Id He Hp L Fn T Hr Of Fw.
  destruct (C245_unversioned_package buf h p r t iv existing patch kids cache) as (f1 & kids' & Sh & P); [assumption..|].
  destruct (file_opens_each (iv_key (aes256 user_key)) bl name buf iv existing patch cache h (DEcb (region_iv r)) kids cs Hs (header_was _ _ _ Hd)
    (region_key_bytes r) Fw) as (f2 & W).
  exists (Nat.max f1 f2). intros f Hf. eapply W; [lia|apply P; lia|reflexivity|exact Sh].
Qed.
Print Assumptions C246_unversioned_content.
(** Hypotheses: see [C245_example]. *)
Example C246_example :
  (let st := iv_key (aes256 user_key) in
   let w := snd (w_parse st chacha_block 20 (w_open (codes "Mob.wz") full770 None None (-1) []) 0 0) in
   let '(x, w1) := w_at_path_parsed st chacha_block 20 w 0 (codes "Mob.img/s/v") in
   match x with
   | Ok i => prop_at w1 i = Some (OVector 3 (-4)) /\ get_full_path 9 (w_heap w1) i = Ok (codes "Mob.wz/Mob.img/s/v") /\
             seen (w_walk st chacha_block 20 (fun l => l) 9 true w1 0) = [codes "Mob.wz"; codes "Mob.wz/Mob.img"; codes "Mob.wz/Mob.img/a"; codes "Mob.wz/Mob.img/s"; codes "Mob.wz/Mob.img/s/x"; codes "Mob.wz/Mob.img/s/v"]
   | _ => False
   end).
Proof. vm_compute. repeat split. Qed.

(** [u] comes before [v] among the versions tried and fits the field, too. *)
Definition rival (v e u : Z) : Prop := 1 <= u < v /\ (u = e \/ exists ds, decimal u ds /\ folded (digit_hash 0 ds) = e).

Lemma no_hash r h p2 f b d : try_decode r h p2 OPkg1 0 f b d = (Err EGameHash, d).
Proof. reflexivity. Qed.
Lemma skip_versions r h p2 f d v hash rest : forall l, (forall x, In x l -> snd x = 0) ->
  try_versions r h p2 f false (l ++ (v, hash) :: rest) d = try_versions r h p2 f false ((v, hash) :: rest) d.
Proof.
  induction l as [|[u z] l IH]; intro H; [reflexivity|]. pose proof (H _ (or_introl eq_refl)) as Z0. cbn [snd] in Z0. subst z.
  rewrite <- IH by (intros x I; apply H; right; exact I). cbn [app]. cbn [try_versions]. rewrite no_hash. reflexivity.
Qed.

(** C247: if no lower version has the same field, a classic package is read back in full without a version. *)
Theorem C247_lowest_version : forall buf h p r t iv existing v ds kids cache,
  bytes buf -> zlen buf < 2 ^ 31 -> read_header buf = Ok (h, p) -> hd_ident h = IV1 ->
  1 <= v <= 2000 -> decimal v ds -> hd_encver h = Some (folded (digit_hash 0 ds)) -> (forall u, ~ rival v (folded (digit_hash 0 ds)) u) ->
  laid_dir buf (iv_key (aes256 user_key) (region_iv r)) (hd_fstart h) (digit_hash 0 ds) (hd_data_start h) kids ->
  first_name true buf (hd_data_start h) (enc_str (iv_key (aes256 user_key) (region_iv r)) t) ->
  plain_ascii t -> (r = Sea -> (2 <= length t)%nat) ->
  offered (aes256 user_key) (iv_key (aes256 user_key) (region_iv r)) (length t) (region_iv r) iv existing ->
  exists f0 kids', shows_trees kids' kids /\ forall f, (f0 <= f)%nat ->
    parse_file (iv_key (aes256 user_key)) f buf iv existing (-1) None cache
    = Ok (mkFile (inl v) (digit_hash 0 ds) kids' (DEcb (region_iv r)) cache).
Proof.
  intros buf h p r t iv existing v ds kids cache Hb Hs Hd Id Hv D He Nr L Fn T Hr Of.
  destruct (header_fstart buf h p Hb Hd) as (Hf & Hw & _). specialize (Hw Id).
  pose proof (buf_not_empty buf h p Hb Hd) as Nz. set (rd := reader_of (iv_key (aes256 user_key)) buf (DEcb (region_iv r))).
  pose proof (digit_hash_range v ds D ltac:(lia)) as [P Pm].
  assert (Hh : u32 (digit_hash 0 ds)) by (unfold u32; pows; lia).
  destruct (C22_directory_roundtrip rd h false (digit_hash 0 ds) (hd_data_start h) (zlen buf) kids Hs (region_key_bytes r) Id Hw Hf Hh Nz L) as (f0 & kids' & d' & Sh & X).
  exists f0, kids'. split; [exact Sh|]. intros f Hfu. eapply classic_parse; try eassumption. fold rd.
  set (e := folded (digit_hash 0 ds)) in *.
  assert (Y : try_decode rd h false OPkg1 (digit_hash 0 ds) f false (dir_new (hd_data_start h) (zlen buf)) = (Ok kids', d')).
  { rewrite try_decode_eq by (reflexivity || lia). apply X, Hfu. }
  pose proof (C09_guess_complete v ds Hv D) as I. fold e in I. cbn [pkg1_candidates] in I. unfold usable in I. apply filter_In in I as [I _].
  apply in_split in I as (before & after & E).
  unfold parse_pkg1. rewrite He. change (-1 =? -1) with true. cbv iota zeta. rewrite E.
  rewrite skip_versions; [cbn [try_versions]; cbn [andb]; rewrite Y; reflexivity|].
  assert (SS : Sorted.StronglySorted Z.lt (map fst (version_scan e 1 2000))).
  { rewrite version_scan_eq, map_map. cbn [fst]. rewrite map_id. apply zrange_sorted. }
  intros [u z] Iu. cbn [snd]. destruct (Z.eq_dec z 0) as [|Nz0]; [assumption|exfalso].
  assert (Lt : u < v).
  { rewrite E, map_app in SS. cbn [map fst] in SS. clear - SS Iu. induction before as [|[a b] before IH]; [destruct Iu|].
    cbn [map app fst] in SS. inversion SS as [|? ? S1 S2]; subst. destruct Iu as [Eq|Iu]; [|auto]. injection Eq as -> ->.
    rewrite Forall_forall in S2. apply S2. apply in_app_iff. right. left. reflexivity. }
  assert (U : In (u, z) (usable (version_scan e 1 2000))).
  { unfold usable. apply filter_In. split; [rewrite E; apply in_app_iff; left; exact Iu|]. cbn [snd]. lia. }
  apply usable_scan_In in U. destruct U as (U1 & U2 & U3).
  destruct (decimal_exists u ltac:(lia)) as [du Du]. pose proof (version_hash_exact u du Du ltac:(lia)) as Eu. pose proof (digit_hash_range u du Du ltac:(lia)) as [Pu _].
  assert (He0 : 0 <= e < 2 ^ 8).
  { unfold e, folded. assert (M : forall x, 0 <= x mod 256 < 2 ^ 8) by (intro; apply Z.mod_pos_bound; lia).
    apply (lxor_range 8); [lia|lia|]. apply lxor_range; [lia| |]; apply lxor_range; auto; lia. }
  destruct (check_version_spec e u _ Eu Pu ltac:(change (2 ^ 32) with 4294967296; lia)) as [S1 _].
  apply (Nr u). split; [lia|]. rewrite U2 in U3. destruct (proj1 S1 U3) as [S|S]; [right; exists du; auto|left; exact S].
Qed.
Print Assumptions C247_lowest_version.
(** [full83] (other hypotheses: see [C223_example]): no version below 83 has its field 172 (a package of version 173 or above with that field would have the rival 172). *)
Example C247_example :
  (forall u, ~ rival 83 (folded (digit_hash 0 [8; 3])) u) /\ folded (digit_hash 0 [8; 3]) = 172 /\ rival 2000 172 172 /\
  rmap (fun x => (pf_version x, pf_hash x, pf_key x)) (parse_file (iv_key (aes256 user_key)) 5 full83 None None (-1) None []) =
    Ok (inl 83, 1876, DEcb [77; 35; 199; 43]).
Proof.
  assert (N : usable (version_scan 172 1 82) = []) by (vm_compute; reflexivity).
  split; [|split; [vm_compute; reflexivity|split; [split; [lia|left; reflexivity]|vm_compute; reflexivity]]].
  change (folded (digit_hash 0 [8; 3])) with 172. intros u (Hu & C).
  destruct (decimal_exists u ltac:(lia)) as [du Du]. pose proof (version_hash_exact u du Du ltac:(lia)) as Eu. pose proof (digit_hash_range u du Du ltac:(lia)) as [Pu _].
  destruct (check_version_spec 172 u _ Eu Pu ltac:(change (2 ^ 32) with 4294967296; lia)) as [S1 _].
  assert (Nz : check_version 172 u <> 0).
  { apply S1. destruct C as [C|(d2 & D2 & F2)]; [right; exact C|left]. rewrite <- Eu, (version_hash_exact u d2 D2 ltac:(lia)). exact F2. }
  assert (I : In (u, check_version 172 u) (usable (version_scan 172 1 82))) by (apply usable_scan_In; split; [lia|auto]). rewrite N in I. exact I.
Qed.

(** C248: ... and serves its whole content. *)
Theorem C248_lowest_version_content : forall bl name buf h p r t iv existing v ds kids cs cache,
  bytes buf -> zlen buf < 2 ^ 31 -> read_header buf = Ok (h, p) -> hd_ident h = IV1 ->
  1 <= v <= 2000 -> decimal v ds -> hd_encver h = Some (folded (digit_hash 0 ds)) -> (forall u, ~ rival v (folded (digit_hash 0 ds)) u) ->
  laid_dir buf (iv_key (aes256 user_key) (region_iv r)) (hd_fstart h) (digit_hash 0 ds) (hd_data_start h) kids ->
  first_name true buf (hd_data_start h) (enc_str (iv_key (aes256 user_key) (region_iv r)) t) ->
  plain_ascii t -> (r = Sea -> (2 <= length t)%nat) ->
  offered (aes256 user_key) (iv_key (aes256 user_key) (region_iv r)) (length t) (region_iv r) iv existing ->
  filled_with buf (iv_key (aes256 user_key) (region_iv r)) kids cs ->
  exists f0, forall f, (f0 <= f)%nat -> exists w,
    w_parse (iv_key (aes256 user_key)) bl f (w_open name buf iv existing (-1) cache) 0 0 = (Ok tt, w) /\
    usable_file (iv_key (aes256 user_key)) bl f w (eq (reader_of (iv_key (aes256 user_key)) buf (DEcb (region_iv r)))) name (PlDir cs).
Proof.
  intros bl name buf h p r t iv existing v ds kids cs cache Hb Hs Hd Id Hv D He Nr L Fn T Hr Of Fw.
  destruct (C247_lowest_version buf h p r t iv existing v ds kids cache) as (f1 & kids' & Sh & P); [assumption..|].
  destruct (file_opens_each (iv_key (aes256 user_key)) bl name buf iv existing (-1) cache h (DEcb (region_iv r)) kids cs Hs (header_was _ _ _ Hd)
    (region_key_bytes r) Fw) as (f2 & W).
  exists (Nat.max f1 f2). intros f Hf. eapply W; [lia|apply P; lia|reflexivity|exact Sh].
Qed.
Print Assumptions C248_lowest_version_content.
Example C248_example :
  (let st := iv_key (aes256 user_key) in
   let w := snd (w_parse st chacha_block 20 (w_open (codes "Mob.wz") full83 None None (-1) []) 0 0) in
   let '(x, w1) := w_at_path_parsed st chacha_block 20 w 0 (codes "Mob.img/s/v") in
   match x with
   | Ok i => prop_at w1 i = Some (OVector 3 (-4)) /\ get_full_path 9 (w_heap w1) i = Ok (codes "Mob.wz/Mob.img/s/v") /\
             seen (w_walk st chacha_block 20 (fun l => l) 9 true w1 0) = [codes "Mob.wz"; codes "Mob.wz/Mob.img"; codes "Mob.wz/Mob.img/a"; codes "Mob.wz/Mob.img/s"; codes "Mob.wz/Mob.img/s/x"; codes "Mob.wz/Mob.img/s/v"; codes "Mob.wz/d"; codes "Mob.wz/d/j.img"; codes "Mob.wz/d/j.img/a"; codes "Mob.wz/d/j.img/s"; codes "Mob.wz/d/j.img/s/x"; codes "Mob.wz/d/j.img/s/v"]
   | _ => False
   end).
Proof. vm_compute. repeat split. Qed.

(** C249: a package with 32-bit counts, whose hash is cached or can be found, is never refused, and serves its whole content if its own
    hash is taken. *)
Theorem C249_narrow_content : forall bl name buf h p iv existing patch q hash kids cs cache,
  bytes buf -> zlen buf < 2 ^ 31 -> read_header buf = Ok (h, p) -> hd_ident h = IV2 -> is_pkg2_64 h = false ->
  open_file (iv_key (aes256 user_key)) buf iv existing = Ok (false, pkg2_default) ->
  prof_64 q = false -> 0 < hash < 2 ^ 32 ->
  profile_eq q (hd_hash1 h) (hd_hash2 h) hash -> In (q, hash) cache \/ findable q (hd_hash1 h) hash ->
  laid_dir2 buf (fun _ => 0) (number_key (narrow_number h hash)) false true (hd_fstart h) (hd_hash1 h) hash (client_offsets q) true (hd_data_start h) kids ->
  filled_with buf (fun _ => 0) kids cs ->
  exists f0, forall f, (f0 <= f)%nat ->
    match parse_file (iv_key (aes256 user_key)) f buf iv existing patch None cache with
    | Ok x => exists q', pf_version x = inr q' /\ profile_eq q' (hd_hash1 h) (hd_hash2 h) (pf_hash x) /\
        (client_offsets q' = client_offsets q -> pf_hash x = hash -> exists w,
          w_parse (iv_key (aes256 user_key)) bl f (w_open name buf iv existing patch cache) 0 0 = (Ok tt, w) /\
          usable_file (iv_key (aes256 user_key)) bl f w (eq (reader_of (iv_key (aes256 user_key)) buf (pf_key x))) name (PlDir cs))
    | Err _ => False
    | Panic | OutOfFuel => True
    end.
Proof.
  intros bl name buf h p iv existing patch q hash kids cs cache Hb Hs Hd Hi W O Q64 Hh Eh0 Src0 L Fw.
  pose proof (source buf h p q hash cache Hb Hd Eh0 Src0) as Src. rewrite <- client_offsets_eq in L.
  assert (U : u32 (narrow_number h hash)).
  { unfold narrow_number. rewrite <- !mix_spec. apply mix_u32. apply (lxor_range 32); [lia| |lia]. apply mix_u32.
    apply (lxor_range 32); [lia| |lia]. apply (lxor_range 32); [lia|apply u32_mod|lia]. }
  assert (U' : 0 <= narrow_number h hash < 2 ^ 64) by (unfold u32 in U; pows; lia).
  assert (K : FileL.used h false pkg2_default q hash = DPkg2 (pkg2_keys (narrow_number h hash))).
  { unfold FileL.used, profile_key. rewrite Q64. unfold kmst1199_key, narrow_number. rewrite !mix_spec. rewrite (wrap_small 32 hash) by lia. reflexivity. }
  assert (E : forall i, nth (i mod 8) (pkg2_keys (narrow_number h hash)) 0 = number_key (narrow_number h hash) i) by (intro; apply number_key_eq, U').
  destruct (narrow_opens (iv_key (aes256 user_key)) buf h p iv existing patch None false pkg2_default q hash kids cache Hs Hd Hb Hi W O
    (fun _ => eq_refl) Q64 ltac:(lia) ltac:(unfold u64; pows; lia) Src) as (f1 & X).
  - rewrite K. intro j. cbn [reader_of rd_ks]. unfold byte. cbn. lia.
  - rewrite K. intro j. cbn [reader_of rd_pks]. rewrite E. unfold number_key, byte. apply Z.mod_pos_bound. lia.
  - rewrite K. cbn [reader_of rd_ks rd_pks is_pkg2]. eapply laid_dir2_ext; [|exact L]. intro j. symmetry. apply E.
  - destruct (file_opens_each (iv_key (aes256 user_key)) bl name buf iv existing patch cache h (DPkg2 (pkg2_keys (narrow_number h hash))) kids cs Hs (header_was _ _ _ Hd))
      as (f2 & Wd); [intro j; unfold byte; cbn; lia|exact Fw|].
    exists (Nat.max f1 f2). intros f Hf. specialize (X f ltac:(lia)). destruct (parse_file _ f buf iv existing patch None cache) as [x| | |] eqn:Pf; try exact X.
    destruct X as (q' & V & Eq & _ & G & _). exists q'. split; [exact V|]. split; [exact Eq|]. rewrite <- !client_offsets_eq. intros Oq Eh. destruct (G Oq Eh) as [S1 S2].
    rewrite S2, K. eapply Wd; [lia|exact Pf|rewrite S2; exact K|exact S1].
Qed.
Print Assumptions C249_narrow_content.

(** A package with 32-bit counts, first offset scheme, hash 12345, and an image with properties. *)
Definition narrow_full (pks : nat -> Z) : list Z :=
  let img := ser_image (fun _ => 0) small_props in let n := zlen img in
  PKG2 ++ enc_le 8 (42 + n) ++ enc_le 4 16 ++ enc_le 4 0xDEADBEEF ++ enc_le 4 (Z.lxor (rotl32 0xDEADBEEF 7) 12345) ++
  [9; 4] ++ enc_pkg2_name pks (codes "Mob00000.img") ++ [n; 0; 9] ++ stored OPkg2V1 16 0xDEADBEEF 12345 54 58 ++ img.
Definition full_free := Eval vm_compute in narrow_full (number_key (narrow_number (narrow_head 0) 12345)).
Definition full_fixed := Eval vm_compute in narrow_full (number_key 0xDEADBEEF).
Definition narrow_kids : list (list Z * dtree) := [(codes "Mob00000.img", TImage 58 (zlen full_free - 58))].
Ltac full_laid :=
  apply (dir_narrow _ _ _ _ _ _ _ _ _ _ 24 25 53 54 58 9);
    [reflexivity|discriminate|lia|split; [lia|at_tac]| |split; [lia|at_tac]|];
  [apply (heads_cons _ _ _ _ _ true 25 51 52 53 53 0); [at_tac| |vm_compute; discriminate|split; [vm_compute; split; congruence|at_tac]|split; [lia|at_tac]|constructor];
   apply name_keyed; [reflexivity|apply lit_unicode; reflexivity|reflexivity|vm_compute; split; discriminate|at_tac]
  |apply (offs_image _ _ _ _ _ _ _ _ _ _ 54 58 (codes "Mob00000.img") 58 (zlen full_free - 58) (stored_num OPkg2V1 16 0xDEADBEEF 12345 54 58) 0x73);
    [vm_compute; discriminate|vm_compute; split; congruence|at_tac|apply pkg2_holds; pk_side|auto|at_tac|constructor]].
Example C249_example :
  bytes full_free /\ read_header full_free = Ok (narrow_head (zlen full_free - 25), 16) /\ profile_eq P1196 0xDEADBEEF (hd_hash2 (narrow_head 0)) 12345 /\
  open_file (iv_key (aes256 user_key)) full_free None None = Ok (false, pkg2_default) /\
  laid_dir2 full_free (fun _ => 0) (number_key (narrow_number (narrow_head 0) 12345)) false true 16 0xDEADBEEF 12345 OPkg2V1 true 24 narrow_kids /\
  filled_with full_free (fun _ => 0) narrow_kids [(codes "Mob00000.img", CImage small_props)] /\
  rmap (fun x => (pf_version x, pf_hash x)) (parse_file (iv_key (aes256 user_key)) 5 full_free None None (-1) None [(P1196, 12345)]) = Ok (inr P1196, 12345) /\
  (let st := iv_key (aes256 user_key) in
   let w := snd (w_parse st chacha_block 20 (w_open (codes "Mob.wz") full_free None None (-1) [(P1196, 12345)]) 0 0) in
   let '(x, w1) := w_at_path_parsed st chacha_block 20 w 0 (codes "Mob00000.img/s/v") in
   match x with
   | Ok i => prop_at w1 i = Some (OVector 3 (-4)) /\ get_full_path 9 (w_heap w1) i = Ok (codes "Mob.wz/Mob00000.img/s/v") /\
             seen (w_walk st chacha_block 20 (fun l => l) 9 true w1 0) = [codes "Mob.wz"; codes "Mob.wz/Mob00000.img"; codes "Mob.wz/Mob00000.img/a"; codes "Mob.wz/Mob00000.img/s"; codes "Mob.wz/Mob00000.img/s/x"; codes "Mob.wz/Mob00000.img/s/v"]
   | _ => False
   end).
Proof.
  split; [byte_list|]. split; [vm_compute; reflexivity|]. split; [apply C50_cached_hash_check; vm_compute; reflexivity|]. split; [vm_compute; reflexivity|].
  split; [full_laid|]. split; [|vm_compute; repeat split].
  apply filled_image; [apply (not_text_img (codes "Mob00000"))| |repeat constructor|constructor].
  apply (serialised_image _ _ _ (zlen full_free)); [vm_compute; reflexivity|exact small_good|at_tac].
Qed.

(** C250: the same with the fixed key of package-2 names. *)
Theorem C250_fixed_key_content : forall bl name buf h p t patch q hash kids cs cache,
  bytes buf -> zlen buf < 2 ^ 31 -> read_header buf = Ok (h, p) -> hd_ident h = IV2 -> is_pkg2_64 h = false ->
  first_name false buf (hd_data_start h) (enc_pkg2_name (number_key 0xDEADBEEF) t) -> plain_ascii t -> 8 <= zlen t <= 127 ->
  prof_64 q = false -> 0 < hash < 2 ^ 32 ->
  profile_eq q (hd_hash1 h) (hd_hash2 h) hash -> In (q, hash) cache \/ findable q (hd_hash1 h) hash ->
  laid_dir2 buf (fun _ => 0) (number_key 0xDEADBEEF) false true (hd_fstart h) (hd_hash1 h) hash (client_offsets q) true (hd_data_start h) kids ->
  filled_with buf (fun _ => 0) kids cs ->
  exists f0, forall f, (f0 <= f)%nat ->
    match parse_file (iv_key (aes256 user_key)) f buf None None patch None cache with
    | Ok x => exists q', pf_version x = inr q' /\ profile_eq q' (hd_hash1 h) (hd_hash2 h) (pf_hash x) /\
        (client_offsets q' = client_offsets q -> pf_hash x = hash -> exists w,
          w_parse (iv_key (aes256 user_key)) bl f (w_open name buf None None patch cache) 0 0 = (Ok tt, w) /\
          usable_file (iv_key (aes256 user_key)) bl f w (eq (reader_of (iv_key (aes256 user_key)) buf (DPkg2 (pkg2_keys 0xDEADBEEF)))) name (PlDir cs))
    | Err _ => False
    | Panic | OutOfFuel => True
    end.
Proof.
  intros bl name buf h p t patch q hash kids cs cache Hb Hs Hd Hi W Fn T Lt Q64 Hh Eh0 Src0 L Fw.
  destruct (C157_fixed_key_package buf h p t patch None q hash kids cache) as (f1 & X); [assumption..|].
  destruct (file_opens_each (iv_key (aes256 user_key)) bl name buf None None patch cache h (DPkg2 (pkg2_keys 0xDEADBEEF)) kids cs Hs (header_was _ _ _ Hd))
    as (f2 & Wd); [intro j; unfold byte; cbn; lia|exact Fw|].
  exists (Nat.max f1 f2). intros f Hf. specialize (X f ltac:(lia)). destruct (parse_file _ f buf None None patch None cache) as [x| | |] eqn:Pf; try exact X.
  destruct X as (q' & V & Eq & Kx & G). exists q'. split; [exact V|]. split; [exact Eq|]. intros Oq Eh.
  eapply Wd; [lia|exact Pf|exact Kx|exact (G Oq Eh)].
Qed.
Print Assumptions C250_fixed_key_content.
Example C250_example :
  bytes full_fixed /\ read_header full_fixed = Ok (narrow_head (zlen full_fixed - 25), 16) /\ profile_eq P1196 0xDEADBEEF (hd_hash2 (narrow_head 0)) 12345 /\
  first_name false full_fixed 24 (enc_pkg2_name (number_key 0xDEADBEEF) (codes "Mob00000.img")) /\
  laid_dir2 full_fixed (fun _ => 0) (number_key 0xDEADBEEF) false true 16 0xDEADBEEF 12345 OPkg2V1 true 24 narrow_kids /\
  filled_with full_fixed (fun _ => 0) narrow_kids [(codes "Mob00000.img", CImage small_props)] /\
  rmap (fun x => (pf_version x, pf_hash x)) (parse_file (iv_key (aes256 user_key)) 5 full_fixed None None (-1) None [(P1196, 12345)]) = Ok (inr P1196, 12345) /\
  (let st := iv_key (aes256 user_key) in
   let w := snd (w_parse st chacha_block 20 (w_open (codes "Mob.wz") full_fixed None None (-1) [(P1196, 12345)]) 0 0) in
   let '(x, w1) := w_at_path_parsed st chacha_block 20 w 0 (codes "Mob00000.img/s/v") in
   match x with
   | Ok i => prop_at w1 i = Some (OVector 3 (-4)) /\ get_full_path 9 (w_heap w1) i = Ok (codes "Mob.wz/Mob00000.img/s/v") /\
             seen (w_walk st chacha_block 20 (fun l => l) 9 true w1 0) = [codes "Mob.wz"; codes "Mob.wz/Mob00000.img"; codes "Mob.wz/Mob00000.img/a"; codes "Mob.wz/Mob00000.img/s"; codes "Mob.wz/Mob00000.img/s/x"; codes "Mob.wz/Mob00000.img/s/v"]
   | _ => False
   end).
Proof.
  split; [byte_list|]. split; [vm_compute; reflexivity|]. split; [apply C50_cached_hash_check; vm_compute; reflexivity|]. split; [exists 25, 51, 9, 4; split; [split; [lia|at_tac]|]; split; [discriminate|]; split; [at_tac|]; split; [now right|at_tac]|].
  split; [full_laid|]. split; [|vm_compute; repeat split].
  apply filled_image; [apply (not_text_img (codes "Mob00000"))| |repeat constructor|constructor].
  apply (serialised_image _ _ _ (zlen full_fixed)); [vm_compute; reflexivity|exact small_good|at_tac].
Qed.
