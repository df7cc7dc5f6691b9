(** C213-C219: readers that share their decryptors. *)
From Coq Require Import ZArith List Bool Lia ZifyBool ZifyNat.
From Verif.Model Require Import Base Utf Keys Reader WzStr Guess Media BaseReader.
From Verif.Spec Require Import Stream Handles.
From Verif.Proofs Require Import BaseL KeysL StringL BaseReaderL.

(** What a program does with readers and decryptors: ask for a decryptor by type, version or IV, make a reader, give a
    reader an IV, set a package-2 key, grow a key, ask a key byte, decode a string, encode a string. *)
Inductive act :=
| AAsk (t : dkind) | AVersion (v : mversion) | AIv (iv : list Z) | AReader (buf : list Z) | AWithIv (b : base) (iv : list Z)
| ASet (i : nat) (key : Z) | AGrow (i : nat) (n : Z) | AByte (i j : nat)
| ADecode (b : base) (t : stype) (off len : Z) | AEncode (b : base) (t : text) (ty : stype).

(** The decryptors afterwards. *)
Definition run1 (aes : list Z -> list Z) (k : keyring) (a : act) : keyring :=
  match a with
  | AAsk t => match get_decryptor k t with Ok (_, k) => k | _ => k end
  | AVersion v => snd (get_decryptor_by_version k v)
  | AIv iv => snd (get_decryptor_by_iv k iv)
  | AReader buf => snd (base_new k buf)
  | AWithIv b iv => snd (with_iv k b iv)
  | ASet i key => match nth_error (kr_cells k) i with Some c => kr_put k i (c_set_iv c key) | None => k end
  | AGrow i n => match nth_error (kr_cells k) i with Some c => kr_put k i (c_ensure aes c n) | None => k end
  | AByte i j => match nth_error (kr_cells k) i with Some c => kr_put k i (snd (c_at aes c j)) | None => k end
  | ADecode b t off len => snd (base_resolve aes k b t off len)
  | AEncode b t ty => snd (base_encrypt aes k b t ty)
  end.
Definition run (aes : list Z -> list Z) (acts : list act) : keyring := fold_left (run1 aes) acts keyring0.

(** By what the decryptors are known afterwards: uses do not show. *)
Definition is_std_iv (iv : list Z) : bool :=
  existsb (fun s => if list_eq_dec Z.eq_dec iv s then true else false)
    [[0x4D; 0x23; 0xC7; 0x2B]; [0xB9; 0x7D; 0x63; 0xE9]; [0; 0; 0; 0]].
Definition after_iv (o : list named) (iv : list Z) : list named := if is_std_iv iv then o else o ++ [ByIv iv].
Definition after (o : list named) (a : act) : list named :=
  match a with
  | AAsk KKMST1199 | AAsk KKMST1202 | AVersion MKMST1199 | AReader _ => o ++ [ByKey 0]
  | AIv iv => after_iv o iv
  | AWithIv _ iv => after_iv o iv ++ [ByKey 0]
  | ASet i key => change o i (ByKey key)
  | _ => o
  end.
Definition known (acts : list act) : list named := fold_left after acts standard.

(** Only decryptors there are; only package-2 keys are set (C47 says what [set_iv] does to the others). *)
Definition act_ok (o : list named) (a : act) : Prop :=
  match a with
  | AIv iv | AWithIv _ iv => named_ok (ByIv iv)
  | ASet i key => named_ok (ByKey key) /\ exists key0, nth_error o i = Some (ByKey key0)
  | AGrow i n => (i < length o)%nat /\ 0 <= n
  | AByte i _ => (i < length o)%nat
  | ADecode b _ _ _ => (b_keys b < length o)%nat /\ (b_pkeys b < length o)%nat
  | AEncode b _ _ => (b_keys b < length o)%nat
  | _ => True
  end.
Fixpoint acts_ok (o : list named) (acts : list act) : Prop :=
  match acts with [] => True | a :: r => act_ok o a /\ acts_ok (after o a) r end.

Lemma some_at {A} (l : list A) i : (i < length l)%nat -> exists a, nth_error l i = Some a.
Proof. intros H. destruct (nth_error l i) eqn:E; [eauto|]. apply nth_error_None in E. lia. Qed.

Lemma iv_ok aes o k iv : ring_ok aes o k -> named_ok (ByIv iv) ->
  ring_ok aes (after_iv o iv) (snd (get_decryptor_by_iv k iv)).
Proof.
  intros H N. unfold get_decryptor_by_iv, after_iv, is_std_iv. cbn [existsb].
  change WZ_GMSIV with [0x4D; 0x23; 0xC7; 0x2B]. change WZ_MSEAIV with [0xB9; 0x7D; 0x63; 0xE9].
  destruct (list_eq_dec _ _ _); [exact H|]. destruct (list_eq_dec _ _ _); [exact H|].
  destruct (list_eq_dec _ _ _); [exact H|]. cbn [orb].
  apply ring_new; [exact H|]. apply cell_new. exact N.
Qed.

Lemma run1_ok aes : block_cipher aes -> forall o k a, ring_ok aes o k -> act_ok o a ->
  ring_ok aes (after o a) (run1 aes k a).
Proof.
  intros Ha o k a H A. destruct a; cbn [after run1 act_ok] in *.
  - destruct t; cbn [get_decryptor]; try exact H; try (apply ring_new; [exact H|apply cell_default]).
    destruct (kr_custom k); exact H.
  - destruct v; cbn [get_decryptor_by_version]; try exact H; apply ring_new; [exact H|apply cell_default].
  - apply iv_ok; assumption.
  - unfold base_new. pose proof (ring_new aes o k (ByKey 0) c_default H (cell_default aes)) as [_ X].
    destruct (kr_new k c_default). exact X.
  - unfold with_iv. pose proof (iv_ok aes o k iv H A) as X. destruct (get_decryptor_by_iv k iv) as [i k1].
    pose proof (ring_new aes _ k1 (ByKey 0) c_default X (cell_default aes)) as [_ Y].
    destruct (kr_new k1 c_default). exact Y.
  - destruct A as [N [key0 E]]. destruct (ring_get aes o k i _ H E) as (c & -> & C).
    apply ring_put; [exact H| |eapply cell_set; eassumption]. apply nth_error_Some. congruence.
  - destruct A as [L Hn]. destruct (some_at o i L) as [x E]. destruct (ring_get aes o k i _ H E) as (c & -> & C).
    eapply ring_put_same; try eassumption. apply cell_ensure; assumption.
  - destruct (some_at o i A) as [x E]. destruct (ring_get aes o k i _ H E) as (c & -> & C).
    eapply ring_put_same; try eassumption. apply cell_at; assumption.
  - destruct A as [L1 L2]. destruct (some_at o _ L1) as [x E]. destruct (some_at o _ L2) as [y F].
    eapply base_resolve_ok; eassumption.
  - destruct (some_at o _ A) as [x E]. eapply base_encrypt_ok; eassumption.
Qed.

Lemma runs_ok aes : block_cipher aes -> forall acts o k, ring_ok aes o k -> acts_ok o acts ->
  ring_ok aes (fold_left after acts o) (fold_left (run1 aes) acts k).
Proof.
  intros Ha acts. induction acts as [|a acts IH]; intros o k H A; [exact H|].
  destruct A as [A1 A2]. cbn [fold_left]. apply IH; [|exact A2]. apply run1_ok; assumption.
Qed.

Lemma run_ok aes acts : block_cipher aes -> acts_ok standard acts -> ring_ok aes (known acts) (run aes acts).
Proof. intros Ha A. apply runs_ok; [exact Ha|apply ring_start|exact A]. Qed.

(** C213: whatever was done before with the shared decryptors, a string is decoded with the keys its reader's
    decryptors are known by, as if the reader were alone. *)
Theorem C213_sharing_unseen :
  forall aes acts b s p t off len, block_cipher aes -> acts_ok standard acts ->
    nth_error (known acts) (b_keys b) = Some s -> nth_error (known acts) (b_pkeys b) = Some p ->
    fst (base_resolve aes (run aes acts) b t off len)
      = resolve_meta (mkRd (b_buf b) (named_stream aes s) (named_stream aes p)) t off len.
Proof.
  intros aes acts b s p t off len Ha A E F. eapply base_resolve_ok; try eassumption. apply run_ok; assumption.
Qed.
Print Assumptions C213_sharing_unseen.

(** A toy cipher for the examples. *)
Definition toy (b : list Z) : list Z := map (fun x => (x * 5 + 1) mod 256) b.
Lemma toy_cipher : block_cipher toy.
Proof.
  intros b Hl Hb. split; [unfold toy; rewrite map_length; exact Hl|].
  unfold toy. clear Hl. induction Hb; constructor; [|assumption]. apply Z.mod_pos_bound. lia.
Qed.

Example C213_ex :
  let b := mkBase [0xE6; 0xBB] 5 4 in
  let acts := [AReader []; AIv [1; 2; 3; 4]; AGrow 5 3; ASet 4 77; AByte 0 20; ADecode b SAscii 0 1] in
  acts_ok standard acts /\ known acts = standard ++ [ByKey 77; ByIv [1; 2; 3; 4]] /\
  fst (base_resolve toy (run toy acts) b SAscii 0 2) = Ok [0x4A; 0x1B].
Proof.
  split; [|split; [reflexivity|vm_compute; reflexivity]].
  cbn. repeat split; try lia; try (exists 0; reflexivity). repeat constructor; lia.
Qed.

(** The decryptors a text is sealed with are not given another key by [a]. *)
Definition keeps (i : nat) (a : act) : Prop := match a with ASet j _ => j <> i | _ => True end.

Lemma change_other {A} (l : list A) i j a : i <> j -> nth_error (change l i a) j = nth_error l j.
Proof.
  revert i j; induction l as [|x l IH]; intros [|i] [|j] H; cbn [change nth_error]; try reflexivity; try congruence.
  apply IH. congruence.
Qed.

Lemma after_keeps o a i n : keeps i a -> nth_error o i = Some n -> nth_error (after o a) i = Some n.
Proof.
  intros K E. assert (P : forall x, nth_error (o ++ x) i = Some n).
  { intro x. rewrite nth_error_app1; [exact E|]. apply nth_error_Some. congruence. }
  destruct a; cbn [after keeps] in *; try exact E.
  - destruct t; auto.
  - destruct v; auto.
  - unfold after_iv. destruct (is_std_iv iv); auto.
  - auto.
  - unfold after_iv. destruct (is_std_iv iv); auto. rewrite <- app_assoc. auto.
  - rewrite change_other by exact K. exact E.
Qed.

Lemma afters_keep acts : forall o i n, Forall (keeps i) acts -> nth_error o i = Some n ->
  nth_error (fold_left after acts o) i = Some n.
Proof.
  induction acts as [|a acts IH]; intros o i n K E; [exact E|]. inversion_clear K. cbn [fold_left].
  apply IH; [assumption|]. apply after_keeps; assumption.
Qed.

Lemma ring_named aes o k i n : ring_ok aes o k -> nth_error o i = Some n -> named_ok n.
Proof. intros H E. destruct (ring_get aes o k i n H E) as (c & _ & [N _]). exact N. Qed.

Definition any_text (t : text) : Prop := Forall (fun c => 0 <= c < 0xD800 \/ 0xE000 <= c <= 0x10FFFF) t.
Lemma any_text_scalars t : any_text t -> scalars t.
Proof. apply Forall_impl. unfold is_scalar. intros; lia. Qed.

Lemma slice_mid (pre l post : list Z) :
  zlen (pre ++ l ++ post) < 2 ^ 64 ->
  slice (pre ++ l ++ post) (zlen pre) (wrap 64 (zlen pre + zlen l)) = Some l.
Proof.
  intros H. assert (H' := H). unfold zlen in H'. rewrite !app_length in H'.
  rewrite wrap_small by (unfold zlen; lia).
  unfold slice. replace ((0 <=? zlen pre) && (zlen pre <=? zlen pre + zlen l)
    && (zlen pre + zlen l <=? zlen (pre ++ l ++ post))) with true by (unfold zlen; rewrite !app_length; lia).
  f_equal. unfold zlen. rewrite Nat2Z.id, skipn_app, skipn_all, Nat.sub_diag. cbn [app skipn].
  replace (Z.to_nat _) with (length l) by lia.
  rewrite firstn_app, firstn_all, Nat.sub_diag. cbn [firstn]. apply app_nil_r.
Qed.

(** C214: what a reader encodes as ASCII or Unicode is decoded as it was, also later, also by another reader with the
    same keys, wherever the bytes stand; any text, also outside ASCII and outside the basic plane. *)
Theorem C214_encoded_decoded :
  forall aes acts acts' b pk pre post t ty, block_cipher aes -> any_text t -> ty = SAscii \/ ty = SUnicode ->
    acts_ok standard (acts ++ AEncode b t ty :: acts') -> Forall (keeps (b_keys b)) acts' ->
    (pk < length (known (acts ++ AEncode b t ty :: acts')))%nat ->
    exists data, fst (base_encrypt aes (run aes acts) b t ty) = Ok data /\
      (zlen (pre ++ data ++ post) < 2 ^ 64 ->
       fst (base_resolve aes (run aes (acts ++ AEncode b t ty :: acts')) (mkBase (pre ++ data ++ post) (b_keys b) pk)
              ty (zlen pre) (zlen data)) = Ok t).
Proof.
  intros aes acts acts' b pk pre post t ty Ha T Ty A K L.
  assert (A1 : acts_ok standard acts /\ (b_keys b < length (known acts))%nat).
  { unfold known. clear L. revert A. generalize standard. induction acts as [|a acts IH]; intros o A.
    - split; [exact I|]. destruct A as [A _]. exact A.
    - destruct A as [A1 A2]. destruct (IH _ A2) as [X Y]. split; [split; assumption|exact Y]. }
  destruct A1 as [A1 Lb]. destruct (some_at _ _ Lb) as [n E]. destruct (some_at _ _ L) as [p F].
  pose proof (run_ok aes acts Ha A1) as R1. pose proof (run_ok aes _ Ha A) as R2.
  destruct (base_encrypt_ok aes Ha _ _ b n t ty R1 E) as [B1 B2].
  exists (sealed aes n t ty). split; [exact B1|]. intro Hl.
  assert (E' : nth_error (known (acts ++ AEncode b t ty :: acts')) (b_keys b) = Some n).
  { unfold known. rewrite fold_left_app. cbn [fold_left after]. apply afters_keep; [exact K|exact E]. }
  destruct (base_resolve_ok aes Ha _ _ (mkBase (pre ++ sealed aes n t ty ++ post) (b_keys b) pk) n p ty (zlen pre)
    (zlen (sealed aes n t ty)) R2 E' F) as [V _].
  rewrite V. cbn [b_buf]. eapply sealed_opened; try assumption.
  - exact (ring_named aes _ _ _ _ R1 E).
  - apply any_text_scalars. exact T.
  - destruct Ty as [->| ->]; discriminate.
  - destruct Ty as [->| ->]; discriminate.
  - apply slice_mid. exact Hl.
Qed.
Print Assumptions C214_encoded_decoded.

Example C214_ex :
  let b := mkBase [] 5 4 in
  let acts := [AReader []; AIv [1; 2; 3; 4]] in
  fst (base_encrypt toy (run toy acts) b [0x1F600; 97] SAscii) = Ok [0x5C; 0x3F; 0x24; 0x38; 0xC9] /\
  fst (base_resolve toy (run toy (acts ++ [AEncode b [0x1F600; 97] SAscii; ASet 4 9]))
         (mkBase [7; 0x5C; 0x3F; 0x24; 0x38; 0xC9; 8] 5 4) SAscii 1 5) = Ok [0x1F600; 97].
Proof. split; vm_compute; reflexivity. Qed.

(** C215: a package-2 name encoded by a reader whose strings and names are under the same key is decoded as it was. *)
Theorem C215_name_encoded_decoded :
  forall aes acts b n pre post t, block_cipher aes -> any_text t -> acts_ok standard acts ->
    nth_error (known acts) (b_keys b) = Some n -> nth_error (known acts) (b_pkeys b) = Some n ->
    exists data, fst (base_encrypt aes (run aes acts) b t SPkg2Dir) = Ok data /\
      (zlen (pre ++ data ++ post) < 2 ^ 64 ->
       fst (base_resolve aes (snd (base_encrypt aes (run aes acts) b t SPkg2Dir))
              (mkBase (pre ++ data ++ post) (b_keys b) (b_pkeys b)) SPkg2Dir (zlen pre) (zlen data)) = Ok t).
Proof.
  intros aes acts b n pre post t Ha T A E F. pose proof (run_ok aes acts Ha A) as R.
  destruct (base_encrypt_ok aes Ha _ _ b n t SPkg2Dir R E) as [B1 B2].
  exists (sealed aes n t SPkg2Dir). split; [exact B1|]. intro Hl.
  destruct (base_resolve_ok aes Ha _ _ (mkBase (pre ++ sealed aes n t SPkg2Dir ++ post) (b_keys b) (b_pkeys b)) n n
    SPkg2Dir (zlen pre) (zlen (sealed aes n t SPkg2Dir)) B2 E F) as [V _].
  rewrite V. cbn [b_buf]. eapply sealed_opened; try assumption; try discriminate.
  - exact (ring_named aes _ _ _ _ R E).
  - apply any_text_scalars. exact T.
  - reflexivity.
  - apply slice_mid. exact Hl.
Qed.
Print Assumptions C215_name_encoded_decoded.

Example C215_ex :
  let k := run toy [AIv [1; 2; 3; 4]] in
  let b := with_existing_keys k (mkBase [] 2 2) 4 in
  b = mkBase [] 4 4 /\ fst (base_encrypt toy k b [0x6E2C; 97] SPkg2Dir) = Ok [42; 101; 113; 21].
Proof. split; vm_compute; reflexivity. Qed.

(** C216: the same for every reader.  False: a reader made with a package-2 key encodes names with the key of its
    strings, that is not at all, and decodes them with the package-2 key. *)
Theorem C216_name_encoded_decoded_refuted :
  exists i t data, any_text t /\ forall aes,
    let b := with_existing_keys (run aes []) (mkBase [] 2 2) i in
    fst (base_encrypt aes (run aes []) b t SPkg2Dir) = Ok data /\ data = [98; 0] /\
    fst (base_resolve aes (run aes []) (mkBase data (b_keys b) (b_pkeys b)) SPkg2Dir 0 (zlen data)) <> Ok t.
Proof.
  exists 3%nat, [98], [98; 0]. split; [repeat constructor; lia|]. intro aes.
  split; [reflexivity|]. split; [reflexivity|]. vm_compute. discriminate.
Qed.
Print Assumptions C216_name_encoded_decoded_refuted.

Lemma resolve_ext buf k1 k2 p1 p2 t off len : (forall i, k1 i = k2 i) -> (forall i, p1 i = p2 i) ->
  resolve_meta (mkRd buf k1 p1) t off len = resolve_meta (mkRd buf k2 p2) t off len.
Proof.
  intros H1 H2. unfold resolve_meta, resolve_unicode_raw, resolve_ascii_raw, resolve_pkg2_dir_raw, get_decrypt_slice,
    get_pkg2_decrypt_slice. cbn [rd_buf rd_ks rd_pks].
  destruct t; try reflexivity; destruct (slice _ _ _); try reflexivity;
    rewrite ?(xor_ks_ext k1 k2), ?(xor_ks_ext p1 p2) by assumption; reflexivity.
Qed.

Lemma key0_stream aes i : named_stream aes (ByKey 0) i = 0.
Proof. cbn [named_stream]. rewrite Z.div_0_l; [reflexivity|]. apply Z.pow_nonzero; lia. Qed.

Lemma known_first aes acts : block_cipher aes -> acts_ok standard acts -> forall i, (i < 3)%nat ->
  nth_error (known acts) i = nth_error standard i.
Proof.
  intros Ha A i Hi.
  assert (G : forall o, (forall j, (j < 3)%nat -> nth_error o j = nth_error standard j) -> acts_ok o acts ->
    nth_error (fold_left after acts o) i = nth_error standard i).
  { clear A. induction acts as [|a acts IH]; intros o H A; [apply H; exact Hi|]. destruct A as [A1 A2]. cbn [fold_left].
    apply IH; [|exact A2]. intros j Hj. rewrite <- (H j Hj). destruct (nth_error o j) eqn:E.
    - apply after_keeps; [|exact E]. destruct a; cbn [keeps]; try exact I. intros ->. destruct A1 as [_ [key0 X]].
      rewrite (H j Hj) in X. destruct j as [|[|[|]]]; try discriminate X. lia.
    - rewrite (H j Hj) in E. destruct j as [|[|[|]]]; try discriminate E. lia. }
  apply G; [reflexivity|exact A].
Qed.

(** C217: with which keys the readers made in the several ways decode strings and names. *)
Theorem C217_existing_keys :
  forall aes acts b i n t off len, block_cipher aes -> acts_ok standard acts ->
    nth_error (known acts) i = Some n ->
    fst (base_resolve aes (run aes acts) (with_existing_keys (run aes acts) b i) t off len)
      = resolve_meta (mkRd (b_buf b) (string_stream aes n) (named_stream aes n)) t off len.
Proof.
  intros aes acts b i n t off len Ha A E. pose proof (run_ok aes acts Ha A) as R.
  unfold with_existing_keys. destruct (ring_get aes _ _ i n R E) as (c & -> & C).
  rewrite (cell_is_pkg2 aes n c C). destruct n as [iv|key].
  - apply (base_resolve_ok aes Ha _ _ (mkBase (b_buf b) i i) _ _ t off len R E E).
  - pose proof (known_first aes acts Ha A 2 ltac:(lia)) as G. cbn [nth_error standard] in G.
    destruct (base_resolve_ok aes Ha _ _ (mkBase (b_buf b) 2 i) _ _ t off len R G E) as [V _]. rewrite V.
    apply resolve_ext; reflexivity.
Qed.
Print Assumptions C217_existing_keys.

Theorem C217_with_iv :
  forall aes acts b iv t off len, block_cipher aes -> acts_ok standard acts -> named_ok (ByIv iv) ->
    let '(b', k') := with_iv (run aes acts) b iv in
    fst (base_resolve aes k' b' t off len)
      = resolve_meta (mkRd (b_buf b) (named_stream aes (ByIv iv)) (fun _ => 0)) t off len.
Proof.
  intros aes acts b iv t off len Ha A N. pose proof (run_ok aes acts Ha A) as R. unfold with_iv.
  assert (G : exists i k1, get_decryptor_by_iv (run aes acts) iv = (i, k1) /\
    ring_ok aes (after_iv (known acts) iv) k1 /\ nth_error (after_iv (known acts) iv) i = Some (ByIv iv)).
  { pose proof (iv_ok aes _ _ iv R N) as X.
    pose proof (known_first aes acts Ha A 0 ltac:(lia)) as G0. pose proof (known_first aes acts Ha A 1 ltac:(lia)) as G1.
    pose proof (known_first aes acts Ha A 2 ltac:(lia)) as G2. cbn [nth_error standard] in G0, G1, G2.
    revert X. unfold get_decryptor_by_iv, after_iv, is_std_iv. cbn [existsb].
    change WZ_GMSIV with [0x4D; 0x23; 0xC7; 0x2B]. change WZ_MSEAIV with [0xB9; 0x7D; 0x63; 0xE9].
    destruct (list_eq_dec _ _ _) as [->|]; [intro X; do 2 eexists; split; [reflexivity|split; [exact X|exact G0]]|].
    destruct (list_eq_dec _ _ _) as [->|]; [intro X; do 2 eexists; split; [reflexivity|split; [exact X|exact G1]]|].
    destruct (list_eq_dec _ _ _) as [->|]; [intro X; do 2 eexists; split; [reflexivity|split; [exact X|exact G2]]|].
    cbn [orb]. intro X. do 2 eexists. split; [reflexivity|]. split; [exact X|].
    rewrite <- (f2_length R), nth_error_app2, Nat.sub_diag by lia. reflexivity. }
  destruct G as (i & k1 & -> & X & E).
  pose proof (ring_new aes _ k1 (ByKey 0) c_default X (cell_default aes)) as [Y1 Y2].
  destruct (kr_new k1 c_default) as [j k2]. cbn [fst snd] in Y1, Y2. subst j.
  destruct (base_resolve_ok aes Ha _ _ (mkBase (b_buf b) i (length (after_iv (known acts) iv))) (ByIv iv) (ByKey 0)
    t off len Y2) as [V _].
  - cbn [b_keys]. rewrite nth_error_app1; [exact E|]. apply nth_error_Some. congruence.
  - cbn [b_pkeys]. rewrite nth_error_app2, Nat.sub_diag by lia. reflexivity.
  - rewrite V. apply resolve_ext; [reflexivity|]. apply key0_stream.
Qed.
Print Assumptions C217_with_iv.

Theorem C217_new_plain :
  forall aes acts buf t off len, block_cipher aes -> acts_ok standard acts ->
    let '(b, k) := base_new (run aes acts) buf in
    fst (base_resolve aes k b t off len) = resolve_meta (mkRd buf (fun _ => 0) (fun _ => 0)) t off len.
Proof.
  intros aes acts buf t off len Ha A. pose proof (run_ok aes acts Ha A) as R. unfold base_new.
  pose proof (ring_new aes _ _ (ByKey 0) c_default R (cell_default aes)) as [Y1 Y2].
  destruct (kr_new (run aes acts) c_default) as [j k2]. cbn [fst snd] in Y1, Y2. subst j.
  pose proof (known_first aes acts Ha A 2 ltac:(lia)) as G. cbn [nth_error standard] in G.
  destruct (base_resolve_ok aes Ha _ _ (mkBase buf 2 (length (known acts))) (ByIv [0; 0; 0; 0]) (ByKey 0)
    t off len Y2) as [V _].
  - cbn [b_keys]. rewrite nth_error_app1; [exact G|]. apply nth_error_Some.
    rewrite (known_first aes acts Ha A 2) by lia. discriminate.
  - cbn [b_pkeys]. rewrite nth_error_app2, Nat.sub_diag by lia. reflexivity.
  - rewrite V. apply resolve_ext; [reflexivity|]. apply key0_stream.
Qed.
Print Assumptions C217_new_plain.

(** A slice reader decodes as the reader it was made from, provided that one's string key is not a package-2 key, which
    none of the ways above brings about. *)
Theorem C217_slice_reader :
  forall aes acts b iv p t off len, block_cipher aes -> acts_ok standard acts ->
    nth_error (known acts) (b_keys b) = Some (ByIv iv) -> nth_error (known acts) (b_pkeys b) = Some p ->
    fst (base_resolve aes (run aes acts) (create_slice_reader (run aes acts) b) t off len)
      = fst (base_resolve aes (run aes acts) b t off len).
Proof.
  intros aes acts b iv p t off len Ha A E F. pose proof (run_ok aes acts Ha A) as R.
  unfold create_slice_reader, with_existing_keys. destruct (ring_get aes _ _ _ _ R E) as (c & -> & C).
  rewrite (cell_is_pkg2 aes _ c C). cbn [b_keys]. destruct b; reflexivity.
Qed.
Print Assumptions C217_slice_reader.

Example C217_ex :
  let k := run toy [] in
  fst (base_resolve toy k (with_existing_keys k (mkBase [0x8D; 0xBE] 0 0) 3) SPkg2Dir 0 2) = Ok [98] /\
  fst (base_resolve toy k (with_existing_keys k (mkBase [0xC8] 0 0) 3) SAscii 0 1) = Ok [98] /\
  fst (base_resolve toy k (with_existing_keys k (mkBase [0x4A] 0 0) 0) SAscii 0 1) = Ok [98].
Proof. repeat split; vm_compute; reflexivity. Qed.

(** C218: what asking for a decryptor by its type gives: a shared one for the fixed keys, one of one's own for the keys
    that are computed per file. *)
Theorem C218_asked :
  forall aes acts t, block_cipher aes -> acts_ok standard acts -> t <> KCustom ->
    exists i k', get_decryptor (run aes acts) t = Ok (i, k') /\
      match t with
      | KGMS => i = 0%nat /\ nth_error (known acts) i = Some (ByIv [0x4D; 0x23; 0xC7; 0x2B])
      | KKMS => i = 1%nat /\ nth_error (known acts) i = Some (ByIv [0xB9; 0x7D; 0x63; 0xE9])
      | KKMST1198 => i = 3%nat
      | KKMST1199 | KKMST1202 => nth_error (known acts) i = None /\ nth_error (known (acts ++ [AAsk t])) i = Some (ByKey 0)
      | _ => nth_error (known acts) i = Some (ByIv [0; 0; 0; 0])
      end.
Proof.
  intros aes acts t Ha A Ht. pose proof (run_ok aes acts Ha A) as R.
  pose proof (known_first aes acts Ha A 0 ltac:(lia)) as G0. pose proof (known_first aes acts Ha A 1 ltac:(lia)) as G1.
  pose proof (known_first aes acts Ha A 2 ltac:(lia)) as G2. cbn [nth_error standard] in G0, G1, G2.
  pose proof (ring_new aes _ _ (ByKey 0) c_default R (cell_default aes)) as [Y1 Y2].
  assert (N : nth_error (known acts) (length (known acts)) = None) by (apply nth_error_None; lia).
  destruct t; try congruence; cbn [get_decryptor]; try (do 2 eexists; split; [reflexivity|auto; fail]).
  all: destruct (kr_new (run aes acts) c_default) as [j k2]; cbn [fst] in Y1; subst j;
    do 2 eexists; split; [reflexivity|]; split; [exact N|]; unfold known; rewrite fold_left_app; cbn [fold_left after];
    rewrite nth_error_app2, Nat.sub_diag by lia; reflexivity.
Qed.
Print Assumptions C218_asked.

Example C218_ex :
  fst (match get_decryptor (run toy [AReader []]) KKMST1202 with Ok x => x | _ => (0%nat, keyring0) end) = 5%nat /\
  known [AReader []; AAsk KKMST1202] = standard ++ [ByKey 0; ByKey 0].
Proof. split; reflexivity. Qed.

(** C219: a decryptor can be asked for by every type.  False: nothing in the crate ever sets the custom one, and
    asking for it panics. *)
Theorem C219_custom_refuted :
  exists t, forall aes acts, get_decryptor (run aes acts) t = Panic.
Proof.
  exists KCustom. intros aes acts. unfold run, get_decryptor.
  assert (G : forall k, kr_custom k = None -> kr_custom (fold_left (run1 aes) acts k) = None).
  { induction acts as [|a acts IH]; intros k H; [exact H|]. cbn [fold_left]. apply IH.
    assert (P : forall i c, kr_custom (kr_put k i c) = None) by (intros; exact H).
    assert (D : forall b t off len, kr_custom (snd (base_resolve aes k b t off len)) = None).
    { intros. assert (Q : forall i, kr_custom (snd (base_slice aes k b i off len)) = None).
      { intro i. unfold base_slice, ring_decrypt. destruct (slice _ _ _); [|exact H]. destruct (nth_error _ _); exact H. }
      pose proof (Q (b_keys b)) as Q1. pose proof (Q (b_pkeys b)) as Q2. unfold base_resolve. destruct t; try exact H.
      all: repeat match goal with |- context [base_slice ?a ?b ?c ?d ?e ?f] => destruct (base_slice a b c d e f) end; assumption. }
    assert (I : forall iv, kr_custom (snd (get_decryptor_by_iv k iv)) = None).
    { intro iv. unfold get_decryptor_by_iv. repeat destruct (list_eq_dec _ _ _); exact H. }
    destruct a; cbn [run1].
    - destruct t; cbn [get_decryptor]; try exact H. rewrite H. exact H.
    - destruct v; exact H.
    - apply I.
    - exact H.
    - unfold with_iv. pose proof (I iv) as X. destruct (get_decryptor_by_iv k iv) as [i k1]. exact X.
    - destruct (nth_error _ _); [apply P|exact H].
    - destruct (nth_error _ _); [apply P|exact H].
    - destruct (nth_error _ _); [apply P|exact H].
    - apply D.
    - unfold base_encrypt. destruct ty; try exact H; destruct (nth_error _ _); exact H. }
  rewrite G by reflexivity. reflexivity.
Qed.
Print Assumptions C219_custom_refuted.

(** C220: giving a new reader its package-2 key changes nothing for the readers there were before. *)
Theorem C220_new_key_alone :
  forall aes acts buf key b t off len, block_cipher aes -> acts_ok standard acts -> 0 <= key < 2 ^ 64 ->
    (b_keys b < length (known acts))%nat -> (b_pkeys b < length (known acts))%nat ->
    fst (base_resolve aes (run aes (acts ++ [AReader buf; ASet (b_pkeys (fst (base_new (run aes acts) buf))) key])) b t off len)
      = fst (base_resolve aes (run aes acts) b t off len).
Proof.
  intros aes acts buf key b t off len Ha A K L1 L2. pose proof (run_ok aes acts Ha A) as R.
  pose proof (ring_new aes _ _ (ByKey 0) c_default R (cell_default aes)) as [Y1 _].
  assert (P : b_pkeys (fst (base_new (run aes acts) buf)) = length (known acts)).
  { unfold base_new. destruct (kr_new _ _). exact Y1. }
  rewrite P. destruct (some_at _ _ L1) as [s E]. destruct (some_at _ _ L2) as [p F].
  assert (A' : acts_ok standard (acts ++ [AReader buf; ASet (length (known acts)) key])).
  { unfold known. clear - A K. revert A. generalize standard. induction acts as [|a acts IH]; intros o A.
    - cbn -[Z.pow]. split; [exact I|]. split; [|exact I]. split; [exact K|]. exists 0.
      rewrite nth_error_app2, Nat.sub_diag by lia. reflexivity.
    - destruct A as [A1 A2]. split; [exact A1|]. apply (IH _ A2). }
  assert (Keep : forall i n, (i < length (known acts))%nat -> nth_error (known acts) i = Some n ->
    nth_error (known (acts ++ [AReader buf; ASet (length (known acts)) key])) i = Some n).
  { intros i n Hi Hn. unfold known. rewrite fold_left_app. apply afters_keep; [|exact Hn].
    constructor; [exact I|]. constructor; [|constructor]. cbn [keeps]. fold (known acts). lia. }
  pose proof (run_ok aes _ Ha A') as R'.
  destruct (base_resolve_ok aes Ha _ _ b s p t off len R E F) as [V1 _].
  destruct (base_resolve_ok aes Ha _ _ b s p t off len R' (Keep _ _ L1 E) (Keep _ _ L2 F)) as [V2 _].
  rewrite V1, V2. reflexivity.
Qed.
Print Assumptions C220_new_key_alone.

Example C220_ex :
  let '(b, k) := base_new (run toy []) [98; 0] in
  fst (base_resolve toy k b SPkg2Dir 0 2) = Ok [98] /\
  fst (base_resolve toy (run toy ([AReader [98; 0]] ++ [AReader []; ASet 5 77])) b SPkg2Dir 0 2) = Ok [98] /\
  fst (base_resolve toy (run toy [AReader [98; 0]; ASet 4 77]) b SPkg2Dir 0 2) = Ok [47].
Proof. repeat split; vm_compute; reflexivity. Qed.

(** C221: two decryptors with the same hash have the same keys.  False: the hash of a package-2 key is its lower half,
    its fifth byte is used too. *)
Theorem C221_hash_refuted :
  exists k1 k2, 0 <= k1 < 2 ^ 64 /\ 0 <= k2 < 2 ^ 64 /\
    c_iv_hash (c_set_iv c_default k1) = c_iv_hash (c_set_iv c_default k2) /\
    c_decrypt (c_set_iv c_default k1) (repeat 0 8) <> c_decrypt (c_set_iv c_default k2) (repeat 0 8).
Proof.
  exists 0, (2 ^ 32). repeat split; try lia. vm_compute. discriminate.
Qed.
Print Assumptions C221_hash_refuted.

(** C222: the hash is that of the IV or key the decryptor is known by, and tells the AES decryptors apart. *)
Theorem C222_hash :
  forall aes acts i n, block_cipher aes -> acts_ok standard acts -> nth_error (known acts) i = Some n ->
    exists c, nth_error (kr_cells (run aes acts)) i = Some c /\
      c_iv_hash c = match n with ByIv iv => le_val iv | ByKey key => key mod 2 ^ 32 end.
Proof.
  intros aes acts i n Ha A E. pose proof (run_ok aes acts Ha A) as R.
  destruct (ring_get aes _ _ i n R E) as (c & G & C). exists c. split; [exact G|]. eapply cell_hash; exact C.
Qed.
Print Assumptions C222_hash.

Theorem C222_ivs_apart :
  forall aes acts i j iv iv' c c', block_cipher aes -> acts_ok standard acts ->
    nth_error (known acts) i = Some (ByIv iv) -> nth_error (known acts) j = Some (ByIv iv') ->
    nth_error (kr_cells (run aes acts)) i = Some c -> nth_error (kr_cells (run aes acts)) j = Some c' ->
    c_iv_hash c = c_iv_hash c' -> iv = iv'.
Proof.
  intros aes acts i j iv iv' c c' Ha A E F G H Eq. pose proof (run_ok aes acts Ha A) as R.
  destruct (ring_get aes _ _ i _ R E) as (d & G' & C). rewrite G in G'. injection G' as <-.
  destruct (ring_get aes _ _ j _ R F) as (d & H' & D). rewrite H in H'. injection H' as <-.
  rewrite (cell_hash aes _ _ C), (cell_hash aes _ _ D) in Eq.
  destruct C as [[L B] _], D as [[L' B'] _].
  rewrite <- (le_bytes_le_val iv B), <- (le_bytes_le_val iv' B'), L, L', Eq. reflexivity.
Qed.
Print Assumptions C222_ivs_apart.

Example C222_ex :
  match nth_error (kr_cells (run toy [AGrow 0 5])) 0 with Some c => c_iv_hash c | None => 0 end = 0x2BC7234D.
Proof. vm_compute. reflexivity. Qed.
