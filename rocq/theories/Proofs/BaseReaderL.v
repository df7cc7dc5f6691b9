(** Lemmas about shared decryptors. *)
From Coq Require Import ZArith List Bool Lia ZifyBool ZifyNat.
From Verif.Model Require Import Base Utf Keys Reader WzStr Guess Media BaseReader.
From Verif.Spec Require Import Stream Handles.
From Verif.Proofs Require Import BaseL KeysL StringL.

Lemma f2_length {A B} {P : A -> B -> Prop} {l m} : Forall2 P l m -> length l = length m.
Proof. induction 1; cbn [length]; congruence. Qed.

Section S.
  Variable aes : list Z -> list Z.
  Hypothesis Ha : block_cipher aes.

  (** A decryptor that is the one known as [n]. *)
  Definition cell_ok (n : named) (c : cell) : Prop :=
    named_ok n /\
    match n, c with
    | ByIv iv, CEcb d =>
      if forallb (Z.eqb 0) iv then ecb_iv d = iv /\ ecb_plain d = true /\ ecb_keys d = [] else kinv aes iv d
    | ByKey key, CPkg2 v keys => v = key mod 2 ^ 32 /\ keys = pkg2_keys key
    | _, _ => False
    end.

  Lemma stream_key key i : 0 <= key < 2 ^ 64 -> pkg2_ks (pkg2_keys key) i = named_stream aes (ByKey key) i.
  Proof.
    intro R. unfold pkg2_ks, pkg2_keys. rewrite wrap_small by exact R. cbn [le_bytes named_stream].
    assert (H : (i mod 8 < 8)%nat) by (apply Nat.mod_upper_bound; lia).
    set (j := (i mod 8)%nat) in *. clearbody j.
    do 8 (destruct j as [|j]; [cbn [nth Nat.div]; cbn -[Z.div Z.modulo Z.pow]; 
       rewrite ?Z.div_div by lia; try (rewrite Z.div_1_r); reflexivity|]). lia.
  Qed.

  Lemma stream_byte n i : named_ok n -> byte (named_stream aes n i).
  Proof.
    destruct n as [iv|key]; cbn [named_ok named_stream].
    - intros [L B]. destruct (forallb _ _); [unfold byte; lia|]. apply key_byte_byte; assumption.
    - intros _. unfold byte. apply Z.mod_pos_bound. lia.
  Qed.

  Lemma zero_iv iv : length iv = 4%nat -> forallb (Z.eqb 0) iv = true -> iv = [0; 0; 0; 0].
  Proof.
    intros L H. destruct iv as [|a [|b [|c [|d [|]]]]]; try discriminate L.
    cbn [forallb] in H. rewrite !andb_true_iff, !Z.eqb_eq in H. destruct H as (<- & <- & <- & <- & _). reflexivity.
  Qed.

  Lemma nonzero_iv iv : length iv = 4%nat -> bytes iv -> forallb (Z.eqb 0) iv = false -> sext 32 (le_val iv) <> 0.
  Proof.
    intros L B H E.
    pose proof (le_val_range iv B) as R. unfold zlen in R. rewrite L in R.
    change (2 ^ (8 * Z.of_nat 4)) with (2 ^ 32) in R.
    unfold sext in E. rewrite (wrap_small 32) in E by assumption.
    change (2 ^ (32 - 1)) with 2147483648 in E. change (2 ^ 32) with 4294967296 in *.
    assert (V : le_val iv = 0) by (destruct (le_val iv <? 2147483648); lia).
    rewrite <- (le_bytes_le_val iv B), L, V in H. discriminate H.
  Qed.

  Lemma cell_new iv : named_ok (ByIv iv) -> cell_ok (ByIv iv) (CEcb (ecb_from_iv iv)).
  Proof.
    intros H. split; [exact H|]. destruct H as [L B]. destruct (forallb _ _) eqn:Z0.
    - rewrite (zero_iv iv L Z0). auto.
    - eapply kinv_init; eauto. apply nonzero_iv; assumption.
  Qed.

  Lemma cell_default : cell_ok (ByKey 0) c_default.
  Proof. split; [cbn; lia|]. split; reflexivity. Qed.

  Lemma cell_ensure n c m : 0 <= m -> cell_ok n c -> cell_ok n (c_ensure aes c m).
  Proof.
    intros Hm [N H]. split; [exact N|]. destruct n as [iv|key], c as [d|v keys]; cbn [c_ensure]; try exact H.
    destruct N as [L B]. destruct (forallb _ _).
    - unfold ecb_ensure, ecb_is_enough. destruct H as (A1 & P & A2). rewrite P. cbn [orb]. auto.
    - apply kinv_ensure; assumption.
  Qed.

  Lemma cell_at n c i : cell_ok n c -> cell_ok n (snd (c_at aes c i)).
  Proof.
    intros H. destruct c as [d|v keys]; cbn [c_at]; [|exact H]. unfold ecb_at.
    cbn [snd]. destruct (_ <=? _); [|exact H].
    apply (cell_ensure n (CEcb d) (Z.of_nat i + 1)); [lia|exact H].
  Qed.

  Lemma cell_key_fn n c m i : cell_ok n c -> Z.of_nat i < m -> c_key_fn (c_ensure aes c m) i = named_stream aes n i.
  Proof.
    intros [N H] Hi. unfold c_key_fn. destruct n as [iv|key], c as [d|v keys]; try contradiction; cbn [c_ensure c_try_at].
    - destruct N as [L B]. cbn [named_stream]. destruct (forallb _ _).
      + unfold ecb_ensure, ecb_is_enough. destruct H as (_ & -> & E). cbn [orb]. unfold ecb_try_at. rewrite E.
        destruct i; reflexivity.
      + destruct (kinv_ensure aes Ha iv L B d m H ltac:(lia)) as (K1 & K2 & _).
        rewrite (kinv_has aes Ha iv L B _ i K1) by lia. reflexivity.
    - destruct H as [-> ->]. rewrite <- stream_key by exact N. unfold pkg2_ks.
      pose proof (proj1 (pkg2_keys_bytes key)) as L.
      rewrite (nth_error_nth' _ 0) by (rewrite L; apply Nat.mod_upper_bound; lia). reflexivity.
  Qed.

  Lemma cell_decrypt n c data : cell_ok n c ->
    let c' := if c_is_enough c (zlen data) then c else c_ensure aes c (zlen data) in
    cell_ok n c' /\ c_decrypt c' data = Ok (xor_ks (named_stream aes n) 0 data).
  Proof.
    intros [N H]. pose proof (conj N H : cell_ok n c) as HH. pose proof (zlen_nonneg data).
    split; [destruct (c_is_enough _ _); [exact HH|apply cell_ensure; assumption]|].
    destruct n as [iv|key], c as [d|v keys]; try contradiction; cbn [c_is_enough c_ensure].
    - destruct N as [L B]. destruct (forallb _ _) eqn:Z0.
      + destruct H as (_ & P & _). unfold ecb_is_enough. rewrite P. cbn [orb c_decrypt]. unfold ecb_decrypt. rewrite P.
        rewrite (xor_ks_ext _ (fun _ => 0)) by (intro; cbn [named_stream]; rewrite Z0; reflexivity).
        rewrite xor_ks_zero. reflexivity.
      + rewrite (xor_ks_ext _ (key_byte aes iv)) by (intro; cbn [named_stream]; rewrite Z0; reflexivity).
        destruct (kinv_get_decrypt_slice aes Ha iv L B d data H) as [E _].
        unfold ecb_get_decrypt_slice in E. cbn [fst] in E. destruct (ecb_is_enough _ _); exact E.
    - destruct H as [-> ->]. cbn [c_decrypt]. rewrite pkg2_decrypt_xor. f_equal. apply xor_ks_ext.
      intro. apply stream_key. exact N.
  Qed.

  Lemma cell_decrypt_enough n c data m : cell_ok n c -> zlen data <= m ->
    c_decrypt (c_ensure aes c m) data = Ok (xor_ks (named_stream aes n) 0 data).
  Proof.
    intros H Hm. pose proof (zlen_nonneg data).
    pose proof (cell_ensure n c m ltac:(lia) H) as H'.
    destruct (cell_decrypt n _ data H') as [_ E].
    destruct (c_is_enough _ _) eqn:F; [exact E|].
    exfalso. destruct H as [N H]. destruct n as [iv|key], c as [d|v keys]; try contradiction; cbn [c_ensure c_is_enough] in F.
    - destruct N as [L B]. destruct (forallb _ _).
      + unfold ecb_ensure, ecb_is_enough in F. destruct H as (_ & P & _). rewrite P in F. cbn [orb] in F.
        rewrite P in F. discriminate F.
      + destruct (kinv_ensure aes Ha iv L B d m H ltac:(lia)) as (_ & K2 & _).
        unfold ecb_is_enough in F at 1. lia.
    - discriminate F.
  Qed.

  Lemma cell_hash n c : cell_ok n c -> c_iv_hash c = match n with ByIv iv => le_val iv | ByKey key => key mod 2 ^ 32 end.
  Proof.
    intros [N H]. destruct n as [iv|key], c as [d|v keys]; try contradiction; cbn [c_iv_hash].
    - destruct (forallb _ _); [destruct H as (-> & _)|destruct H as (-> & _)]; reflexivity.
    - apply H.
  Qed.

  Lemma cell_is_pkg2 n c : cell_ok n c -> c_is_pkg2 c = match n with ByIv _ => false | ByKey _ => true end.
  Proof. intros [N H]. destruct n, c; try contradiction; reflexivity. Qed.

  Lemma cell_set key0 key c : cell_ok (ByKey key0) c -> 0 <= key < 2 ^ 64 -> cell_ok (ByKey key) (c_set_iv c key).
  Proof. intros [N H] R. destruct c; [contradiction|]. split; [exact R|]. split; reflexivity. Qed.

  (** All decryptors are the ones they are known as. *)
  Definition ring_ok (o : list named) (k : keyring) : Prop := Forall2 cell_ok o (kr_cells k).

  Lemma ring_start : ring_ok standard keyring0.
  Proof.
    unfold ring_ok, standard, keyring0. cbn [kr_cells].
    apply Forall2_cons; [|apply Forall2_cons; [|apply Forall2_cons; [|apply Forall2_cons; [|constructor]]]].
    - apply (cell_new WZ_GMSIV). split; [reflexivity|repeat constructor; lia].
    - apply (cell_new WZ_MSEAIV). split; [reflexivity|repeat constructor; lia].
    - apply (cell_new [0; 0; 0; 0]). split; [reflexivity|repeat constructor; lia].
    - apply (cell_set 0); [apply cell_default|cbn; lia].
  Qed.

  Lemma ring_new o k n c : ring_ok o k -> cell_ok n c ->
    fst (kr_new k c) = length o /\ ring_ok (o ++ [n]) (snd (kr_new k c)).
  Proof.
    intros H Hc. unfold kr_new. cbn [fst snd]. split; [symmetry; apply (f2_length H)|].
    unfold ring_ok. cbn [kr_cells]. apply Forall2_app; [exact H|repeat constructor; apply Hc].
  Qed.

  Lemma ring_get o k i n : ring_ok o k -> nth_error o i = Some n ->
    exists c, nth_error (kr_cells k) i = Some c /\ cell_ok n c.
  Proof.
    unfold ring_ok. generalize (kr_cells k). intros l H. revert i. induction H; intros [|i] E; try discriminate E.
    - injection E as <-. eexists; split; [reflexivity|assumption].
    - apply IHForall2. exact E.
  Qed.

  Lemma ring_put o k i n c : ring_ok o k -> (i < length o)%nat -> cell_ok n c ->
    ring_ok (change o i n) (kr_put k i c).
  Proof.
    unfold ring_ok, kr_put. cbn [kr_cells]. generalize (kr_cells k). intros l H. revert i.
    induction H; intros [|i] L Hc; cbn [length] in L; try lia; cbn [change firstn skipn app].
    - constructor; assumption.
    - constructor; [assumption|]. apply IHForall2; [lia|assumption].
  Qed.

  Lemma change_same {A} (l : list A) i a : nth_error l i = Some a -> change l i a = l.
  Proof.
    revert i; induction l as [|x l IH]; intros [|i] E; try discriminate E; cbn [change].
    - injection E as ->. reflexivity.
    - rewrite IH by exact E. reflexivity.
  Qed.

  Lemma ring_put_same o k i n c : ring_ok o k -> nth_error o i = Some n -> cell_ok n c -> ring_ok o (kr_put k i c).
  Proof.
    intros H E Hc. rewrite <- (change_same o i n E). apply ring_put; try assumption.
    apply nth_error_Some. congruence.
  Qed.

  Lemma ring_decrypt_ok o k i n data : ring_ok o k -> nth_error o i = Some n ->
    fst (ring_decrypt aes k i data) = Ok (xor_ks (named_stream aes n) 0 data) /\
    ring_ok o (snd (ring_decrypt aes k i data)).
  Proof.
    intros H E. destruct (ring_get o k i n H E) as (c & G & Hc). unfold ring_decrypt. rewrite G. cbn [fst snd].
    destruct (cell_decrypt n c data Hc) as [C1 C2]. split; [exact C2|]. eapply ring_put_same; eassumption.
  Qed.

  Lemma base_slice_ok o k b i n off len : ring_ok o k -> nth_error o i = Some n ->
    fst (base_slice aes k b i off len) =
      match slice (b_buf b) off (wrap 64 (off + len)) with
      | Some l => Ok (xor_ks (named_stream aes n) 0 l) | None => Err EOob end /\
    ring_ok o (snd (base_slice aes k b i off len)).
  Proof.
    intros H E. unfold base_slice. destruct (slice _ _ _) as [l|]; [|auto]. apply ring_decrypt_ok; assumption.
  Qed.

  Lemma base_resolve_ok o k b s p t off len : ring_ok o k ->
    nth_error o (b_keys b) = Some s -> nth_error o (b_pkeys b) = Some p ->
    fst (base_resolve aes k b t off len)
      = resolve_meta (mkRd (b_buf b) (named_stream aes s) (named_stream aes p)) t off len /\
    ring_ok o (snd (base_resolve aes k b t off len)).
  Proof.
    intros H E F. unfold base_resolve, resolve_meta, resolve_unicode_raw, resolve_ascii_raw, resolve_pkg2_dir_raw,
      get_decrypt_slice, get_pkg2_decrypt_slice. cbn [rd_buf rd_ks rd_pks].
    pose proof (base_slice_ok o k b _ _ off len H E) as [S1 S2].
    pose proof (base_slice_ok o k b _ _ off len H F) as [P1 P2].
    destruct t; [| | |split; [reflexivity|exact H]].
    all: match goal with |- context [base_slice _ _ _ ?i _ _] =>
        destruct (base_slice aes k b i off len) as [r k'] end; cbn [fst snd] in *; subst.
    all: split; [|assumption]; destruct (slice _ _ _) as [l|]; cbn [rbind rmap]; try reflexivity.
    all: try (destruct (chunks_u16 _); reflexivity).
  Qed.

  (** What [encrypt_str] makes of a text. *)
  Definition sealed (n : named) (t : text) (ty : stype) : list Z :=
    match ty with
    | SEmpty => []
    | SAscii => encrypt_ascii (named_stream aes n) t
    | SUnicode => encrypt_unicode (named_stream aes n) t
    | SPkg2Dir => xor_ks (named_stream aes n) 0 (flat_map (le_bytes 2) (utf16_enc t))
    end.

  Lemma concat_mapi_ext {A B} (f g : A -> nat -> list B) i l :
    (forall x j, (i <= j < i + length l)%nat -> f x j = g x j) -> concat (mapi_from f i l) = concat (mapi_from g i l).
  Proof. intros H. f_equal. apply mapi_from_ext. exact H. Qed.

  Lemma base_encrypt_ok o k b n t ty : ring_ok o k -> nth_error o (b_keys b) = Some n ->
    fst (base_encrypt aes k b t ty) = Ok (sealed n t ty) /\ ring_ok o (snd (base_encrypt aes k b t ty)).
  Proof.
    intros H E. destruct (ring_get o k _ n H E) as (c & G & Hc). unfold base_encrypt. rewrite G.
    pose proof (zlen_nonneg (utf16_enc t)). pose proof (zlen_nonneg (utf8_enc t)).
    pose proof (zlen_nonneg (flat_map (le_bytes 2) (utf16_enc t))).
    destruct ty; cbn [fst snd sealed].
    - split.
      + f_equal. unfold encrypt_ascii. apply mapi_from_ext. intros x j J. unfold enc_ascii_byte.
        rewrite (cell_key_fn n c) by (try exact Hc; unfold zlen; lia). reflexivity.
      + eapply ring_put_same; try eassumption. apply cell_ensure; [lia|assumption].
    - split.
      + f_equal. unfold encrypt_unicode. apply concat_mapi_ext. intros x j J. unfold enc_unicode_unit.
        rewrite !(cell_key_fn n c) by (try exact Hc; unfold zlen; lia). reflexivity.
      + eapply ring_put_same; try eassumption. apply cell_ensure; [lia|assumption].
    - split.
      + apply cell_decrypt_enough; [exact Hc|lia].
      + eapply ring_put_same; try eassumption. apply cell_ensure; [lia|assumption].
    - split; [reflexivity|exact H].
  Qed.

  Lemma sealed_bytes_length n t ty : zlen (sealed n t ty) =
    match ty with SEmpty => 0 | SAscii => zlen (utf8_enc t) | _ => 2 * zlen (utf16_enc t) end.
  Proof.
    unfold zlen. destruct ty; cbn [sealed].
    - unfold encrypt_ascii. rewrite mapi_from_length. reflexivity.
    - unfold encrypt_unicode. rewrite enc_unicode_length. lia.
    - rewrite xor_ks_length. induction (utf16_enc t); [reflexivity|].
      cbn [flat_map length]. rewrite app_length, le_bytes_length. lia.
    - reflexivity.
  Qed.

  Lemma sealed_opened n p t ty off len buf : named_ok n -> scalars t -> ty <> SEmpty ->
    (ty = SPkg2Dir -> forall i, named_stream aes p i = named_stream aes n i) ->
    slice buf off (wrap 64 (off + len)) = Some (sealed n t ty) ->
    resolve_meta (mkRd buf (named_stream aes n) (named_stream aes p)) ty off len = Ok t.
  Proof.
    intros N T NE EQ SL.
    unfold resolve_meta, resolve_unicode_raw, resolve_ascii_raw, resolve_pkg2_dir_raw, get_decrypt_slice,
      get_pkg2_decrypt_slice. cbn [rd_buf rd_ks rd_pks]. rewrite SL.
    destruct ty; try congruence; unfold rmap; cbn [rbind sealed].
    - unfold encrypt_ascii. rewrite (ascii_cipher_inv _ 0). rewrite utf8_roundtrip by exact T. reflexivity.
    - unfold encrypt_unicode.
      pose proof (unicode_cipher_inv (named_stream aes n) 0 (utf16_enc t)
        (fun i => stream_byte n i N) (utf16_enc_units t T)) as X.
      unfold rmap in X. change (2 * 0)%nat with 0%nat in X. rewrite X.
      cbn [rbind]. rewrite utf16_roundtrip by exact T. reflexivity.
    - rewrite (xor_ks_ext _ (named_stream aes n)) by (apply EQ; reflexivity).
      rewrite xor_ks_twice, chunks_le2 by (apply utf16_enc_units; exact T). cbn [rbind].
      rewrite utf16_roundtrip by exact T. reflexivity.
  Qed.
End S.
