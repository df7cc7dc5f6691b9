(** C135: guarded decoding of stored texts. *)
From Coq Require Import ZArith List Bool Lia ZifyBool ZifyNat.
From Verif.Model Require Import Base Utf Keys Reader WzStr Png Ms.
From Verif.Spec Require Import Wire Stream StrWire Media PropWire.
From Verif.Proofs Require Import BaseL WireL KeysL StringL ReaderL StrWireL AtL MediaL StrictL.
From Verif.Props Require Import P_MsRead.
Import ListNotations.
Open Scope Z_scope.

(** What the bytes [raw] of a string must be for its text to be [t]. *)
Definition written (r : rd) (ty : stype) (raw t : list Z) : Prop :=
  match ty with
  | SAscii => exists b, utf8 t b /\ raw = body_ascii (rd_ks r) b
  | SUnicode => unicode t /\ raw = body_unicode (rd_ks r) (units16 t)
  | SPkg2Dir => unicode t /\ raw = body_pkg2 (rd_pks r) (units16 t)
  | SEmpty => t = []
  end.

(** C135: the guarded form of decoding gives a text exactly if the bytes are that text written down under the
    key, and otherwise an error that says so; the unguarded form then agrees. *)
Theorem C135_guarded : forall r ty off len raw,
  at_ (rd_buf r) off (off + len) raw -> zlen (rd_buf r) < 2 ^ 63 -> bytes raw ->
  (forall j, byte (rd_ks r j)) -> (forall j, byte (rd_pks r j)) -> (ty <> SAscii -> Z.even len = true) ->
  (forall t, try_resolve_meta r ty off len = Ok t <-> written r ty raw t) /\
  (forall t, written r ty raw t -> resolve_meta r ty off len = Ok t) /\
  ((forall t, ~ written r ty raw t) ->
     try_resolve_meta r ty off len = Err (match ty with SAscii => EUtf8 | _ => EUtf16 end)).
Proof.
  intros r ty off len raw A Hz B Hk Hp E.
  pose proof (at_range _ _ _ _ A) as (A1 & A2 & A3). pose proof (zlen_nonneg raw).
  assert (W : wrap 64 (off + len) = off + len) by (apply wrap_small; change (2 ^ 64) with 18446744073709551616; change (2 ^ 63) with 9223372036854775808 in Hz; lia).
  pose proof (range_at _ _ _ _ A) as R. unfold range in R.
  destruct (slice (rd_buf r) off (off + len)) as [raw'|] eqn:S; [|discriminate]. injection R as ->.
  assert (Ev : ty <> SAscii -> Nat.even (length raw) = true).
  { intros X. specialize (E X). replace len with (zlen raw) in E by lia. unfold zlen in E.
    apply Z.even_spec in E. destruct E as [k E]. apply Nat.even_spec. exists (Z.to_nat k). lia. }
  unfold try_resolve_meta, resolve_meta, resolve_unicode_raw, resolve_ascii_raw, resolve_pkg2_dir_raw, get_decrypt_slice, get_pkg2_decrypt_slice.
  rewrite W, S. destruct ty; cbn [written].
  - cbn [rmap rbind]. set (l := mapi_from resolve_ascii_char 0 (xor_ks (rd_ks r) 0 raw)).
    assert (Bl : bytes l).
    { subst l. clear -B Hk. revert B. generalize 0%nat. unfold bytes. induction raw as [|a l IH]; intros i B; [constructor|]. inversion_clear B. cbn [xor_ks mapi_from].
      constructor; [|apply IH; assumption]. unfold resolve_ascii_char. apply lxor_byte; [apply lxor_byte; [assumption|apply Hk]|].
      unfold byte. apply (wrap_range 8). lia. }
    assert (I : forall t, utf8_strict l = Some t <-> exists b, utf8 t b /\ raw = body_ascii (rd_ks r) b).
    { intros t. rewrite strict_some by exact Bl. split.
      - intros U. exists l. split; [exact U|]. symmetry. apply ascii_back.
      - intros (b & U & ->). unfold l. rewrite ascii_forth. exact U. }
    split; [|split].
    + intros t. rewrite <- I. destruct (utf8_strict l); split; congruence.
    + intros t H1. apply I in H1. f_equal. apply strict8_lossy, H1.
    + intros N. destruct (utf8_strict l) as [t|]; [|reflexivity]. exfalso. apply (N t), I. reflexivity.
  - destruct (unicode_back (rd_ks r) raw Hk B (Ev ltac:(discriminate))) as (us & U1 & U2 & U3).
    cbn [rbind]. rewrite U1. cbn [rmap rbind].
    assert (I : forall t, utf16_strict us = Some t <-> unicode t /\ raw = body_unicode (rd_ks r) (units16 t)).
    { intros t. rewrite strict16 by exact U2. split; intros [T1 T2]; (split; [exact T1|]).
      - rewrite <- T2. now symmetry.
      - rewrite T2, (unicode_forth _ _ Hk (units_unit t T1)) in U1. congruence. }
    split; [|split].
    + intros t. rewrite <- I. destruct (utf16_strict us); split; congruence.
    + intros t H1. apply I in H1. f_equal. apply strict16_lossy, H1.
    + intros N. destruct (utf16_strict us) as [t|]; [|reflexivity]. exfalso. apply (N t), I. reflexivity.
  - destruct (pkg2_back (rd_pks r) raw Hp B (Ev ltac:(discriminate))) as (us & U1 & U2 & U3).
    cbn [rbind]. rewrite U1. cbn [rmap rbind].
    assert (I : forall t, utf16_strict us = Some t <-> unicode t /\ raw = body_pkg2 (rd_pks r) (units16 t)).
    { intros t. rewrite strict16 by exact U2. split; intros [T1 T2]; (split; [exact T1|]).
      - rewrite <- T2. now symmetry.
      - rewrite T2, (pkg2_forth _ _ Hp (units_unit t T1)) in U1. congruence. }
    split; [|split].
    + intros t. rewrite <- I. destruct (utf16_strict us); split; congruence.
    + intros t H1. apply I in H1. f_equal. apply strict16_lossy, H1.
    + intros N. destruct (utf16_strict us) as [t|]; [|reflexivity]. exfalso. apply (N t), I. reflexivity.
  - split; [|split].
    + intros t. split; [intros X; injection X as <-; reflexivity|intros ->; reflexivity].
    + intros t ->. reflexivity.
    + intros N. exfalso. apply (N []). reflexivity.
Qed.
Print Assumptions C135_guarded.
(** A lone surrogate and a broken UTF-8 sequence: the guarded forms say so, the others put a replacement. *)
Example C135_example :
  let ks := fun i : nat => Z.of_nat (i * 7 + 3) mod 256 in
  let u := mkRd (body_unicode ks [104; 0xD83D; 105]) ks ks in
  let a := mkRd (body_ascii ks [104; 0xC3; 105]) ks ks in
  let p := mkRd (body_pkg2 ks [0xDC00]) ks ks in
  let g := mkRd (body_ascii ks [104; 0xC3; 0xA9]) ks ks in
  try_resolve_meta u SUnicode 0 6 = Err EUtf16 /\ resolve_meta u SUnicode 0 6 = Ok [104; 0xFFFD; 105] /\
  try_resolve_meta a SAscii 0 3 = Err EUtf8 /\ resolve_meta a SAscii 0 3 = Ok [104; 0xFFFD; 105] /\
  try_resolve_meta p SPkg2Dir 0 2 = Err EUtf16 /\
  try_resolve_meta g SAscii 0 3 = Ok [104; 233] /\ written g SAscii (rd_buf g) [104; 233].
Proof.
  cbv zeta. repeat (split; [vm_compute; reflexivity|]).
  exists [104; 0xC3; 0xA9]. split; [|reflexivity].
  apply (utf8_cons 104 [233] [104] [0xC3; 0xA9]); [constructor; lia|].
  apply (utf8_cons 233 [] [0xC3; 0xA9] []); [|constructor]. apply (utf8_2 3 41); lia.
Qed.

(** C135: the same for the names in archives, read through either cipher. *)
Theorem C135_archive_names : forall block l s s' c c' len,
  bytes l -> Nat.even (length l) = true -> sr_bytes s len = Ok (l, s') -> cr_bytes block c len = Ok (l, c') ->
  (forall t, unicode t -> l = flat_map (enc_le 2) (units16 t) ->
     sr_text s len = Ok (t, s') /\ cr_text block c len = Ok (t, c')) /\
  ((forall t, unicode t -> l <> flat_map (enc_le 2) (units16 t)) ->
     sr_text s len = Err EUtf16 /\ cr_text block c len = Err EUtf16).
Proof.
  intros block l s s' c c' len B E Hs Hc. unfold sr_text, cr_text. rewrite Hs, Hc. cbn [rbind fst snd]. unfold text_of_units.
  destruct (units_of_back l B E) as [F L].
  assert (I : forall t, utf16_strict (units_of l) = Some t <-> unicode t /\ l = flat_map (enc_le 2) (units16 t)).
  { intros t. rewrite strict16 by exact F. split; intros [T1 T2]; (split; [exact T1|]).
    - rewrite <- T2. now symmetry.
    - rewrite T2. apply units_of_le2, units_unit, T1. }
  split.
  - intros t T1 T2. rewrite (proj2 (I t) (conj T1 T2)). split; reflexivity.
  - intros N. destruct (utf16_strict (units_of l)) as [t|] eqn:X; [|split; reflexivity].
    destruct (proj1 (I t) eq_refl) as [X1 X2]. destruct (N t X1 X2).
Qed.
Print Assumptions C135_archive_names.
Example C135_archive_example :
  let name l := rmap fst (sr_text (sr_new (hide read_key l) read_key 0) (zlen l)) in
  name [104; 0; 61; 216; 0; 222; 105; 0] = Ok [104; 0x1F600; 105] /\
  name [104; 0; 61; 216; 105; 0; 0; 222] = Err EUtf16.
Proof. vm_compute. split; reflexivity. Qed.
