(** C226: decoding of texts that may be broken. *)
From Coq Require Import ZArith List Bool Lia ZifyBool ZifyNat.
From Verif.Model Require Import Base Utf Keys Reader WzStr Png Ms.
From Verif.Spec Require Import Wire Stream StrWire Media PropWire Lossy.
From Verif.Proofs Require Import BaseL WireL KeysL StringL ReaderL StrWireL AtL MediaL StrictL LossyL.
From Verif.Props Require Import P_MsRead.
Import ListNotations.
Open Scope Z_scope.

(** What the bytes [raw] of a string are read as, well formed or not. *)
Definition read_as (r : rd) (ty : stype) (raw t : list Z) : Prop :=
  match ty with
  | SAscii => exists b, bytes b /\ raw = body_ascii (rd_ks r) b /\ lossy8 b t
  | SUnicode => exists us, Forall (fun u => 0 <= u < 65536) us /\ raw = body_unicode (rd_ks r) us /\ lossy16 us t
  | SPkg2Dir => exists us, Forall (fun u => 0 <= u < 65536) us /\ raw = body_pkg2 (rd_pks r) us /\ lossy16 us t
  | SEmpty => t = []
  end.

(** C226: decoding never refuses bytes that are there; the text is the characters in order, with one U+FFFD for each
    maximal part of a broken character and for each lone half of a pair, and it is no other text. *)
Theorem C226_lossy : forall r ty off len raw,
  at_ (rd_buf r) off (off + len) raw -> zlen (rd_buf r) < 2 ^ 63 -> bytes raw ->
  (forall j, byte (rd_ks r j)) -> (forall j, byte (rd_pks r j)) -> (ty <> SAscii -> Z.even len = true) ->
  (exists t, resolve_meta r ty off len = Ok t) /\ forall t, resolve_meta r ty off len = Ok t <-> read_as r ty raw t.
Proof.
  intros r ty off len raw A Hz B Hk Hp E.
  pose proof (at_range _ _ _ _ A) as (A1 & A2 & A3). pose proof (zlen_nonneg raw).
  assert (W : wrap 64 (off + len) = off + len) by (apply wrap_small; change (2 ^ 64) with 18446744073709551616; change (2 ^ 63) with 9223372036854775808 in Hz; lia).
  pose proof (range_at _ _ _ _ A) as R. unfold range in R.
  destruct (slice (rd_buf r) off (off + len)) as [raw'|] eqn:Sl; [|discriminate]. injection R as ->.
  assert (Ev : ty <> SAscii -> Nat.even (length raw) = true).
  { intros X. specialize (E X). replace len with (zlen raw) in E by lia. unfold zlen in E.
    apply Z.even_spec in E. destruct E as [k E]. apply Nat.even_spec. exists (Z.to_nat k). lia. }
  unfold resolve_meta, resolve_unicode_raw, resolve_ascii_raw, resolve_pkg2_dir_raw, get_decrypt_slice, get_pkg2_decrypt_slice.
  rewrite W, Sl. destruct ty; cbn [read_as].
  - cbn [rmap rbind]. set (l := mapi_from resolve_ascii_char 0 (xor_ks (rd_ks r) 0 raw)).
    assert (Bl : bytes l).
    { subst l. clear -B Hk. revert B. generalize 0%nat. unfold bytes. induction raw as [|a l IH]; intros i B; [constructor|]. inversion_clear B. cbn [xor_ks mapi_from].
      constructor; [|apply IH; assumption]. unfold resolve_ascii_char. apply lxor_byte; [apply lxor_byte; [assumption|apply Hk]|].
      unfold byte. apply (wrap_range 8). lia. }
    pose proof (lossy8_go (length l) l Bl (le_n _)) as L. change (lossy8 l (utf8_lossy l)) in L.
    split; [eauto|]. intro t. split.
    + intros [= <-]. exists l. split; [exact Bl|]. split; [symmetry; apply ascii_back|exact L].
    + intros (b & Bb & Eb & Lb). f_equal. assert (Ll : l = b) by (unfold l; rewrite Eb; apply ascii_forth). rewrite <- Ll in Lb.
      exact (lossy8_unique _ _ L _ Lb).
  - destruct (unicode_back (rd_ks r) raw Hk B (Ev ltac:(discriminate))) as (us & U1 & U2 & U3).
    cbn [rbind]. rewrite U1. cbn [rmap rbind]. pose proof (lossy16_items us U2) as L. change (lossy16 us (utf16_lossy us)) in L.
    split; [eauto|]. intro t. split.
    + intros [= <-]. exists us. split; [exact U2|]. split; [symmetry; exact U3|exact L].
    + intros (us' & U' & E' & L'). rewrite E', (unicode_forth _ _ Hk U') in U1. injection U1 as ->. f_equal. exact (lossy16_unique _ _ L _ L').
  - destruct (pkg2_back (rd_pks r) raw Hp B (Ev ltac:(discriminate))) as (us & U1 & U2 & U3).
    cbn [rbind]. rewrite U1. cbn [rmap rbind]. pose proof (lossy16_items us U2) as L. change (lossy16 us (utf16_lossy us)) in L.
    split; [eauto|]. intro t. split.
    + intros [= <-]. exists us. split; [exact U2|]. split; [symmetry; exact U3|exact L].
    + intros (us' & U' & E' & L'). rewrite E', (pkg2_forth _ _ Hp U') in U1. injection U1 as ->. f_equal. exact (lossy16_unique _ _ L _ L').
  - split; [eauto|]. intro t. split; [intros [= <-]; reflexivity|intros ->; reflexivity].
Qed.
Print Assumptions C226_lossy.

(** Three bytes of a four-byte character, a bad second byte, a byte that starts nothing, a character; halves of pairs. *)
Example C226_example :
  let ks := fun i : nat => Z.of_nat (i * 7 + 3) mod 256 in
  let a := mkRd (body_ascii ks [0xF0; 0x9F; 0x98; 0x41; 0xE0; 0x80; 0xC3; 0xA9; 0xE2; 0x82]) ks ks in
  let u := mkRd (body_unicode ks [0xD83D; 0xD83D; 0xDE00; 0xDE00; 104]) ks ks in
  resolve_meta a SAscii 0 10 = Ok [0xFFFD; 0x41; 0xFFFD; 0xFFFD; 233; 0xFFFD] /\
  resolve_meta u SUnicode 0 10 = Ok [0xFFFD; 0x1F600; 0xFFFD; 104] /\
  subpart [0xF0; 0x9F; 0x98] [0x41] /\ subpart [0xE0] [0x80].
Proof.
  cbv zeta. split; [vm_compute; reflexivity|]. split; [vm_compute; reflexivity|]. split.
  - destruct (step_bad [0xF0; 0x9F; 0x98; 0x41] [0x41]) as (p & E & P); [repeat constructor; unfold byte; lia|reflexivity|].
    destruct (app_same [0xF0; 0x9F; 0x98] p [0x41] [0x41]) as [-> _]; [|exact E|exact P].
    apply (f_equal (@length Z)) in E. rewrite app_length in E. cbn in *. lia.
  - destruct (step_bad [0xE0; 0x80] [0x80]) as (p & E & P); [repeat constructor; unfold byte; lia|reflexivity|].
    destruct (app_same [0xE0] p [0x80] [0x80]) as [-> _]; [|exact E|exact P].
    apply (f_equal (@length Z)) in E. rewrite app_length in E. cbn in *. lia.
Qed.
