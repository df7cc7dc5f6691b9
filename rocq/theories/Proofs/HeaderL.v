(** Lemmas on header reading. *)
From Coq Require Import ZArith List Bool Lia ZifyBool ZifyNat.
From Verif.Model Require Import Base Reader Header.
From Verif.Spec Require Import Wire HeaderSpec.
From Verif.Proofs Require Import BaseL WireL.
Ltac Zify.zify_post_hook ::= Z.div_mod_to_equations.

Lemma pick_ok buf ix : (forall i, In i ix -> (i < length buf)%nat) -> bytes buf ->
  exists l, pick buf ix = Ok l /\ bytes l /\ length l = length ix /\
    forall k i, nth_error ix k = Some i -> nth_error buf i = nth_error l k.
Proof.
  intros H Hb. induction ix as [|i ix IH]; cbn [pick].
  - exists []. repeat split; [constructor|]. intros [|]; discriminate.
  - destruct IH as (l & -> & Hl & Hn & G); [intros; apply H; right; assumption|].
    destruct (nth_error buf i) as [b|] eqn:E.
    2:{ apply nth_error_None in E. specialize (H i (or_introl eq_refl)). lia. }
    exists (b :: l). split; [reflexivity|]. split.
    { constructor; [|assumption]. apply nth_error_In in E. exact (proj1 (Forall_forall _ _) Hb _ E). }
    split; [cbn; congruence|]. intros [|k] j; cbn; [|apply G]. congruence.
Qed.

Lemma pick_scattered buf ix l : bytes l -> length l = length ix ->
  (forall k i, nth_error ix k = Some i -> nth_error buf i = nth_error l k) ->
  scattered buf ix (le_val l).
Proof.
  intros Hb Hl G. split.
  - rewrite <- Hl. apply (le_val_range l Hb).
  - intros k i Hk. rewrite (G _ _ Hk).
    assert (k < length l)%nat by (rewrite Hl; apply nth_error_Some; congruence).
    rewrite <- nth_error_le_bytes with (n := length l) by assumption.
    rewrite le_bytes_le_val by assumption. reflexivity.
Qed.

Definition IX1201 : list (list nat) := [[67; 26; 48; 16]; [45; 7; 63; 46]; [21; 25; 57; 65]]%nat.
Definition IX1202 : list (list nat) :=
  [[72; 36; 15; 49; 70; 71; 99; 103]; [142; 140; 147; 14; 100; 123; 46; 77]; [18; 9; 2; 149]]%nat.

Ltac inlen := let i := fresh in let Hi := fresh in intros i Hi; cbn in Hi; unfold zlen in *; intuition (subst; lia).

Lemma read_kmst1201_ok buf : 68 <= zlen buf -> bytes buf ->
  exists h1 h2 fs, read_kmst1201 buf = Ok (h1, h2, fs) /\
    scattered buf (nth 0 IX1201 []) h1 /\ scattered buf (nth 1 IX1201 []) h2 /\ scattered buf (nth 2 IX1201 []) fs.
Proof.
  intros Hl Hb. unfold read_kmst1201.
  destruct (pick_ok buf (nth 0 IX1201 [])) as (a & Ea & Ha & Hla & Ga); [inlen|assumption|].
  destruct (pick_ok buf (nth 1 IX1201 [])) as (b & Eb & Hb' & Hlb & Gb); [inlen|assumption|].
  destruct (pick_ok buf (nth 2 IX1201 [])) as (c & Ec & Hc & Hlc & Gc); [inlen|assumption|].
  cbn [IX1201 nth] in Ea, Eb, Ec. rewrite Ea, Eb, Ec. cbn [rbind].
  do 3 eexists. split; [reflexivity|]. split; [|split]; apply pick_scattered; assumption.
Qed.

Lemma read_kmst1202_ok buf : 150 <= zlen buf -> bytes buf ->
  exists h1 h2 fs, read_kmst1202 buf = Ok (h1, h2, fs) /\
    scattered buf (nth 0 IX1202 []) h1 /\ scattered buf (nth 1 IX1202 []) h2 /\ scattered buf (nth 2 IX1202 []) fs.
Proof.
  intros Hl Hb. unfold read_kmst1202.
  destruct (pick_ok buf (nth 0 IX1202 [])) as (a & Ea & Ha & Hla & Ga); [inlen|assumption|].
  destruct (pick_ok buf (nth 1 IX1202 [])) as (b & Eb & Hb' & Hlb & Gb); [inlen|assumption|].
  destruct (pick_ok buf (nth 2 IX1202 [])) as (c & Ec & Hc & Hlc & Gc); [inlen|assumption|].
  cbn [IX1202 nth] in Ea, Eb, Ec. rewrite Ea, Eb, Ec. cbn [rbind].
  do 3 eexists. split; [reflexivity|]. split; [|split]; apply pick_scattered; assumption.
Qed.

Lemma scattered_unique buf ix v w : scattered buf ix v -> scattered buf ix w -> v = w.
Proof.
  intros [Hv Gv] [Hw Gw].
  rewrite <- (wrap_small _ _ Hv), <- (wrap_small _ _ Hw), <- !le_val_le_bytes. f_equal.
  apply list_ext_nth_error. intro k. destruct (nth_error ix k) as [i|] eqn:E.
  - assert (k < length ix)%nat by (apply nth_error_Some; congruence).
    rewrite !nth_error_le_bytes by assumption. rewrite <- (Gv _ _ E), <- (Gw _ _ E). reflexivity.
  - apply nth_error_None in E. rewrite !(proj2 (nth_error_None _ _)) by (rewrite le_bytes_length; lia). reflexivity.
Qed.

Lemma read_random_ok buf size f fl ix : bytes buf ->
  (size <= zlen buf -> exists h1 h2 fs, f buf = Ok (h1, h2, fs) /\
    scattered buf (nth 0 ix []) h1 /\ scattered buf (nth 1 ix []) h2 /\ scattered buf (nth 2 ix []) fs) ->
  (exists h1 h2 fs, size <= zlen buf /\ scattered buf (nth 0 ix []) h1 /\ scattered buf (nth 1 ix []) h2 /\
     scattered buf (nth 2 ix []) fs /\ fs = zlen buf - size /\
     read_random_header buf size f fl = Ok (mkHeader IV2 fs size size None h1 h2 fl, size)) \/
  (read_random_header buf size f fl = Err EHeader /\
   ~ (size <= zlen buf /\ exists fs, scattered buf (nth 2 ix []) fs /\ fs = zlen buf - size)).
Proof.
  intros Hb F. unfold read_random_header. destruct (Z.ltb_spec (zlen buf) size).
  - right. split; [reflexivity|lia].
  - destruct (F ltac:(lia)) as (h1 & h2 & fs & -> & A & B & C). cbn [rbind].
    destruct (Z.eqb_spec fs (zlen buf - size)).
    + left. exists h1, h2, fs. auto 10.
    + right. split; [reflexivity|]. intros (_ & fs' & C' & E). rewrite (scattered_unique _ _ _ _ C C') in *. lia.
Qed.

Lemma get_ident_spec buf :
  (zlen buf < 4 /\ get_ident buf = Err ERead) \/
  (starts_with buf PKG1 /\ get_ident buf = Ok IV1) \/
  (starts_with buf PKG2 /\ get_ident buf = Ok IV2) \/
  (4 <= zlen buf /\ ~ starts_with buf PKG1 /\ ~ starts_with buf PKG2 /\ get_ident buf = Ok IUnknown).
Proof.
  destruct buf as [|a [|b [|c [|d r]]]]; try (left; split; [reflexivity|reflexivity]).
  right. unfold get_ident. rewrite (slice_app [] [a; b; c; d] r) by reflexivity.
  unfold starts_with, PKG1, PKG2. cbn [length firstn].
  assert (D : forall x y : Z, {x = y} + {x <> y}) by apply Z.eq_dec.
  destruct (list_eq_dec D [a; b; c; d] [80; 75; 71; 49]) as [E|E].
  { injection E as -> -> -> ->. auto. }
  destruct (list_eq_dec D [a; b; c; d] [80; 75; 71; 50]) as [E'|E'].
  { injection E' as -> -> -> ->. auto. }
  right. right. rewrite !zlen_cons. pose proof (zlen_nonneg r). split; [lia|]. split; [assumption|]. split; [assumption|].
  destruct (Z.eq_dec a 80) as [->|Na].
  2:{ destruct a as [|p|p]; try reflexivity.
      repeat (destruct p as [p|p|]; try reflexivity; try congruence). }
  destruct (Z.eq_dec b 75) as [->|Nb].
  2:{ destruct b as [|p|p]; try reflexivity.
      repeat (destruct p as [p|p|]; try reflexivity; try congruence). }
  destruct (Z.eq_dec c 71) as [->|Nc].
  2:{ destruct c as [|p|p]; try reflexivity.
      repeat (destruct p as [p|p|]; try reflexivity; try congruence). }
  destruct d as [|p|p]; try reflexivity.
  repeat (destruct p as [p|p|]; try reflexivity; try congruence).
Qed.

Lemma get_encver_sound buf fsize fstart e : bytes buf ->
  get_encrypted_version buf fsize fstart = Some e ->
  stored_at buf fstart 2 e /\ e <= 255 /\ 2 <= fsize.
Proof.
  intro Hb. unfold get_encrypted_version, read_u16_at.
  destruct (read_at 2 buf fstart) as [w| | |] eqn:E; try discriminate.
  apply (read_at_sound 2 buf fstart w Hb) in E as (_ & _ & S).
  destruct ((fsize <? 2) || (255 <? w)) eqn:C; [discriminate|].
  destruct (w =? 128).
  - destruct (read_i32_at _ _) as [c| | |]; try discriminate. destruct (_ && _ && _); [discriminate|].
    intro H. injection H as <-. split; [assumption|]. lia.
  - intro H. injection H as <-. split; [assumption|]. lia.
Qed.

(** reading a number stored in the buffer *)
Lemma read_at_bytes4 pre a b c d post : byte a -> byte b -> byte c -> byte d ->
  read_at 4 (pre ++ [a; b; c; d] ++ post) (zlen pre) = Ok (a + 256 * (b + 256 * (c + 256 * d))).
Proof. intros. rewrite read_at_app by reflexivity. cbn [le_val]. f_equal. lia. Qed.
Lemma read_at_bytes2 pre a b post : byte a -> byte b ->
  read_at 2 (pre ++ [a; b] ++ post) (zlen pre) = Ok (a + 256 * b).
Proof. intros. rewrite read_at_app by reflexivity. cbn [le_val]. f_equal. lia. Qed.

Lemma enc_le4 v : enc_le 4 v = [v mod 256; v / 256 mod 256; v / 65536 mod 256; v / 16777216 mod 256].
Proof. unfold enc_le. cbn [seq map]. change (2 ^ (8 * Z.of_nat 0)) with 1. rewrite Z.div_1_r. reflexivity. Qed.

(** no version field: recognised unless the count is a multiple of 256 *)
Lemma detect_none pre post count type fsize :
  1 <= count < 2 ^ 31 -> 1 <= type <= 255 -> (count < 128 \/ count mod 256 <> 0) ->
  get_encrypted_version (pre ++ dir_bytes count type ++ post) fsize (zlen pre) = None.
Proof.
  intros Hc Ht Hm. unfold get_encrypted_version, read_u16_at, dir_bytes, enc_wzint.
  replace (-127 <=? count) with true by lia. cbn [andb]. destruct (Z.leb_spec count 127).
  - change (enc_le 1 count) with [count / 1 mod 256].
    rewrite Z.div_1_r, Z.mod_small by lia. cbn [app].
    change (pre ++ count :: type :: post) with (pre ++ [count; type] ++ post).
    rewrite read_at_bytes2 by (unfold byte; lia).
    replace (255 <? count + 256 * type) with true by lia. rewrite orb_true_r. reflexivity.
  - rewrite enc_le4. cbn [app].
    set (b0 := count mod 256) in *. assert (byte b0) by (unfold byte; subst b0; lia).
    match goal with |- context [pre ++ 128 :: b0 :: ?l] => change (pre ++ 128 :: b0 :: l) with (pre ++ [128; b0] ++ l) end.
    rewrite read_at_bytes2 by (try (unfold byte; lia); assumption).
    replace (255 <? 128 + 256 * b0) with true by (unfold byte in *; lia).
    rewrite orb_true_r. reflexivity.
Qed.

Lemma misdetect pre post count type fsize :
  128 <= count < 2 ^ 31 -> 1 <= type <= 255 -> count mod 256 = 0 -> 2 <= fsize ->
  get_encrypted_version (pre ++ dir_bytes count type ++ post) fsize (zlen pre) = Some 128.
Proof.
  intros Hc Ht Hm Hf. unfold get_encrypted_version, read_u16_at, dir_bytes, enc_wzint.
  replace (-127 <=? count) with true by lia. cbn [andb]. replace (count <=? 127) with false by lia.
  rewrite enc_le4, Hm. cbn [app].
  set (b1 := count / 256 mod 256). set (b2 := count / 65536 mod 256). set (b3 := count / 16777216 mod 256).
  assert (byte b1 /\ byte b2 /\ byte b3) as (B1 & B2 & B3) by (unfold byte; subst b1 b2 b3; lia).
  change (pre ++ 128 :: 0 :: b1 :: b2 :: b3 :: type :: post) with (pre ++ [128; 0] ++ (b1 :: b2 :: b3 :: type :: post)) at 1.
  rewrite read_at_bytes2 by (unfold byte; lia).
  replace (fsize <? 2) with false by lia. cbn [orb]. change (255 <? 128 + 256 * 0) with false.
  change (128 + 256 * 0 =? 128) with true. cbv iota.
  unfold read_i32_at.
  change (pre ++ 128 :: 0 :: b1 :: b2 :: b3 :: type :: post) with (pre ++ [128; 0] ++ ([b1; b2; b3; type] ++ post)).
  rewrite app_assoc. replace (zlen pre + 2) with (zlen (pre ++ [128; 0])) by (rewrite zlen_app; reflexivity).
  rewrite read_at_bytes4 by (auto; unfold byte; lia). unfold rmap, rbind.
  set (c := sext 32 _). clearbody b1 b2 b3.
  destruct ((0 <? c) && (Z.land c 255 =? 0) && (c <=? 65535)) eqn:E; [exfalso|reflexivity].
  assert (0 < c <= 65535) by lia.
  assert (Hw : wrap 32 c = b1 + 256 * (b2 + 256 * (b3 + 256 * type))).
  { subst c. rewrite wrap_sext by lia. apply wrap_small. unfold byte in *. change (2 ^ 32) with 4294967296. lia. }
  rewrite wrap_small in Hw by (change (2 ^ 32) with 4294967296; lia). unfold byte in *. lia.
Qed.

(** version field [e], then a directory *)
Lemma detect_some pre post e count type t2 t3 fsize :
  0 <= e <= 255 -> 1 <= count < 2 ^ 31 -> 1 <= type <= 255 -> byte t2 -> byte t3 -> 2 <= fsize ->
  get_encrypted_version (pre ++ enc_le 2 e ++ dir_bytes count type ++ t2 :: t3 :: post) fsize (zlen pre) = Some e.
Proof.
  intros He Hc Ht H2 H3 Hf. unfold get_encrypted_version, read_u16_at.
  replace (enc_le 2 e) with [e; 0].
  2:{ change (enc_le 2 e) with [e / 1 mod 256; e / 256 mod 256]. rewrite Z.div_1_r. f_equal; [lia|f_equal; lia]. }
  rewrite read_at_bytes2 by (unfold byte; lia).
  replace (e + 256 * 0) with e by lia. replace (fsize <? 2) with false by lia. replace (255 <? e) with false by lia.
  cbn [orb]. destruct (e =? 128); [|reflexivity].
  unfold read_i32_at. rewrite app_assoc.
  replace (zlen pre + 2) with (zlen (pre ++ [e; 0])) by (rewrite zlen_app; reflexivity).
  assert (G : exists b0 b1 b2 b3 r, dir_bytes count type ++ t2 :: t3 :: post = [b0; b1; b2; b3] ++ r /\
            byte b0 /\ byte b1 /\ byte b2 /\ byte b3 /\ b0 <> 0).
  { unfold dir_bytes, enc_wzint. replace (-127 <=? count) with true by lia. cbn [andb].
    destruct (Z.leb_spec count 127).
    - change (enc_le 1 count) with [count / 1 mod 256]. rewrite Z.div_1_r, Z.mod_small by lia.
      exists count, type, t2, t3, post. repeat split; unfold byte in *; lia.
    - rewrite enc_le4. cbn [app]. do 5 eexists. split; [reflexivity|]. repeat split; unfold byte; lia. }
  destruct G as (b0 & b1 & b2 & b3 & r & -> & B0 & B1 & B2 & B3 & N).
  rewrite read_at_bytes4 by assumption. unfold rmap, rbind.
  set (c := sext 32 _).
  assert (Hm : Z.land c 255 <> 0).
  { change 255 with (Z.ones 8). rewrite Z.land_ones by lia. change (2 ^ 8) with 256.
    assert (X : wrap 8 c = wrap 8 (wrap 32 c)) by (rewrite wrap_wrap_le by lia; reflexivity).
    subst c. rewrite wrap_sext, wrap_wrap_le in X by lia. unfold wrap in X. change (2 ^ 8) with 256 in X.
    set (c := sext 32 _) in *. clearbody c. rewrite X. unfold byte in *. lia. }
  replace (Z.land c 255 =? 0) with false by lia. rewrite andb_false_r. reflexivity.
Qed.
