(** C16, C51, C52: package headers. *)
From Coq Require Import ZArith List Bool Lia ZifyBool ZifyNat.
From Verif.Model Require Import Base Reader Header.
From Verif.Spec Require Import Wire HeaderSpec.
From Verif.Proofs Require Import BaseL WireL HeaderL.

(** C16: reading a header from any bytes gives a header or an error. *)
Theorem C16_header_total :
  forall buf, bytes buf ->
    (exists h p, read_header buf = Ok (h, p)) \/ (exists e, read_header buf = Err e).
Proof.
  intros buf Hb. unfold read_header.
  assert (T : forall n pos, (exists v, read_at n buf pos = Ok v) \/ read_at n buf pos = Err ERead).
  { intros. unfold read_at. destruct (slice _ _ _); eauto. }
  destruct (get_ident_spec buf) as [[_ ->]|[[_ ->]|[[_ ->]|(_ & _ & _ & ->)]]]; cbn [rbind]; [eauto| | |].
  - unfold read_u64_at, read_u32_at.
    destruct (T 8 4) as [[v ->]| ->]; cbn [rbind]; [|eauto].
    destruct (T 4 12) as [[w ->]| ->]; cbn [rbind]; eauto.
  - unfold read_u64_at, read_u32_at.
    destruct (T 8 4) as [[v ->]| ->]; cbn [rbind]; [|eauto].
    destruct (T 4 12) as [[w ->]| ->]; cbn [rbind]; [|eauto].
    destruct (T 4 w) as [[x ->]| ->]; cbn [rbind]; [|eauto].
    destruct (T 4 (w + 4)) as [[y ->]| ->]; cbn [rbind]; eauto.
  - destruct (read_random_ok buf 150 read_kmst1202 FRandom64 IX1202 Hb) as [(a & b & c & _ & _ & _ & _ & _ & ->)|[-> _]]; [|eauto|].
    { intro. apply read_kmst1202_ok; assumption. }
    destruct (read_random_ok buf 68 read_kmst1201 FRandom32 IX1201 Hb) as [(a & b & c & _ & _ & _ & _ & _ & ->)|[-> _]]; eauto.
    intro. apply read_kmst1201_ok; assumption.
Qed.
Print Assumptions C16_header_total.

(** C16: what a returned header says is what stands in the file, for each of
    the four layouts. *)
Theorem C16_header_sound :
  forall buf h p, bytes buf -> read_header buf = Ok (h, p) ->
    p = hd_fstart h /\
    match hd_ident h, hd_flags h with
    | IV1, FNone =>
        starts_with buf PKG1 /\ stored_at buf 4 8 (hd_fsize h) /\ stored_at buf 12 4 (hd_fstart h) /\
        match hd_encver h with
        | Some e => stored_at buf (hd_fstart h) 2 e /\ e <= 255 /\ hd_data_start h = hd_fstart h + 2
        | None => hd_data_start h = hd_fstart h
        end
    | IV2, FNone =>
        starts_with buf PKG2 /\ stored_at buf 4 8 (hd_fsize h) /\ stored_at buf 12 4 (hd_fstart h) /\
        stored_at buf (hd_fstart h) 4 (hd_hash1 h) /\ stored_at buf (hd_fstart h + 4) 4 (hd_hash2 h) /\
        hd_data_start h = hd_fstart h + 8
    | IV2, FRandom64 =>
        scattered buf [72; 36; 15; 49; 70; 71; 99; 103]%nat (hd_hash1 h) /\
        scattered buf [142; 140; 147; 14; 100; 123; 46; 77]%nat (hd_hash2 h) /\
        scattered buf [18; 9; 2; 149]%nat (hd_fsize h) /\
        hd_fsize h = zlen buf - 150 /\ hd_fstart h = 150 /\ hd_data_start h = 150
    | IV2, FRandom32 =>
        scattered buf [67; 26; 48; 16]%nat (hd_hash1 h) /\
        scattered buf [45; 7; 63; 46]%nat (hd_hash2 h) /\
        scattered buf [21; 25; 57; 65]%nat (hd_fsize h) /\
        hd_fsize h = zlen buf - 68 /\ hd_fstart h = 68 /\ hd_data_start h = 68
    | _, _ => False
    end.
Proof.
  intros buf h p Hb. unfold read_header.
  destruct (get_ident_spec buf) as [[_ ->]|[[M ->]|[[M ->]|(_ & _ & _ & ->)]]]; cbn [rbind]; [discriminate| | |].
  - unfold read_u64_at, read_u32_at.
    destruct (read_at 8 buf 4) as [v| | |] eqn:E1; try discriminate. cbn [rbind].
    destruct (read_at 4 buf 12) as [w| | |] eqn:E2; try discriminate. cbn [rbind].
    intro H. injection H as <- <-. cbn [hd_fstart hd_ident hd_flags hd_fsize hd_encver hd_data_start].
    apply (read_at_sound 8 buf 4 v Hb) in E1 as (_ & _ & E1).
    apply (read_at_sound 4 buf 12 w Hb) in E2 as (_ & _ & E2).
    split; [reflexivity|]. split; [assumption|]. split; [assumption|]. split; [assumption|].
    destruct (get_encrypted_version buf v w) as [e|] eqn:E; [|reflexivity].
    apply get_encver_sound in E; [|assumption]. destruct E as (A & B & _). auto.
  - unfold read_u64_at, read_u32_at.
    destruct (read_at 8 buf 4) as [v| | |] eqn:E1; try discriminate. cbn [rbind].
    destruct (read_at 4 buf 12) as [w| | |] eqn:E2; try discriminate. cbn [rbind].
    destruct (read_at 4 buf w) as [x| | |] eqn:E3; try discriminate. cbn [rbind].
    destruct (read_at 4 buf (w + 4)) as [y| | |] eqn:E4; try discriminate. cbn [rbind].
    intro H. injection H as <- <-. cbn [hd_fstart hd_ident hd_flags hd_fsize hd_encver hd_data_start hd_hash1 hd_hash2].
    apply (read_at_sound 8 buf 4 v Hb) in E1 as (_ & _ & E1).
    apply (read_at_sound 4 buf 12 w Hb) in E2 as (_ & _ & E2).
    apply (read_at_sound 4 buf w x Hb) in E3 as (_ & _ & E3).
    apply (read_at_sound 4 buf (w + 4) y Hb) in E4 as (_ & _ & E4). auto 10.
  - destruct (read_random_ok buf 150 read_kmst1202 FRandom64 IX1202 Hb)
      as [(a & b & c & G & A & B & C & L & ->)|[-> _]].
    { intro. apply read_kmst1202_ok; assumption. }
    { intro H. injection H as <- <-. cbn [hd_fstart hd_ident hd_flags hd_fsize hd_encver hd_data_start hd_hash1 hd_hash2].
      cbn [IX1202 nth] in *. auto 10. }
    destruct (read_random_ok buf 68 read_kmst1201 FRandom32 IX1201 Hb)
      as [(a & b & c & G & A & B & C & L & ->)|[-> _]]; [| |discriminate].
    { intro. apply read_kmst1201_ok; assumption. }
    { intro H. injection H as <- <-. cbn [hd_fstart hd_ident hd_flags hd_fsize hd_encver hd_data_start hd_hash1 hd_hash2].
      cbn [IX1201 nth] in *. auto 10. }
Qed.
Print Assumptions C16_header_sound.

(** C16: every file laid out as one of the formats is accepted. *)
Theorem C16_header_complete :
  forall buf, bytes buf ->
    (starts_with buf PKG1 -> 16 <= zlen buf ->
       exists h, read_header buf = Ok (h, hd_fstart h) /\ hd_ident h = IV1) /\
    (forall fstart, starts_with buf PKG2 -> stored_at buf 12 4 fstart -> fstart + 8 <= zlen buf -> 16 <= zlen buf ->
       exists h, read_header buf = Ok (h, fstart) /\ hd_ident h = IV2 /\ hd_fstart h = fstart) /\
    (forall fsize, 4 <= zlen buf -> ~ starts_with buf PKG1 -> ~ starts_with buf PKG2 ->
       scattered buf [18; 9; 2; 149]%nat fsize -> fsize = zlen buf - 150 ->
       exists h, read_header buf = Ok (h, 150) /\ hd_flags h = FRandom64) /\
    (forall fsize, 4 <= zlen buf -> ~ starts_with buf PKG1 -> ~ starts_with buf PKG2 ->
       scattered buf [21; 25; 57; 65]%nat fsize -> fsize = zlen buf - 68 ->
       ~ scattered buf [18; 9; 2; 149]%nat (zlen buf - 150) ->
       exists h, read_header buf = Ok (h, 68) /\ hd_flags h = FRandom32).
Proof.
  intros buf Hb. unfold read_header.
  assert (X : starts_with buf PKG1 -> starts_with buf PKG2 -> False).
  { unfold starts_with. cbn [length PKG1 PKG2]. intros A B. rewrite A in B. discriminate. }
  split; [|split; [|split]].
  - intros M L. destruct (get_ident_spec buf) as [[H _]|[[_ ->]|[[M' _]|(_ & M' & _)]]]; [lia| |exfalso; auto|contradiction].
    cbn [rbind]. destruct (read_at_total 8 buf 4 ltac:(lia) ltac:(lia)) as [v Ev].
    destruct (read_at_total 4 buf 12 ltac:(lia) ltac:(lia)) as [w Ew].
    change (Z.of_nat 8) with 8 in Ev. change (Z.of_nat 4) with 4 in Ew.
    unfold read_u64_at, read_u32_at. rewrite Ev, Ew. cbn [rbind].
    match goal with |- exists h, Ok (?x, _) = _ /\ _ => exists x end. split; reflexivity.
  - intros fstart M S L1 L. destruct (get_ident_spec buf) as [[H _]|[[M' _]|[[_ ->]|(_ & _ & M' & _)]]]; [lia|exfalso; auto| |contradiction].
    cbn [rbind]. destruct (read_at_total 8 buf 4 ltac:(lia) ltac:(lia)) as [v Ev].
    destruct (read_at_total 4 buf 12 ltac:(lia) ltac:(lia)) as [w Ew].
    pose proof (read_at_sound 4 buf 12 w Hb Ew) as (_ & _ & S').
    rewrite (stored_at_unique _ _ _ _ _ S' S) in *. destruct S as [R _].
    destruct (read_at_total 4 buf fstart ltac:(lia) ltac:(lia)) as [x Ex].
    destruct (read_at_total 4 buf (fstart + 4) ltac:(lia) ltac:(lia)) as [y Ey].
    change (Z.of_nat 8) with 8 in Ev. change (Z.of_nat 4) with 4 in *.
    unfold read_u64_at, read_u32_at. rewrite Ev, Ew. cbn [rbind]. rewrite Ex, Ey. cbn [rbind].
    eexists. repeat split; reflexivity.
  - intros fsize L M1 M2 S E. destruct (get_ident_spec buf) as [[H _]|[[M' _]|[[M' _]|(_ & _ & _ & ->)]]]; [lia|contradiction|contradiction|].
    cbn [rbind]. destruct (read_random_ok buf 150 read_kmst1202 FRandom64 IX1202 Hb)
      as [(a & b & c & G & A & B & C & L' & ->)|[_ N]].
    { intro. apply read_kmst1202_ok; assumption. }
    { eexists. split; reflexivity. }
    exfalso. apply N. split; [destruct S; lia|]. eauto.
  - intros fsize L M1 M2 S E N64. destruct (get_ident_spec buf) as [[H _]|[[M' _]|[[M' _]|(_ & _ & _ & ->)]]]; [lia|contradiction|contradiction|].
    cbn [rbind]. destruct (read_random_ok buf 150 read_kmst1202 FRandom64 IX1202 Hb)
      as [(a & b & c & G & A & B & C & L' & ->)|[-> _]].
    { intro. apply read_kmst1202_ok; assumption. }
    { exfalso. apply N64. cbn [IX1202 nth] in C. subst c. exact C. }
    destruct (read_random_ok buf 68 read_kmst1201 FRandom32 IX1201 Hb)
      as [(a & b & c & G & A & B & C & L' & ->)|[_ N]].
    { intro. apply read_kmst1201_ok; assumption. }
    { eexists. split; reflexivity. }
    exfalso. apply N. split; [destruct S; lia|]. eauto.
Qed.
Print Assumptions C16_header_complete.

Example C16_ex :
  read_header (PKG1 ++ enc_le 8 100 ++ enc_le 4 18 ++ [1; 2] ++ [0x7d; 0; 3; 4; 5; 6])
    = Ok (mkHeader IV1 100 18 20 (Some 0x7d) 0 0 FNone, 18) /\
  read_header (PKG2 ++ enc_le 8 100 ++ enc_le 4 16 ++ enc_le 4 0xDEADBEEF ++ enc_le 4 7)
    = Ok (mkHeader IV2 100 16 24 None 0xDEADBEEF 7 FNone, 16) /\
  read_header [80; 75; 71; 49; 1] = Err ERead /\
  read_header (repeat 0 68) = Ok (mkHeader IV2 0 68 68 None 0 0 FRandom32, 68).
Proof. vm_compute. repeat split. Qed.

(** C51: where the version field is detected correctly.  [pre] is everything
    before the content, which then is either a version field and a directory or
    directly a directory. *)
Theorem C51_version_field_detected :
  forall pre post count type fsize,
    1 <= count < 2 ^ 31 -> 1 <= type <= 255 -> 2 <= fsize ->
    (forall e t2 t3, 0 <= e <= 255 -> byte t2 -> byte t3 ->
       get_encrypted_version (pre ++ enc_le 2 e ++ dir_bytes count type ++ t2 :: t3 :: post) fsize (zlen pre)
         = Some e) /\
    (count < 128 \/ count mod 256 <> 0 ->
       get_encrypted_version (pre ++ dir_bytes count type ++ post) fsize (zlen pre) = None).
Proof.
  intros. split; intros; [apply detect_some|apply detect_none]; assumption.
Qed.
Print Assumptions C51_version_field_detected.

Example C51_ex :
  get_encrypted_version ([9; 9] ++ dir_bytes 300 4 ++ [1]) 50 2 = None /\
  get_encrypted_version ([9; 9] ++ enc_le 2 128 ++ dir_bytes 300 4 ++ [1; 2]) 50 2 = Some 128.
Proof. vm_compute. split; reflexivity. Qed.

(** C52: full statement: a package without version field is recognised as such
    whatever its number of entries.  False: the code looks for the entry count
    one byte too far, so a count that is a multiple of 256 makes the marker byte
    0x80 pass for version 128 - every time, not just in an unlucky case. *)
Theorem C52_missing_version_field_refuted :
  exists count, 1 <= count < 2 ^ 31 /\
    forall pre post type fsize, 1 <= type <= 255 -> 2 <= fsize ->
      get_encrypted_version (pre ++ dir_bytes count type ++ post) fsize (zlen pre) = Some 128.
Proof.
  exists 256. split; [lia|]. intros. apply misdetect; lia.
Qed.
Print Assumptions C52_missing_version_field_refuted.

(** C52, sharp form: exactly the multiples of 256 are misread. *)
Theorem C52_missing_version_field_sharp :
  forall pre post count type fsize,
    1 <= count < 2 ^ 31 -> 1 <= type <= 255 -> 2 <= fsize ->
    (get_encrypted_version (pre ++ dir_bytes count type ++ post) fsize (zlen pre) = None
     <-> count mod 256 <> 0).
Proof.
  intros pre post count type fsize Hc Ht Hf. destruct (Z.eq_dec (count mod 256) 0) as [e|e].
  - rewrite misdetect; [split; [discriminate|contradiction]| |assumption|assumption|assumption].
    pose proof (Z.div_mod count 256). lia.
  - split; [auto|]. intros _. apply detect_none; auto.
Qed.
Print Assumptions C52_missing_version_field_sharp.
