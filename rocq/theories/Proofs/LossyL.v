(** Lemmas on texts that are not well formed. *)
From Coq Require Import ZArith List Bool Lia Arith ZifyBool.
From Verif.Model Require Import Base Utf.
From Verif.Spec Require Import Wire Media Lossy.
From Verif.Proofs Require Import BaseL StringL MediaL.
Import ListNotations.
Open Scope Z_scope.
Ltac Zify.zify_post_hook ::= idtac.

(** The second byte fits the first. *)
Definition fits3 (b0 b1 : Z) : bool := if b0 =? 224 then inr_ 160 191 b1 else if b0 =? 237 then inr_ 128 159 b1 else is_cont b1.
Definition fits4 (b0 b1 : Z) : bool := if b0 =? 240 then inr_ 144 191 b1 else if b0 =? 244 then inr_ 128 143 b1 else is_cont b1.

Lemma char_lead c b : utf8_char c b -> match b with
  | [b0] => b0 < 128
  | [b0; b1] => 194 <= b0 <= 223 /\ is_cont b1 = true
  | [b0; b1; b2] => 224 <= b0 <= 239 /\ fits3 b0 b1 = true /\ is_cont b2 = true
  | [b0; b1; b2; b3] => 240 <= b0 <= 244 /\ fits4 b0 b1 = true /\ is_cont b2 = true /\ is_cont b3 = true
  | _ => False end.
Proof.
  unfold is_cont, fits3, fits4, is_cont, inr_. destruct 1; try (change (2 ^ 7) with 128 in *; change (2 ^ 5) with 32 in *); try lia.
  - change (2 ^ 4) with 16 in *. change (2 ^ 11) with 2048 in *.
    destruct (Z.eqb_spec (224 + h) 224); [lia|]. destruct (Z.eqb_spec (224 + h) 237); lia.
  - change (2 ^ 3) with 8 in *. change (2 ^ 16) with 65536 in *.
    destruct (Z.eqb_spec (240 + h) 240); [lia|]. destruct (Z.eqb_spec (240 + h) 244); lia.
Qed.
Lemma stub_lead p : stub p -> match p with
  | [] => True
  | [b0] => 194 <= b0 <= 244
  | [b0; b1] => (224 <= b0 <= 239 /\ fits3 b0 b1 = true) \/ (240 <= b0 <= 244 /\ fits4 b0 b1 = true)
  | [b0; b1; b2] => 240 <= b0 <= 244 /\ fits4 b0 b1 = true /\ is_cont b2 = true
  | _ => False end.
Proof.
  intros (c & b & x & U & E & N). apply char_lead in U. subst b.
  destruct p as [|b0 [|b1 [|b2 [|b3 p]]]]; [exact I|..]; cbn [app] in U.
  - destruct x as [|x1 [|x2 [|x3 [|]]]]; try congruence; lia.
  - destruct x as [|x2 [|x3 [|]]]; try congruence; tauto.
  - destruct x as [|x3 [|]]; try congruence; tauto.
  - destruct p as [|? p]; [|exact U]. destruct x; [congruence|exact U].
Qed.
Lemma stub_one b0 : 194 <= b0 <= 244 -> stub [b0].
Proof.
  intro H. destruct (Z_le_dec b0 223).
  - exists (64 * (b0 - 192) + 0), [0xC0 + (b0 - 192); 0x80 + 0], [0x80]. split; [constructor; lia|]. split; [cbn [app]; f_equal; lia|discriminate].
  - destruct (Z_le_dec b0 239).
    + pose (a := if b0 =? 224 then 32 else 0).
      exists (64 * (64 * (b0 - 224) + a) + 0), [0xE0 + (b0 - 224); 0x80 + a; 0x80 + 0], [0x80 + a; 0x80 + 0].
      split; [|split; [cbn [app]; f_equal; lia|discriminate]]. subst a. destruct (Z.eqb_spec b0 224); constructor; lia.
    + pose (a := if b0 =? 240 then 16 else 0).
      exists (64 * (64 * (64 * (b0 - 240) + a) + 0) + 0), [0xF0 + (b0 - 240); 0x80 + a; 0x80 + 0; 0x80 + 0], [0x80 + a; 0x80 + 0; 0x80 + 0].
      split; [|split; [cbn [app]; f_equal; lia|discriminate]]. subst a. destruct (Z.eqb_spec b0 240); constructor; lia.
Qed.
Lemma stub_three b0 b1 : 224 <= b0 <= 239 -> fits3 b0 b1 = true -> stub [b0; b1].
Proof.
  unfold fits3, is_cont, inr_. intros H F.
  exists (64 * (64 * (b0 - 224) + (b1 - 128)) + 0), [0xE0 + (b0 - 224); 0x80 + (b1 - 128); 0x80 + 0], [0x80 + 0].
  split; [|split; [cbn [app]; repeat f_equal; lia|discriminate]].
  destruct (Z.eqb_spec b0 224); [constructor; lia|]. destruct (Z.eqb_spec b0 237); constructor; lia.
Qed.
Lemma four b0 b1 b2 b3 : 240 <= b0 <= 244 -> fits4 b0 b1 = true -> is_cont b2 = true -> is_cont b3 = true ->
  exists c, utf8_char c [b0; b1; b2; b3].
Proof.
  unfold fits4, is_cont, inr_. intros H F C2 C3.
  exists (64 * (64 * (64 * (b0 - 240) + (b1 - 128)) + (b2 - 128)) + (b3 - 128)).
  replace [b0; b1; b2; b3] with [0xF0 + (b0 - 240); 0x80 + (b1 - 128); 0x80 + (b2 - 128); 0x80 + (b3 - 128)] by (repeat f_equal; lia).
  destruct (Z.eqb_spec b0 240); [constructor; lia|]. destruct (Z.eqb_spec b0 244); constructor; lia.
Qed.
Lemma stub_four b0 b1 : 240 <= b0 <= 244 -> fits4 b0 b1 = true -> stub [b0; b1].
Proof. intros H F. destruct (four b0 b1 128 128 H F eq_refl eq_refl) as [c U]. exists c, [b0; b1; 128; 128], [128; 128]. split; [exact U|]. split; [reflexivity|discriminate]. Qed.
Lemma stub_four3 b0 b1 b2 : 240 <= b0 <= 244 -> fits4 b0 b1 = true -> is_cont b2 = true -> stub [b0; b1; b2].
Proof. intros H F C. destruct (four b0 b1 b2 128 H F C eq_refl) as [c U]. exists c, [b0; b1; b2; 128], [128]. split; [exact U|]. split; [reflexivity|discriminate]. Qed.

(** To be a subpart, from its characterisation by leads. *)
Lemma step_bad l r : bytes l -> utf8_step l = Some (None, r) -> exists p, l = p ++ r /\ subpart p r.
Proof.
  intros B H.
  assert (NoC : forall c b x, utf8_char c b -> l <> b ++ x).
  { intros c b x U E. destruct (char_enc c b U) as [Sc ->]. rewrite E, (utf8_step_enc c x Sc) in H. discriminate. }
  assert (Go : forall p, l = p ++ r -> p <> [] -> stub p \/ length p = 1%nat -> (forall q x, stub q -> l = q ++ x -> (length q <= length p)%nat) ->
    exists p, l = p ++ r /\ subpart p r).
  { intros p -> Np Sp Mx. exists p. split; [reflexivity|]. split; [exact Np|]. split; [exact NoC|]. split; assumption. }
  unfold utf8_step in H. destruct l as [|b0 r0]; [discriminate|].
  destruct (b0 <? 128) eqn:E0; [discriminate|]. destruct (inr_ 194 223 b0) eqn:E1.
  { assert (r = r0) as -> by (destruct r0 as [|b1 r1]; [congruence|destruct (is_cont b1); congruence]).
    apply (Go [b0]); [reflexivity|discriminate|auto|]. intros q x Sq E. pose proof (stub_lead q Sq) as Q. unfold inr_ in E1.
    destruct q as [|a [|b [|c [|d q]]]]; cbn [length]; [lia|lia|..]; cbn [app] in E; injection E as -> ?; try (exfalso; exact Q); lia. }
  destruct (inr_ 224 239 b0) eqn:E2.
  { destruct r0 as [|b1 r1].
    { assert (r = []) as -> by congruence. apply (Go [b0]); [reflexivity|discriminate|auto|]. intros q x _ E. apply (f_equal (@length Z)) in E. rewrite app_length in E. cbn in *. lia. }
    change (if b0 =? 224 then inr_ 160 191 b1 else if b0 =? 237 then inr_ 128 159 b1 else is_cont b1) with (fits3 b0 b1) in H. cbv zeta in H.
    unfold inr_ in E2. destruct (fits3 b0 b1) eqn:F3.
    - assert (r = r1) as -> by (destruct r1 as [|b2 r2]; [congruence|destruct (is_cont b2); congruence]).
      apply (Go [b0; b1]); [reflexivity|discriminate|left; apply stub_three; [lia|exact F3]|]. intros q x Sq E. pose proof (stub_lead q Sq) as Q.
      destruct q as [|a [|b [|c [|d q]]]]; cbn [length]; [lia|lia|lia|..]; cbn [app] in E; injection E as -> ?; try (exfalso; exact Q); lia.
    - assert (r = b1 :: r1) as -> by congruence. apply (Go [b0]); [reflexivity|discriminate|auto|]. intros q x Sq E. pose proof (stub_lead q Sq) as Q.
      destruct q as [|a [|b [|c [|d q]]]]; cbn [length]; [lia|lia|..]; cbn [app] in E; injection E as -> ? ?; try (exfalso; exact Q); [|lia].
      subst. destruct Q as [[_ Q]|Q]; [congruence|lia]. }
  destruct (inr_ 240 244 b0) eqn:E3.
  2: { assert (r = r0) as -> by congruence. apply (Go [b0]); [reflexivity|discriminate|auto|]. intros q x Sq E. pose proof (stub_lead q Sq) as Q. unfold inr_ in *.
       destruct q as [|a [|b [|c [|d q]]]]; cbn [length]; [lia|lia|..]; cbn [app] in E; injection E as -> ?; try (exfalso; exact Q); lia. }
  destruct r0 as [|b1 r1].
  { assert (r = []) as -> by congruence. apply (Go [b0]); [reflexivity|discriminate|auto|]. intros q x _ E. apply (f_equal (@length Z)) in E. rewrite app_length in E. cbn in *. lia. }
  change (if b0 =? 240 then inr_ 144 191 b1 else if b0 =? 244 then inr_ 128 143 b1 else is_cont b1) with (fits4 b0 b1) in H. cbv zeta in H.
  unfold inr_ in E2, E3. destruct (fits4 b0 b1) eqn:F4.
  2: { assert (r = b1 :: r1) as -> by congruence. apply (Go [b0]); [reflexivity|discriminate|auto|]. intros q x Sq E. pose proof (stub_lead q Sq) as Q.
       destruct q as [|a [|b [|c [|d q]]]]; cbn [length]; [lia|lia|..]; cbn [app] in E; injection E as -> ? ?; try (exfalso; exact Q); subst.
       - destruct Q as [Q|[_ Q]]; [lia|congruence].
       - destruct Q as (_ & Q & _). congruence. }
  destruct r1 as [|b2 r2].
  { assert (r = []) as -> by congruence. apply (Go [b0; b1]); [reflexivity|discriminate|left; apply stub_four; [lia|exact F4]|].
    intros q x _ E. apply (f_equal (@length Z)) in E. rewrite app_length in E. cbn in *. lia. }
  destruct (is_cont b2) eqn:C2.
  2: { assert (r = b2 :: r2) as -> by congruence. apply (Go [b0; b1]); [reflexivity|discriminate|left; apply stub_four; [lia|exact F4]|].
       intros q x Sq E. pose proof (stub_lead q Sq) as Q.
       destruct q as [|a [|b [|c [|d q]]]]; cbn [length]; [lia|lia|lia|..]; cbn [app] in E; injection E as -> ? ? ?; try (exfalso; exact Q); subst.
       destruct Q as (_ & _ & Q). congruence. }
  assert (r = r2) as -> by (destruct r2 as [|b3 r3]; [congruence|destruct (is_cont b3); congruence]).
  apply (Go [b0; b1; b2]); [reflexivity|discriminate|left; apply stub_four3; [lia|exact F4|exact C2]|].
  intros q x Sq E. pose proof (stub_lead q Sq) as Q. destruct q as [|a [|b [|c [|d q]]]]; cbn [length]; try lia; exfalso; exact Q.
Qed.

Lemma step_end l : utf8_step l = None -> l = [].
Proof.
  destruct l as [|b0 r0]; [reflexivity|]. intro E. exfalso. unfold utf8_step in E.
  repeat match type of E with context [match ?x with _ => _ end] => destruct x; try discriminate end.
Qed.

Lemma lossy8_go f : forall l, bytes l -> (length l <= f)%nat -> lossy8 l (map or_repl (utf8_go f l)).
Proof.
  induction f as [|f IH]; intros l B L.
  - destruct l; [constructor|cbn in L; lia].
  - cbn [utf8_go]. destruct (utf8_step l) as [[[c|] r]|] eqn:E.
    + destruct (step_sound l c r B E) as (b & -> & U & N). apply bytes_app in B as [_ B]. cbn [map or_repl]. constructor; [exact U|].
      apply IH; [exact B|]. rewrite app_length in L. destruct b; [congruence|]. cbn in L. lia.
    + destruct (step_bad l r B E) as (p & -> & Sp). apply bytes_app in B as [_ B]. cbn [map or_repl]. apply lossy8_bad; [exact Sp|].
      apply IH; [exact B|]. rewrite app_length in L. destruct Sp as [N _]. destruct p; [congruence|]. cbn in L. lia.
    + apply step_end in E as ->. constructor.
Qed.
Lemma subpart_length p rest p' rest' : subpart p rest -> subpart p' rest' -> p ++ rest = p' ++ rest' -> (length p <= length p')%nat.
Proof.
  intros (N & _ & [S|S] & _) (N' & _ & _ & M) E; [apply (M p rest S); congruence|]. destruct p'; [congruence|]. cbn [length] in *. lia.
Qed.
Lemma app_same {A} (p p' r r' : list A) : length p = length p' -> p ++ r = p' ++ r' -> p = p' /\ r = r'.
Proof.
  revert p'. induction p as [|x p IH]; intros [|x' p'] L E; try discriminate; [auto|]. cbn in *. injection E as -> E. destruct (IH p') as [-> ->]; auto.
Qed.
Lemma lossy8_unique l t : lossy8 l t -> forall t', lossy8 l t' -> t = t'.
Proof.
  induction 1 as [|c b rest t U _ IH|p rest t Sp _ IH]; intros t' H.
  - inversion H as [|c b rest t U _ E|p rest t (N & _) _ E]; subst; [reflexivity|..].
    + destruct b; [|discriminate]. apply char_lead in U. contradiction.
    + destruct p; [congruence|discriminate].
  - inversion H as [E|c' b' rest' t1 U' H' E|p rest' t1 Sp H' E]; subst.
    + destruct b; [|discriminate]. apply char_lead in U. contradiction.
    + destruct (char_enc c b U) as [Sc ->]. destruct (char_enc c' b' U') as [Sc' ->].
      pose proof (utf8_step_enc c rest Sc) as A. rewrite <- E, (utf8_step_enc c' rest' Sc') in A. injection A as -> ->. f_equal. auto.
    + destruct Sp as (_ & No & _). exfalso. eapply No; eassumption.
  - inversion H as [E|c' b' rest' t1 U' H' E|p' rest' t1 Sp' H' E]; subst.
    + destruct Sp as (N & _). destruct p; [congruence|discriminate].
    + destruct Sp as (_ & No & _). exfalso. eapply No; [exact U'|symmetry; exact E].
    + destruct (app_same p p' rest rest') as [-> ->]; [|auto|f_equal; auto].
      apply Nat.le_antisymm; eapply subpart_length; eauto.
Qed.

Lemma lossy16_items l : Forall (fun u => 0 <= u < 65536) l -> lossy16 l (map or_repl (utf16_items l)).
Proof.
  remember (length l) as n eqn:L. assert (length l <= n)%nat by lia. clear L. revert l H.
  induction n as [|n IH]; intros l L F; destruct l as [|u r]; try (cbn in L; lia); try constructor.
  cbn [length] in L. inversion_clear F as [|? ? U F']. cbn [utf16_items]. destruct (is_low u) eqn:Lo; [|destruct (is_high u) eqn:Hi].
  - cbn [map or_repl]. unfold is_low, inr_ in Lo. apply lossy16_low; [lia|apply IH; [lia|exact F']].
  - unfold is_high, inr_ in Hi. destruct r as [|v r'].
    + apply lossy16_high; [lia|discriminate|constructor].
    + destruct (is_low v) eqn:Lv.
      * cbn [map or_repl]. unfold is_low, inr_ in Lv.
        inversion_clear F'. apply (lossy16_pair u v _ (u - 55296) (v - 56320)); [lia..|apply IH; [cbn in L; lia|assumption]].
      * change (lossy16 (u :: v :: r') (0xFFFD :: map or_repl (utf16_items (v :: r')))). apply lossy16_high; [lia| |apply IH; [lia|exact F']].
        intros v' r0 E. injection E as <- <-. unfold is_low, inr_ in Lv. lia.
  - cbn [map or_repl]. unfold is_low, is_high, inr_ in *. apply lossy16_one; [lia|apply IH; [lia|exact F']].
Qed.
Lemma lossy16_unique l t : lossy16 l t -> forall t', lossy16 l t' -> t = t'.
Proof.
  induction 1 as [|u rest t U _ IH|u v c h l rest t Hh Hl Eu Ev Ec _ IH|u rest t U _ IH|u rest t U N _ IH]; intros t' H;
    inversion H as [|u0 rest0 t0 U0 H0|u0 v0 c0 h0 l0 rest0 t0 Hh0 Hl0 Eu0 Ev0 Ec0 H0|u0 rest0 t0 U0 H0|u0 rest0 t0 U0 N0 H0];
    change (2 ^ 10) with 1024 in *; try lia; try reflexivity.
  - f_equal. subst. auto.
  - f_equal; [lia|]. subst. auto.
  - exfalso. eapply N0; [reflexivity|lia].
  - f_equal. subst. auto.
  - exfalso. eapply N; [symmetry; eassumption|lia].
  - f_equal. subst. auto.
Qed.
