(** C208-C212: vectors. *)
From Coq Require Import ZArith List Bool Lia Floats.SpecFloat.
From Verif.Model Require Import Base Vector.
From Verif.Proofs Require Import BaseL.

(** Numbers that fit i32. *)
Definition fits32 (z : Z) : Prop := - 2 ^ 31 <= z < 2 ^ 31.
Definition vec32 (a : vec) : Prop := fits32 (fst a) /\ fits32 (snd a).

(** C208: sums, differences and products that fit are exact, component by component. *)
Theorem C208_exact :
  forall ax ay bx by_,
    (fits32 (ax + bx) -> fits32 (ay + by_) -> vec_add (ax, ay) (bx, by_) = (ax + bx, ay + by_)) /\
    (fits32 (ax - bx) -> fits32 (ay - by_) -> vec_sub (ax, ay) (bx, by_) = (ax - bx, ay - by_)) /\
    (fits32 (ax * bx) -> fits32 (ay * by_) -> vec_mul (ax, ay) (bx, by_) = (ax * bx, ay * by_)).
Proof.
  unfold fits32, vec_add, vec_sub, vec_mul. intros. cbn [fst snd].
  repeat split; intros; rewrite !sext_small by (change (32 - 1) with 31; lia); reflexivity.
Qed.
Print Assumptions C208_exact.
Lemma sext_back x y : fits32 x -> sext 32 (sext 32 (x + y) - y) = x.
Proof.
  intro H. assert (E : wrap 32 (sext 32 (x + y) - y) = wrap 32 x).
  { rewrite <- wrap_sub_l, wrap_sext, wrap_sub_l by lia. f_equal. lia. }
  unfold sext at 1. rewrite E. apply (sext_small 32 x); [lia|exact H].
Qed.
(** C208: subtracting undoes adding, even when the sum does not fit. *)
Theorem C208_undone : forall a b, vec32 a -> vec_sub (vec_add a b) b = a.
Proof. intros [ax ay] [bx by_] [H1 H2]. unfold vec_sub, vec_add. cbn [fst snd] in *. rewrite !sext_back by assumption. reflexivity. Qed.
Print Assumptions C208_undone.
(** C208: division rounds toward zero: [a = q*b + r] with [r] smaller than [b] and of the sign of [a]. *)
Theorem C208_division :
  forall a b q, vec32 a -> vec32 b -> vec_div a b = Ok q ->
    let part x y z := y <> 0 /\ fits32 z /\ exists r, x = z * y + r /\ Z.abs r < Z.abs y /\ 0 <= r * x in
    part (fst a) (fst b) (fst q) /\ part (snd a) (snd b) (snd q).
Proof.
  assert (D : forall x y z, fits32 x -> fits32 y -> i32_div x y = Ok z ->
     y <> 0 /\ fits32 z /\ exists r, x = z * y + r /\ Z.abs r < Z.abs y /\ 0 <= r * x).
  { intros x y z Hx Hy. unfold i32_div. destruct (_ || _) eqn:E; [discriminate|]. intro Q. injection Q as <-.
    assert (y <> 0) by lia. split; [assumption|]. unfold fits32 in *. change (2 ^ 31) with 2147483648 in *.
    pose proof (Z.quot_rem' x y) as R. pose proof (Z.rem_bound_abs x y ltac:(lia)) as B. pose proof (Z.rem_sign_mul x y ltac:(lia)) as G.
    split.
    - assert (Hq : Z.abs (Z.quot x y) * Z.abs y <= Z.abs x).
      { rewrite <- Z.quot_abs, Z.quot_div_nonneg, Z.mul_comm by lia. apply Z.mul_div_le. lia. }
      destruct (Z.eq_dec (Z.abs y) 1); [|nia]. assert (y = 1 \/ y = -1) as [-> | ->] by lia; nia.
    - exists (Z.rem x y). repeat split; lia. }
  intros [ax ay] [bx by_] [qx qy] [A1 A2] [B1 B2] H. unfold vec_div in H. cbn [fst snd] in *.
  destruct (i32_div ax bx) as [x| | |] eqn:E1; try discriminate H. cbn [rbind] in H.
  destruct (i32_div ay by_) as [y| | |] eqn:E2; try discriminate H. cbn [rbind] in H. injection H as <- <-.
  split; apply D; assumption.
Qed.
Print Assumptions C208_division.
Example C208_ex :
  vec_add (3, -4) (10, 4) = (13, 0) /\ vec_div (-7, 7) (2, -2) = Ok (-3, -3) /\
  vec_sub (vec_add (2147483647, 0) (1, 0)) (1, 0) = (2147483647, 0).
Proof. repeat split. Qed.

(** C209: in release builds sums and products that do not fit are wrong without notice. *)
Theorem C209_overflow_refuted :
  exists a b, vec32 a /\ vec32 b /\ fst a + fst b > 0 /\ fst (vec_add a b) < 0 /\
              fst a * fst b > 0 /\ fst (vec_mul a b) < 0.
Proof. exists (1431655766, 0), (1431655765, 0). unfold vec32, fits32. cbn. lia. Qed.
Print Assumptions C209_overflow_refuted.

(** C210: division panics for a zero divisor, and for the minimum divided by -1; for nothing else. *)
Theorem C210_division_panics :
  forall a b, vec_div a b = Panic <->
    fst b = 0 \/ snd b = 0 \/ (fst a = - 2 ^ 31 /\ fst b = -1) \/ (snd a = - 2 ^ 31 /\ snd b = -1).
Proof.
  assert (D : forall x y, (i32_div x y = Panic /\ (y = 0 \/ (x = - 2 ^ 31 /\ y = -1))) \/
                          ((exists q, i32_div x y = Ok q) /\ ~ (y = 0 \/ (x = - 2 ^ 31 /\ y = -1)))).
  { intros x y. unfold i32_div. generalize (- 2 ^ 31). intro m.
    destruct (_ || _) eqn:E; [left|right]; (split; [try eexists; reflexivity|lia]). }
  intros [ax ay] [bx by_]. unfold vec_div. cbn [fst snd].
  destruct (D ax bx) as [[-> H]|[[q ->] H]]; cbn [rbind]; [tauto|].
  destruct (D ay by_) as [[-> H2]|[[q2 ->] H2]]; cbn [rbind]; [tauto|]. split; [discriminate|tauto].
Qed.
Print Assumptions C210_division_panics.
Example C210_ex : vec_div (- 2147483648, 1) (-1, 1) = Panic /\ vec_div (2147483647, 1) (-1, 1) = Ok (-2147483647, 1).
Proof. split; reflexivity. Qed.

Lemma square_neg x : SFmul 53 1024 (to_f64 (- x)) (to_f64 (- x)) = SFmul 53 1024 (to_f64 x) (to_f64 x).
Proof.
  assert (N : to_f64 (- x) = to_f64 x \/ to_f64 (- x) = SFopp (to_f64 x)).
  { destruct x as [|p|p]; [left; reflexivity|right|right]; unfold to_f64, binary_normalize, Z.opp;
    unfold binary_round; destruct (shl_align _ _ _) as [m e]; unfold binary_round_aux;
    destruct (shr_fexp _ _ _ _ _) as [s f]; destruct (shr_fexp _ _ _ _ _) as [s' f']; 
    destruct (shr_m s') as [|m'|]; try reflexivity; destruct (Z.leb _ _); reflexivity. }
  destruct N as [-> | ->]; [reflexivity|]. destruct (to_f64 x) as [b|b| |b m e]; cbn [SFopp SFmul]; rewrite ?xorb_nilpotent; reflexivity.
Qed.
Lemma sext_neg x : sext 32 (- x) = - sext 32 x \/ sext 32 (- x) = sext 32 x.
Proof.
  unfold sext, wrap. change (2 ^ (32 - 1)) with 2147483648. change (2 ^ 32) with 4294967296.
  pose proof (Z.mod_pos_bound x 4294967296 ltac:(lia)). pose proof (Z.mod_pos_bound (- x) 4294967296 ltac:(lia)).
  assert (E : (- x) mod 4294967296 = if x mod 4294967296 =? 0 then 0 else 4294967296 - x mod 4294967296).
  { destruct (Z.eqb_spec (x mod 4294967296) 0) as [E|E]; [apply Z.mod_opp_l_z; [lia|exact E]|apply Z.mod_opp_l_nz; [lia|exact E]]. }
  rewrite E. destruct (Z.eqb_spec (x mod 4294967296) 0); destruct (Z.ltb_spec (x mod 4294967296) 2147483648); 
    try (destruct (Z.ltb_spec (4294967296 - x mod 4294967296) 2147483648)); try (destruct (Z.ltb_spec 0 2147483648)); lia.
Qed.
(** C211: the distance is the same in both directions, and zero to the vector itself, whatever overflows. *)
Theorem C211_symmetric : forall a b, vec_distance a b = vec_distance b a.
Proof.
  intros [ax ay] [bx by_]. unfold vec_distance. cbn [fst snd].
  assert (Q : forall u v, SFmul 53 1024 (to_f64 (sext 32 (v - u))) (to_f64 (sext 32 (v - u)))
                        = SFmul 53 1024 (to_f64 (sext 32 (u - v))) (to_f64 (sext 32 (u - v)))).
  { intros u v. replace (v - u) with (- (u - v)) by lia. destruct (sext_neg (u - v)) as [-> | ->]; [apply square_neg|reflexivity]. }
  rewrite (Q ax bx), (Q ay by_). reflexivity.
Qed.
Print Assumptions C211_symmetric.
Theorem C211_self : forall a, vec_distance a a = S754_zero false.
Proof. intros [x y]. unfold vec_distance. cbn [fst snd]. rewrite !Z.sub_diag. reflexivity. Qed.
Print Assumptions C211_self.
Example C211_ex : vec_distance (1, 2) (4, -2) = to_f64 5 /\ vec_distance (4, -2) (1, 2) = to_f64 5.
Proof. split; vm_compute; reflexivity. Qed.

(** C212: it is not the distance when a difference does not fit: the ends of the axis are at distance 1. *)
Theorem C212_distance_refuted :
  exists a b, vec32 a /\ vec32 b /\ fst b - fst a > 4000000000 /\ vec_distance a b = to_f64 1.
Proof. exists (-2147483648, 0), (2147483647, 0). unfold vec32, fits32. cbn [fst snd]. split; [lia|]. split; [lia|]. split; [lia|vm_compute; reflexivity]. Qed.
Print Assumptions C212_distance_refuted.
