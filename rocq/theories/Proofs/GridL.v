(** Whole pictures from blocks, with and without the feature rayon; form 517. *)
From Coq Require Import ZArith List Bool Lia ZifyBool ZifyNat.
From Verif.Model Require Import Base Reader Png.
From Verif.Spec Require Import Wire Stream Pixel.
From Verif.Proofs Require Import BaseL AtL PngL DxtL.
Ltac Zify.zify_post_hook ::= idtac.

Lemma each_app {A S} (f : S -> A -> res S) l l' s s' : each f l s = Ok s' -> each f (l ++ l') s = each f l' s'.
Proof.
  revert s. induction l as [|a l IH]; intros s H; cbn in *.
  - injection H as ->. reflexivity.
  - destruct (f s a); try discriminate. cbn in *. apply IH. exact H.
Qed.

Lemma each_map {A B S} (f : S -> B -> res S) (g : A -> B) l s : each f (map g l) s = each (fun s a => f s (g a)) l s.
Proof. revert s. induction l as [|a l IH]; intros s; cbn; auto. destruct (f s (g a)); cbn; auto. Qed.

Lemma each_upto {S} (f : S -> Z -> res S) (I : Z -> S -> Prop) n s : 0 <= n -> I 0 s ->
  (forall i s, 0 <= i < n -> I i s -> exists s', f s i = Ok s' /\ I (i + 1) s') ->
  exists s', each f (upto n) s = Ok s' /\ I n s'.
Proof.
  intros Hn H0 H. assert (G : forall k, Z.of_nat k <= n -> exists s', each f (upto (Z.of_nat k)) s = Ok s' /\ I (Z.of_nat k) s').
  { induction k as [|k IH]; intros Hk.
    - exists s. auto.
    - destruct IH as (s1 & E & I1); [lia|]. destruct (H (Z.of_nat k) s1) as (s2 & F & I2); [lia|exact I1|].
      exists s2. replace (Z.of_nat (Datatypes.S k)) with (Z.of_nat k + 1) by lia. split; [|exact I2].
      rewrite upto_S by lia. rewrite (each_app _ _ _ _ _ E). cbn. rewrite F. reflexivity. }
  rewrite <- (Z2Nat.id n) by lia. apply G. lia.
Qed.

Lemma each_to {S} (f : S -> Z -> res S) (I : Z -> S -> Prop) (J : S -> Prop) n s : 0 <= n -> I 0 s ->
  (forall i s, 0 <= i < n -> I i s -> exists s', f s i = Ok s' /\ I (i + 1) s') ->
  (forall s, I n s -> J s) -> exists s', each f (upto n) s = Ok s' /\ J s'.
Proof. intros Hn H0 H K. destruct (each_upto f I n s Hn H0 H) as (s' & E & F). eauto. Qed.

Lemma skipn_twice {A} a b (l : list A) : skipn a (skipn b l) = skipn (b + a) l.
Proof. revert b. induction l as [|x l IH]; intros [|b]; cbn; auto. - apply skipn_nil. Qed.

Lemma chunks16_nth fuel raw k : (length raw <= fuel)%nat -> 0 <= k -> 16 * k < zlen raw ->
  nth_error (chunks16 fuel raw) (Z.to_nat k) = Some (firstn 16 (skipn (Z.to_nat (16 * k)) raw)).
Proof.
  unfold zlen. revert raw k. induction fuel as [|f IH]; intros raw k Hf H0 H; [lia|].
  destruct raw as [|a raw]; [cbn [length] in H; lia|]. remember (a :: raw) as l eqn:El.
  assert (L : (length l > 0)%nat) by (subst; cbn; lia).
  replace (chunks16 (S f) l) with (firstn 16 l :: chunks16 f (skipn 16 l)) by (rewrite El; reflexivity).
  destruct (Z.eq_dec k 0) as [->|N]; [reflexivity|].
  replace (Z.to_nat k) with (S (Z.to_nat (k - 1))) by lia. cbn [nth_error].
  rewrite IH; [|rewrite skipn_length; lia|lia|rewrite skipn_length; lia].
  do 2 f_equal. rewrite skipn_twice. f_equal. lia.
Qed.

Lemma chunks16_full fuel raw c : (length raw <= fuel)%nat -> (length raw mod 16 = 0)%nat -> bytes raw ->
  In c (chunks16 fuel raw) -> length c = 16%nat /\ bytes c.
Proof.
  revert raw. induction fuel as [|f IH]; intros raw Hf M Hb Hi; [destruct raw; destruct Hi|].
  destruct raw as [|a raw]; [destruct Hi|]. remember (a :: raw) as l eqn:El.
  assert (L : (length l > 0)%nat) by (subst; cbn; lia).
  replace (chunks16 (S f) l) with (firstn 16 l :: chunks16 f (skipn 16 l)) in Hi by (rewrite El; reflexivity).
  assert (16 <= length l)%nat by (clear - M L; pose proof (Nat.div_mod (length l) 16); lia).
  destruct Hi as [<-|Hi].
  - rewrite firstn_length. split; [lia|]. apply bytes_firstn. exact Hb.
  - apply (IH (skipn 16 l)); auto.
    + rewrite skipn_length. lia.
    + rewrite skipn_length. replace (length l) with ((length l - 16) + 1 * 16)%nat in M by lia.
      rewrite Nat.mod_add in M by lia. exact M.
    + apply bytes_skipn. exact Hb.
Qed.

Section grid.
  Variables (block : list Z -> res (list px)) (alpha : list Z -> Z -> Z -> Z).
  Hypothesis Hblock : forall c, length c = 16%nat -> bytes c -> block c = Ok (map (dxt_px by_order alpha c 0) (upto 16)).
  Hypothesis Halpha : forall raw p q, 0 <= p -> alpha (firstn 16 (skipn (Z.to_nat p) raw)) 0 q = alpha raw p q.

  Lemma in_block_range x y : 0 <= in_block x y < 16.
  Proof. unfold in_block. pose proof (Z.mod_pos_bound y 4). pose proof (Z.mod_pos_bound x 4). lia. Qed.

  Lemma img_dxt_any raw w h : bytes raw -> 0 <= w -> 0 <= h -> zlen raw mod 16 = 0 -> w * h < 2 ^ 32 ->
    (forall x y, 0 <= x < w -> 0 <= y < h -> block_of (w / 4) x y + 16 <= zlen raw) ->
    exists l, img_dxt block raw w h = Ok l /\
      picture w h l (fun x y => dxt_px by_order alpha raw (block_of (w / 4) x y) (in_block x y)).
  Proof.
    intros Hb Hw Hh Hm Hwh Hl. unfold img_dxt.
    assert (Hm' : (length raw mod 16 = 0)%nat) by (unfold zlen in Hm; apply Nat2Z.inj; rewrite Nat2Z.inj_mod; exact Hm).
    rewrite (traverse_ok _ (fun c => map (dxt_px by_order alpha c 0) (upto 16))).
    2: { intros c Hc. apply Hblock; eapply chunks16_full in Hc; auto; tauto. }
    cbn [rbind]. apply from_fn_picture; auto. intros x y Hx Hy. specialize (Hl x y Hx Hy).
    assert (Hq : 0 <= x / 4 + y / 4 * (w / 4) < 2 ^ 32).
    { assert (0 <= x / 4 <= x) by dlia. assert (0 <= y / 4 <= y) by dlia. assert (0 <= w / 4 <= w) by dlia. nia. }
    rewrite wrap_small by exact Hq. unfold block_of in *.
    unfold idx at 1. rewrite nth_error_map. rewrite chunks16_nth; [|lia|lia|unfold zlen in *; lia].
    cbn [option_map rbind]. unfold idx. rewrite nth_error_map.
    pose proof (in_block_range x y) as R. unfold in_block in *.
    replace (y mod 4 * 4 + x mod 4) with (4 * (y mod 4) + x mod 4) by lia.
    rewrite upto_nth by lia. cbn [option_map]. f_equal.
    replace (16 * (y / 4 * (w / 4) + x / 4)) with (16 * (x / 4 + y / 4 * (w / 4))) by lia.
    apply dxt_px_sub; [lia|]. intros q. apply Halpha. lia.
  Qed.

  Lemma img_dxt_picture raw w h : bytes raw -> 0 <= w -> 0 <= h -> w mod 4 = 0 -> zlen raw mod 16 = 0 -> w * h < 2 ^ 32 ->
    4 * w * div_ceil h 4 <= zlen raw ->
    exists l, img_dxt block raw w h = Ok l /\
      picture w h l (fun x y => dxt_px by_order alpha raw (block_of (w / 4) x y) (in_block x y)).
  Proof.
    intros Hb Hw Hh Hw4 Hm Hwh Hl. apply img_dxt_any; auto. intros x y Hx Hy. unfold block_of.
    assert (y / 4 + 1 <= div_ceil h 4) by (unfold div_ceil; destruct (Z.eqb_spec (h mod 4) 0); dlia).
    assert (x / 4 + 1 <= w / 4) by dlia. assert (w = 4 * (w / 4)) by dlia.
    assert (0 <= y / 4) by dlia. assert (0 <= x / 4) by dlia.
    assert (16 * ((w / 4) * div_ceil h 4) <= zlen raw) by nia. nia.
  Qed.

  Lemma img_dxt_serial_picture raw w h : bytes raw -> 0 <= w -> 0 <= h -> w mod 4 = 0 -> h mod 4 = 0 -> w * h < 2 ^ 32 ->
    w * h <= zlen raw ->
    exists l, img_dxt_serial block raw w h = Ok l /\
      picture w h l (fun x y => dxt_px by_order alpha raw (block_of (w / 4) x y) (in_block x y)).
  Proof.
    intros Hb Hw Hh Hw4 Hh4 Hwh Hl. unfold img_dxt_serial.
    set (g := fun x y => dxt_px by_order alpha raw (block_of (w / 4) x y) (in_block x y)).
    set (good := fun (V : Z -> Z -> Prop) (buf : Z -> px) =>
      forall x y, 0 <= x < w -> 0 <= y < h -> V x y -> buf (y * w + x) = g x y).
    assert (Put : forall (V V' : Z -> Z -> Prop) buf a b, good V buf -> 0 <= a < w -> 0 <= b < h ->
      (forall x y, V' x y -> V x y \/ (x = a /\ y = b)) ->
      exists buf', put_pixel w h buf a b (g a b) = Ok buf' /\ good V' buf').
    { intros V V' buf a b G Ha Hb' HV. unfold put_pixel. replace ((a <? w) && (b <? h)) with true by lia.
      eexists. split; [reflexivity|]. intros x y Hx Hy Hv. cbn.
      destruct (Z.eqb_spec (y * w + x) (b * w + a)) as [E|E].
      - assert (y = b) by nia. assert (x = a) by nia. subst. reflexivity.
      - destruct (HV x y Hv) as [W|[-> ->]]; [apply G; assumption|congruence]. }
    assert (Dw : div_ceil w 4 = w / 4) by (unfold div_ceil; rewrite Hw4; reflexivity).
    assert (Dh : div_ceil h 4 = h / 4) by (unfold div_ceil; rewrite Hh4; reflexivity).
    rewrite Dw, Dh, each_map.
    destruct (each_upto (fun buf j => each (fun buf x => rbind (range raw (wrap 32 (4 * j * w + x * 4)) (wrap 32 (4 * j * w + x * 4) + 16))
        (fun chunk => rbind (block chunk) (fun b => each (fun buf k => rbind (idx b k) (put_pixel w h buf (x + k mod 4) (4 * j + k / 4)))
             (upto 16) buf))) (map (fun i => 4 * i) (upto (w / 4))) buf)
       (fun j => good (fun x y => y < 4 * j)) (h / 4) (fun _ => [0; 0; 0; 0])) as (buf & E & G).
    - dlia.
    - intros x y Hx Hy V. lia.
    - intros j s Hj G. rewrite each_map.
      apply (each_to _ (fun i => good (fun x y => y < 4 * j \/ (y < 4 * j + 4 /\ x < 4 * i)))).
      + dlia.
      + intros x y Hx Hy [V|V]; [apply G; assumption|lia].
      + intros i s1 Hi G1.
        assert (O : wrap 32 (4 * j * w + 4 * i * 4) = 16 * (j * (w / 4) + i)).
        { assert (W : w = 4 * (w / 4)) by dlia. assert (H4 : h = 4 * (h / 4)) by dlia.
          rewrite wrap_small; [nia|]. split; [nia|].
          apply Z.lt_le_trans with (w * h); [|lia]. nia. }
        rewrite O.
        assert (B : 16 * (j * (w / 4) + i) + 16 <= zlen raw).
        { assert (W : w = 4 * (w / 4)) by dlia. assert (H4 : h = 4 * (h / 4)) by dlia. 
          assert ((j + 1) * (w / 4) <= h / 4 * (w / 4)) by (apply Z.mul_le_mono_nonneg_r; dlia). nia. }
        assert (P0 : 0 <= 16 * (j * (w / 4) + i)) by nia.
        unfold range. rewrite slice_firstn by lia.
        replace (Z.to_nat (16 * (j * (w / 4) + i) + 16 - 16 * (j * (w / 4) + i))) with 16%nat by lia.
        cbn [rbind]. rewrite Hblock.
        2: { rewrite firstn_length, skipn_length. unfold zlen in B. lia. }
        2: { apply bytes_firstn, bytes_skipn, Hb. }
        cbn [rbind].
        destruct (each_upto (fun buf k => rbind (idx (map (dxt_px by_order alpha
            (firstn 16 (skipn (Z.to_nat (16 * (j * (w / 4) + i))) raw)) 0) (upto 16)) k)
            (put_pixel w h buf (4 * i + k mod 4) (4 * j + k / 4)))
          (fun k => good (fun x y => (y < 4 * j \/ (y < 4 * j + 4 /\ x < 4 * i)) \/
              (4 * j <= y < 4 * j + 4 /\ 4 * i <= x < 4 * i + 4 /\ in_block x y < k))) 16 s1) as (s2 & E2 & G2).
        * lia.
        * intros x y Hx Hy [V|V]; [apply G1; assumption|]. pose proof (in_block_range x y). lia.
        * intros k s2 Hk G2. unfold idx. rewrite nth_error_map, upto_nth by lia. cbn [option_map rbind].
          rewrite dxt_px_sub by (lia || (intros; apply Halpha; lia)).
          replace (dxt_px by_order alpha raw (16 * (j * (w / 4) + i)) k) with (g (4 * i + k mod 4) (4 * j + k / 4)).
          2: { unfold g, block_of, in_block. f_equal; [|dlia].
               replace ((4 * j + k / 4) / 4) with j by dlia. replace ((4 * i + k mod 4) / 4) with i by dlia. reflexivity. }
          eapply Put; [exact G2|dlia|dlia|]. cbn beta. intros x y [V|(V1 & V2 & V3)]; [left; left; exact V|].
          destruct (Z_lt_dec (in_block x y) k) as [L|L]; [left; right; auto|]. right.
          unfold in_block in *. assert (in_block x y = k) by (unfold in_block; lia). unfold in_block in *. dlia.
        * exists s2. split; [exact E2|]. intros x y Hx Hy V. apply G2; auto.
          destruct (Z_lt_dec y (4 * j)) as [L|L]; [left; left; exact L|].
          destruct (Z_lt_dec x (4 * i)) as [L'|L']; [left; right; lia|]. right.
          pose proof (in_block_range x y). lia.
      + intros s' G' x y Hx Hy V. apply G'; auto. right. dlia.
    - rewrite E. unfold rmap. cbn [rbind]. eexists. split; [reflexivity|]. split.
      + rewrite map_length, upto_length. nia.
      + intros x y Hx Hy. rewrite nth_error_map, upto_nth by nia. cbn. f_equal. apply G; auto. dlia.
  Qed.
End grid.
